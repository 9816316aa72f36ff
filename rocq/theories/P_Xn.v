(** * P_Xn: property theorems (generated from XnThms.v by tools/gen_props.py). *)
From Verif Require Import Base PbModel PbSpec MtModel NiModel NiSpec DuModel RwModel RwThms XnThms.

(** C06, lists of 32-bit deltas (written, but no reader for them): they are the list of the differences wrapped to 32
    bits, so that reading that list and adding up, again in 32 bits, gives the values back. *)
Theorem C06_s32_deltas : forall pre post e l, bytes pre -> bytes post -> Forall is_s32 l ->
  let w := EncodeS32PackedDelta pre l in
  zlen (w ++ post) < 2^63 ->
  exists ds, w = EncodeS32Packed pre ds /\ Forall is_s32 ds /\ DecodeS32Packed (mkslice (w ++ post) e) (zlen pre) = Ok (ds, zlen w) /\
    List.length ds = List.length l /\
    forall i v, nth_error l i = Some v -> v = s32 (fold_left Z.add (firstn (Datatypes.S i) ds) 0).
Proof. exact pC06_s32_deltas. Qed.
Print Assumptions C06_s32_deltas.

Example C06_s32_deltas_ex : EncodeS32PackedDelta [] [2^31 - 1; -2^31; -2^31 + 5] = EncodeS32Packed [] [2^31 - 1; 1; 5].
Proof. exact pC06_s32_deltas_ex. Qed.

(** C51, the other way round: over any index, whatever is in it, a dump that ends reports exactly the positions whose
    stored word is not the one that a search for their id finds. *)
Theorem C51_reports : forall si start end_ ms, dump_mismatches si start end_ = Ok ms ->
  forall e k, In (e, k) ms <->
    (match start with Some s => s | None => 0 end <= e < zlen (si_element si) /\ (forall e', end_ = Some e' -> e < e')) /\
    exists el, lidx (si_element si) e = Ok el /\ 0 <= k < ie_Count el /\ differs si el k.
Proof. exact pC51_reports. Qed.
Print Assumptions C51_reports.

(** The check is not blind (C51_ex): both reported positions, and one that is not. *)
Example C51_reports_ex : let si := sub_index_of [mkRange 20 2 3; mkRange 10 3 0] [-5; 0; -7; -8; -9; -10] 22 in
  dump_mismatches si None None = Ok [(1, 0); (1, 2)] /\ differs si (elem_of (mkRange 10 3 0)) 2 /\ ~ differs si (elem_of (mkRange 20 2 3)) 1.
Proof. exact pC51_reports_ex. Qed.

Theorem C51_lines : forall o si n cur lines, nd_PrintLocations o = true -> nd_SearchIndex o = true ->
  node_dump_elements o si n cur = Ok lines -> exists ms, dump_elements si n cur = Ok ms /\ List.length (filter is_mismatch lines) = List.length ms.
Proof. exact pC51_lines. Qed.
Print Assumptions C51_lines.

(** C54: the name of the file of a pass is the output's with the two numbers, each in decimal and to at least three
    places, so different passes never share a file. *)
Theorem C54_names : forall fn pass count, 0 <= pass < 2^64 -> 0 <= count < 2^64 ->
  (exists a b, makePassFilename fn pass count = fn ++ bytes_of ".pass_" ++ a ++ bytes_of "_" ++ b /\ three_places pass a /\ three_places count b) /\
  forall pass' count', 0 <= pass' < 2^64 -> 0 <= count' < 2^64 -> makePassFilename fn pass count = makePassFilename fn pass' count' -> pass = pass' /\ count = count'.
Proof. exact pC54_names. Qed.
Print Assumptions C54_names.

Example C54_names_ex : makePassFilename (bytes_of "out") 7 1234 = bytes_of "out.pass_007_1234".
Proof. exact pC54_names_ex. Qed.
