(** * P_Wt: property theorems (generated from WtThms.v by tools/gen_props.py). *)
From Verif Require Import Base PbSpec TModel FrModel ZlModel PbModel IoModel IoSpec WiModel WiSpec TnSpec WiThms WtThms.

(** C96.  However a run of the way indexer ends - any write cut short or failing, any other call failing, cancelled or not - the file it leaves
    never gives wrong locations: if it opens and a pass of it can be made, what a lookup finds is what is kept of the refs of the way with that
    id.  (Partial: if the write of the 16 bytes of the header is not cut, or the alignment is 1 and there are less than 256 ways, see below.) *)
Theorem C96_never_wrong_partial : forall o a inBlocks wss, 0 <= a <= 62 -> Forall2 ways_block inBlocks wss ->
  header_whole o \/ (a = 0 /\ zlen (concat wss) < 256) ->
  Forall (fun w => 0 <= fst w < 2^31 /\ Forall is_s64 (snd w)) (concat wss) -> ascending_by fst (concat wss) ->
  size_bound a (concat wss) <= 2^(33 + a) -> size_bound a (concat wss) < 2^62 ->
  forall ix pass count si id hint locs h, NewWayIndex (f_data (w_idx (fst (wi_index o a inBlocks)))) = Ok ix ->
    SubIndexWithScaledPass ix pass count = Ok si -> FindLocations si id hint = Ok (locs, h, true) ->
    exists refs, In (id, refs) (concat wss) /\ locs = kept 0 refs.
Proof. exact pC96_never_wrong_partial. Qed.
Print Assumptions C96_never_wrong_partial.

(** a write is cut; one read only, and the close at the end fails *)
Example C96_ex : let o := mkOS (fun k n => if (n =? 16) then (n, false) else (n - 1, false)) (fun _ => (20, NoErr)) (fun _ => false) (fun _ => false) in
  let o' := mkOS (fun k n => (n, false)) (fun k => if (k =? 9)%nat then (20, NoErr) else (0, EOF)) (fun k => (17 <=? k)%nat) (fun _ => false) in
  Forall2 ways_block ex_wi_blocks ex_wi_ways /\ header_whole o /\ header_whole o' /\
  (exists w, wi_index o 4 ex_wi_blocks = (w, Panic (PanicMsg "zero write"))) /\
  exists w ix si, wi_index o' 4 ex_wi_blocks = (w, Panic IOError) /\ NewWayIndex (f_data (w_idx w)) = Ok ix /\ zlen (wi_Loc ix) = 20 /\ SubIndexWithScaledPass ix 0 1 = Ok si /\
    FindLocations si 5 0 = Ok ([3; 4], 0, true) /\ FindLocations si 8 0 = Ok ([], 0, false).
Proof. exact pC96_ex. Qed.

(** C96 is false of the code if the write of the header can be cut: if it stops after its first word, the file opens and for way 7,
    whose nodes have the location -9, gives the location 1. *)
Theorem C96_torn_header_refuted : let o := mkOS (fun k n => if (k <? 16)%nat then (n, false) else (8, true)) (fun _ => (1048576, NoErr)) (fun _ => false) (fun _ => false) in
  Forall2 ways_block ex_wi_blocks ex_wi_ways /\ In (7, [0; -9]) (concat ex_wi_ways) /\ kept 0 [0; -9] = [-9] /\
  exists w ix si, wi_index o 4 ex_wi_blocks = (w, Panic IOError) /\ NewWayIndex (f_data (w_idx w)) = Ok ix /\ SubIndexWithScaledPass ix 0 1 = Ok si /\
    FindLocations si 7 0 = Ok ([1], 1, true).
Proof. exact pC96_torn_header_refuted. Qed.
Print Assumptions C96_torn_header_refuted.
