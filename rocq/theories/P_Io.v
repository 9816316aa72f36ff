(** * P_Io: property theorems (generated from IoThms.v by tools/gen_props.py). *)
From Verif Require Import Base PbSpec IoModel IoSpec IoThms.

(** C68.  Writing a buffer to a file being appended to, for every operating system:
    the call always ends, the file has grown by an initial part of the buffer, by the whole
    buffer if the call returns; it returns if every write makes progress without error; if
    it does not return it panics with the error or "zero write". *)
Theorem C68_write : forall o k f buf, at_end f ->
  exists k' f' r, FWrite o k f buf = (k', f', r) /\ at_end f' /\ r <> Diverge /\
    (exists part, prefix part buf /\ f_data f' = f_data f ++ part) /\
    (r = Ok tt -> f_data f' = f_data f ++ buf) /\
    (writes_progress o -> r = Ok tt) /\
    (forall p, r = Panic p -> p = IOError \/ p = PanicMsg "zero write").
Proof. exact pC68_write. Qed.
Print Assumptions C68_write.

(** C68, words.  Index and header words are written by a single call; for every operating
    system: the file has grown by an initial part of the words' bytes, by all of them if the call returns; it
    returns if the write is complete and without error; a write that is not complete never
    goes unnoticed. *)
Theorem C68_write_words : forall o k f ws, at_end f ->
  exists k' f' r, FWriteSlice o k f ws = (k', f', r) /\ at_end f' /\ r <> Diverge /\
    (exists part, prefix part (SliceAsByteSlice ws) /\ f_data f' = f_data f ++ part) /\
    (r = Ok tt -> f_data f' = f_data f ++ SliceAsByteSlice ws) /\
    (writes_whole o -> r = Ok tt) /\
    (forall p, r = Panic p -> p = IOError \/ p = PanicMsg "torn write").
Proof. exact pC68_write_words. Qed.
Print Assumptions C68_write_words.

Example C68_ex :
  let o := mkOS (fun k n => (Z.of_nat k mod 3 + 1, false)) (fun _ => (1, NoErr)) (fun _ => false) (fun _ => false) in
  writes_progress o /\ FWrite o 0 (mkFile [9] 1) [1; 2; 3; 4; 5] = (3%nat, mkFile [9; 1; 2; 3; 4; 5] 6, Ok tt) /\
  FWrite (mkOS (fun k n => (match k with O => 2 | _ => 0 end, false)) (fun _ => (1, NoErr)) (fun _ => false) (fun _ => false)) 0 (mkFile [] 0) [1; 2; 3]
    = (2%nat, mkFile [1; 2] 2, Panic (PanicMsg "zero write")) /\
  FWriteSlice o 0 (mkFile [9] 1) [258] = (1%nat, mkFile [9; 2] 2, Panic (PanicMsg "torn write")).
Proof. exact pC68_ex. Qed.

(** C69.  Copying file [src] from its start to the end of [dst], for every operating
    system: the loop ends; the destination has grown by an initial part of the source; if
    reads and writes make progress the loop returns, and if moreover the run is never found
    cancelled the whole source is copied. *)
Theorem C69_copy : forall o k dst src fuel, at_end dst -> (List.length src < fuel)%nat ->
  exists k' dst' src' r, copy_loop fuel o k dst (mkFile src 0) copyBufferSize = (k', dst', src', r) /\ r <> Diverge /\
    at_end dst' /\ f_data src' = src /\
    exists part, prefix part src /\ f_data dst' = f_data dst ++ part /\
      (writes_progress o -> reads_progress o -> r = Ok tt /\ (never_cancelled o -> part = src)).
Proof. exact pC69_copy. Qed.
Print Assumptions C69_copy.

Example C69_ex :
  let o := mkOS (fun k n => (Z.of_nat k mod 2 + 1, false)) (fun k => (Z.of_nat k mod 3 + 1, NoErr)) (fun _ => false) (fun _ => false) in
  let o' := mkOS (fun k n => (9, false)) (fun k => (2, NoErr)) (fun _ => false) (fun k => (5 <? Z.of_nat k)) in
  writes_progress o /\ reads_progress o /\
  copy_loop 8 o 0 (mkFile [0; 0] 2) (mkFile [1; 2; 3; 4; 5] 0) copyBufferSize = (10%nat, mkFile [0; 0; 1; 2; 3; 4; 5] 7, mkFile [1; 2; 3; 4; 5] 5, Ok tt) /\
  copy_loop 8 o' 0 (mkFile [0; 0] 2) (mkFile [1; 2; 3; 4; 5] 0) copyBufferSize = (7%nat, mkFile [0; 0; 1; 2; 3; 4] 6, mkFile [1; 2; 3; 4; 5] 4, Ok tt).
Proof. exact pC69_ex. Qed.

(** C70.  Words to bytes: eight bytes per word, least significant first.  Back: the same
    words, whatever up to seven bytes follow.  Bytes to words: one word for every eight
    bytes, a trailing part ignored; word [j] has the value of bytes [8j..8j+7], least
    significant first. *)
Theorem C70_words_to_bytes : forall ws, bytes (SliceAsByteSlice ws) /\ zlen (SliceAsByteSlice ws) = 8 * zlen ws /\
  forall j i w, nth_error ws j = Some w -> (i < 8)%nat ->
    nth (8 * j + i) (SliceAsByteSlice ws) 0 = w / 2^(8 * Z.of_nat i) mod 2^8.
Proof. exact pC70_words_to_bytes. Qed.
Print Assumptions C70_words_to_bytes.

Theorem C70_roundtrip : forall ws rest, zlen rest < 8 ->
  (Forall is_s64 ws -> ByteSliceAsInt64Slice (SliceAsByteSlice ws ++ rest) = ws) /\
  (Forall is_u64 ws -> ByteSliceAsUint64Slice (SliceAsByteSlice ws ++ rest) = ws).
Proof. exact pC70_roundtrip. Qed.
Print Assumptions C70_roundtrip.

Theorem C70_bytes_to_words : forall b,
  zlen (ByteSliceAsInt64Slice b) = zlen b / 8 /\ zlen (ByteSliceAsUint64Slice b) = zlen b / 8 /\
  forall j, 8 * (Z.of_nat j + 1) <= zlen b ->
    nth_error (ByteSliceAsInt64Slice b) j = Some (s64 (word_at b j)) /\ nth_error (ByteSliceAsUint64Slice b) j = Some (word_at b j).
Proof. exact pC70_bytes_to_words. Qed.
Print Assumptions C70_bytes_to_words.

(** C70.  Bytes to pairs of words (the elements of the node index): one pair for every sixteen bytes, the
    first word first. *)
Theorem C70_bytes_to_pairs : forall b,
  zlen (ByteSliceAsPairSlice b) = zlen b / 16 /\
  forall j, 16 * (Z.of_nat j + 1) <= zlen b ->
    nth_error (ByteSliceAsPairSlice b) j = Some (word_at b (2 * j), word_at b (2 * j + 1)).
Proof. exact pC70_bytes_to_pairs. Qed.
Print Assumptions C70_bytes_to_pairs.

Example C70_ex :
  SliceAsByteSlice [258; -1] = [2; 1; 0; 0; 0; 0; 0; 0; 255; 255; 255; 255; 255; 255; 255; 255] /\
  ByteSliceAsInt64Slice [2; 1; 0; 0; 0; 0; 0; 0; 255; 255; 255; 255; 255; 255; 255; 255; 7; 7] = [258; -1] /\ Forall is_s64 [258; -1] /\
  ByteSliceAsPairSlice (SliceAsByteSlice [258; 7; 9; 2^64 - 1] ++ [1; 2]) = [(258, 7); (9, 2^64 - 1)].
Proof. exact pC70_ex. Qed.
