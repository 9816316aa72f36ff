(** * P_Wi: property theorems (generated from WiThms.v by tools/gen_props.py). *)
From Verif Require Import Base PbSpec PbModel TModel HLModel FrModel ZlModel IoModel IoSpec WiModel WiSpec WiThms.

(** C55, for ids below 2^31 and offsets below 2^33. *)
Theorem C55_packing_partial : forall id off, 0 <= id < 2^31 -> 0 <= off < 2^33 ->
  exists d, MakeIndexData id off = Ok d /\ is_u64 d /\ wd_WayID d = id /\ wd_Offset d = off.
Proof. exact pC55_packing_partial. Qed.
Print Assumptions C55_packing_partial.

(** What is above the limits is rejected. *)
Theorem C55_rejected : forall id off, 2^31 < id \/ 2^33 < off -> exists p, MakeIndexData id off = Panic p.
Proof. exact pC55_rejected. Qed.
Print Assumptions C55_rejected.

(** C55 is false of the code at the limits and for negative arguments: way 2^31 is stored as
    way 0, offset 2^33 of way 6 as offset 0 of way 7, way -1 as way 2^31 - 1, and offset -1 of
    way 6 as the last offset of way 2^31 - 1. *)
Theorem C55_limits_refuted : exists a b c d,
  MakeIndexData (2^31) 5 = Ok a /\ wd_WayID a = 0 /\ wd_Offset a = 5 /\
  MakeIndexData 6 (2^33) = Ok b /\ wd_WayID b = 7 /\ wd_Offset b = 0 /\
  MakeIndexData (-1) 5 = Ok c /\ wd_WayID c = 2^31 - 1 /\ wd_Offset c = 5 /\
  MakeIndexData 6 (-1) = Ok d /\ wd_WayID d = 2^31 - 1 /\ wd_Offset d = 2^33 - 1.
Proof. exact pC55_limits_refuted. Qed.
Print Assumptions C55_limits_refuted.

Example C55_ex : exists d, MakeIndexData (2^31 - 1) (2^33 - 1) = Ok d /\ wd_WayID d = 2^31 - 1 /\ wd_Offset d = 2^33 - 1.
Proof. exact pC55_ex. Qed.

(** C56.  The locations the worker makes of a block of ways are one block per way, one after the
    other; each is what is kept of its refs, then 1 to 2^a zero bytes; each length is a
    multiple of 2^a, and the entry of a way points to the start of its block. *)
Theorem C56_blocks : forall a p ds out, 0 <= a <= 62 -> Forall (fun w => is_s64 (fst w)) (block_ways p) -> wi_batch a p = Ok (ds, out) ->
  exists blocks, Forall2 (fun w b => way_block a (snd w) b) (block_ways p) blocks /\ out = concat blocks /\
    List.length ds = List.length blocks /\
    forall k w d, nth_error (block_ways p) k = Some w -> nth_error ds k = Some d ->
      0 <= fst w < 2^31 -> zlen (concat (firstn k blocks)) < 2^(33 + a) ->
      wd_WayID d = fst w /\ wd_Offset d * 2^a = zlen (concat (firstn k blocks)).
Proof. exact pC56_blocks. Qed.
Print Assumptions C56_blocks.

(** C56.  It does not panic if the ids are below 2^31 and the locations are not too large. *)
Theorem C56_works : forall a p, 0 <= a <= 62 -> Forall (fun w => 0 <= fst w < 2^31) (block_ways p) -> size_bound a (block_ways p) <= 2^(33 + a) ->
  exists ds out, wi_batch a p = Ok (ds, out).
Proof. exact pC56_works. Qed.
Print Assumptions C56_works.

Example C56_ex : Forall (fun w => 0 <= fst w < 2^31) (block_ways ex_wb) /\ size_bound 2 (block_ways ex_wb) <= 2^35 /\
  wi_batch 2 ex_wb = Ok ([5 * 2^33; 9 * 2^33 + 1; 12 * 2^33 + 2], [6; 1; 0; 0] ++ [0; 0; 0; 0] ++ [1; 1; 1; 0] ++ [0; 0; 0; 0]).
Proof. exact pC56_ex. Qed.

(** C57.  A lookup in a well-formed index gives the locations of the entry with that id and its
    number; it fails, keeping the hint, if there is none. *)
Theorem C57_lookup : forall es loc shift L top id hint, way_index_ok es loc shift -> (forall e, In e es -> stored loc (position shift e) (L e)) ->
  (forall e, In e es -> e_id e <= top) -> 0 <= hint ->
  FindLocations (mkSWI (map word_of es) loc shift top) id hint =
  match find_entry es id 0 with
  | Some (e, i) => Ok (L e, i, true)
  | None => Ok ([], hint, false)
  end.
Proof. exact pC57_lookup. Qed.
Print Assumptions C57_lookup.

(** C57.  All ways of a file are indexed; the index opens; every way is found with what is
    kept of its refs, whatever the hint, and no other id is found. *)
Theorem C57_every_way : forall o a inBlocks wss, all_well o -> 0 <= a <= 62 -> Forall2 ways_block inBlocks wss -> concat wss <> [] ->
  Forall (fun w => 0 <= fst w < 2^31 /\ Forall is_s64 (snd w)) (concat wss) -> ascending_by fst (concat wss) ->
  size_bound a (concat wss) <= 2^(33 + a) -> size_bound a (concat wss) < 2^62 ->
  exists w ix si, wi_index o a inBlocks = (w, Ok tt) /\ NewWayIndex (f_data (w_idx w)) = Ok ix /\ SubIndexWithScaledPass ix 0 1 = Ok si /\
    (forall id refs hint, In (id, refs) (concat wss) -> 0 <= hint -> exists h, FindLocations si id hint = Ok (kept 0 refs, h, true)) /\
    (forall id hint, ~ In id (map fst (concat wss)) -> 0 <= hint -> FindLocations si id hint = Ok ([], hint, false)).
Proof. exact pC57_every_way. Qed.
Print Assumptions C57_every_way.

Example C57_ex : all_well os_fine /\ Forall2 ways_block ex_wi_blocks ex_wi_ways /\ concat ex_wi_ways = [(5, [3; 3; 4]); (7, [0; -9]); (8, [])] /\
  Forall (fun w => 0 <= fst w < 2^31 /\ Forall is_s64 (snd w)) (concat ex_wi_ways) /\ ascending_by fst (concat ex_wi_ways) /\
  size_bound 4 (concat ex_wi_ways) < 2^37 /\
  exists w ix si, wi_index os_fine 4 ex_wi_blocks = (w, Ok tt) /\ NewWayIndex (f_data (w_idx w)) = Ok ix /\ SubIndexWithScaledPass ix 0 1 = Ok si /\
    FindLocations si 7 0 = Ok ([-9], 1, true) /\ FindLocations si 5 2 = Ok ([3; 4], 0, true) /\ FindLocations si 6 2 = Ok ([], 2, false).
Proof. exact pC57_ex. Qed.

(** C58.  What pass [k] of [n] contains: the entries that start in the [k]-th of [n] equal parts
    of the locations (all entries if none starts there or later); it panics if no entry starts
    before the end of that part. *)
Theorem C58_pass : forall es loc shift k n, way_index_ok es loc shift -> 1 <= n -> 0 <= k < n ->
  let q := zlen loc / n in
  ((forall e, In e es -> q * (k + 1) <= position shift e) -> SubIndexWithScaledPass (way_index_of es loc shift) k n = Panic IndexOutOfRange) /\
  ((exists e, In e es /\ position shift e < q * (k + 1)) -> exists top,
    SubIndexWithScaledPass (way_index_of es loc shift) k n = Ok (mkSWI (map word_of (pass_of shift (q * k) (q * (k + 1)) es)) loc shift top) /\
    forall e, In e (pass_of shift (q * k) (q * (k + 1)) es) -> e_id e <= top).
Proof. exact pC58_pass. Qed.
Print Assumptions C58_pass.

(** C58.  No pass panics unless there are more passes than bytes; and a way is found in some pass exactly if it starts before n * (length / n). *)
Theorem C58_found_partial : forall es loc shift n L, way_index_ok es loc shift -> (forall e, In e es -> stored loc (position shift e) (L e)) ->
  (exists e, In e es /\ position shift e = 0) -> 1 <= n <= zlen loc ->
  (forall k, 0 <= k < n -> exists si, SubIndexWithScaledPass (way_index_of es loc shift) k n = Ok si) /\
  forall e, In e es ->
    ((exists k si, 0 <= k < n /\ SubIndexWithScaledPass (way_index_of es loc shift) k n = Ok si /\
        forall hint, 0 <= hint -> exists h, FindLocations si (e_id e) hint = Ok (L e, h, true))
     <-> position shift e < zlen loc / n * n).
Proof. exact pC58_found_partial. Qed.
Print Assumptions C58_found_partial.

(** C58.  In particular with at most 2^shift passes every way is found in some pass. *)
Theorem C58_all_found_partial : forall es loc shift n L, way_index_ok es loc shift -> (forall e, In e es -> stored loc (position shift e) (L e)) ->
  (exists e, In e es /\ position shift e = 0) -> (forall e, In e es -> position shift e + 2^shift <= zlen loc) -> 1 <= n <= 2^shift ->
  forall e, In e es -> exists k si, 0 <= k < n /\ SubIndexWithScaledPass (way_index_of es loc shift) k n = Ok si /\
    forall hint, 0 <= hint -> exists h, FindLocations si (e_id e) hint = Ok (L e, h, true).
Proof. exact pC58_all_found_partial. Qed.
Print Assumptions C58_all_found_partial.

Example C58_ex : way_index_ok ex_pass_es ex_pass_loc 3 /\ (forall e, In e ex_pass_es -> stored ex_pass_loc (position 3 e) (ex_L e)) /\
  (exists e, In e ex_pass_es /\ position 3 e = 0) /\ (forall e, In e ex_pass_es -> position 3 e + 2^3 <= zlen ex_pass_loc) /\ zlen ex_pass_loc = 80.
Proof. exact pC58_ex. Qed.

(** C58 is false of the code: in nine passes over these ten ways the last one is found in none,
    though no pass panics. *)
Theorem C58_lost_way_refuted : forall k, 0 <= k < 9 -> exists si, SubIndexWithScaledPass (way_index_of ex_pass_es ex_pass_loc 3) k 9 = Ok si /\
  In (mkEntry 10 9) ex_pass_es /\ FindLocations si 10 0 = Ok ([], 0, false).
Proof. exact pC58_lost_way_refuted. Qed.
Print Assumptions C58_lost_way_refuted.

(** C58 is false of the code: an index without ways, or with fewer bytes than passes, panics. *)
Theorem C58_panics_refuted : forall es loc shift k n, way_index_ok es loc shift -> 1 <= n -> 0 <= k < n -> es = [] \/ zlen loc < n ->
  SubIndexWithScaledPass (way_index_of es loc shift) k n = Panic IndexOutOfRange.
Proof. exact pC58_panics_refuted. Qed.
Print Assumptions C58_panics_refuted.

(** C59.  What the writer writes opens as an index with the same entries, locations and alignment. *)
Theorem C59_roundtrip : forall o shift msgs bs, all_well o -> 0 <= shift <= 62 -> ways_typed msgs -> Forall2 batch_as (way_batches msgs) bs ->
  Forall (fun b => (2^shift | zlen (snd b))) bs -> Forall entry_ok (merged shift 0 bs) -> zlen (locs_of bs) < 2^62 -> zlen (merged shift 0 bs) < 2^59 ->
  exists w, wi_output o shift msgs w0 = (w, Ok tt) /\
    NewWayIndex (f_data (w_idx w)) = Ok (way_index_of (merged shift 0 bs) (locs_of bs) shift).
Proof. exact pC59_roundtrip. Qed.
Print Assumptions C59_roundtrip.

Example C59_ex : ways_typed ex_wi_msgs /\ Forall2 batch_as (way_batches ex_wi_msgs) ex_wi_bs /\ Forall (fun b => (2^1 | zlen (snd b))) ex_wi_bs /\
  Forall entry_ok (merged 1 0 ex_wi_bs) /\ merged 1 0 ex_wi_bs = [mkEntry 5 0; mkEntry 7 1; mkEntry 8 2] /\ locs_of ex_wi_bs = [2; 0; 0; 0; 4; 0; 0; 0].
Proof. exact pC59_ex. Qed.

(** C60, as far as it holds: the file as it is at any point before the final header write is
    refused, or opens as an index without entries from which no sub-index can be made: no
    lookup can be done with it. *)
Theorem C60_unfinished_partial : forall o shift msgs, let data := f_data (w_idx (fst (wi_output_body o shift msgs w0))) in
  (exists p, NewWayIndex data = Panic p) \/
  (exists ix, NewWayIndex data = Ok ix /\ wi_Ids ix = [] /\ forall k n, exists p, SubIndexWithScaledPass ix k n = Panic p).
Proof. exact pC60_unfinished_partial. Qed.
Print Assumptions C60_unfinished_partial.

(** C60 is false of the code: a run stopped after all entries and locations were written (its
    copy of the locations fails) leaves a file that opens without an error. *)
Theorem C60_opens_refuted : let o := mkOS (fun k n => (n, false)) (fun _ => (5, OtherErr)) (fun _ => false) (fun _ => false) in
  exists w p ix, wi_output_body o 1 ex_wi_msgs w0 = (w, Panic p) /\ zlen (f_data (w_idx w)) = 40 /\ zlen (f_data (w_loc w)) = 8 /\
    NewWayIndex (f_data (w_idx w)) = Ok ix /\ wi_Ids ix = [] /\ zlen (wi_Loc ix) = 24.
Proof. exact pC60_opens_refuted. Qed.
Print Assumptions C60_opens_refuted.

(** C76 is false of the code: however the run is cancelled, the file opens as an index with all
    entries, whose locations are an initial part of those it should have. *)
Theorem C76_cancelled_opens_refuted : forall o shift msgs bs, writes_whole o -> reads_progress o -> calls_succeed o -> 0 <= shift <= 62 -> ways_typed msgs ->
  Forall2 batch_as (way_batches msgs) bs -> Forall (fun b => (2^shift | zlen (snd b))) bs -> Forall entry_ok (merged shift 0 bs) ->
  zlen (locs_of bs) < 2^62 -> zlen (merged shift 0 bs) < 2^59 ->
  exists w loc', wi_output o shift msgs w0 = (w, Ok tt) /\
    NewWayIndex (f_data (w_idx w)) = Ok (way_index_of (merged shift 0 bs) loc' shift) /\ prefix loc' (locs_of bs).
Proof. exact pC76_cancelled_opens_refuted. Qed.
Print Assumptions C76_cancelled_opens_refuted.

(** Cancelled before the first byte is copied: a sub-index panics; cancelled in the middle: the
    last way is in the index, and looking it up panics. *)
Theorem C76_lookup_panics_refuted :
  (exists w ix, wi_output (mkOS (fun _ n => (n, false)) (fun _ => (5, NoErr)) (fun _ => false) (fun _ => true)) 1 ex_wi_msgs w0 = (w, Ok tt) /\
     NewWayIndex (f_data (w_idx w)) = Ok ix /\ zlen (wi_Ids ix) = 3 /\ wi_Loc ix = [] /\ SubIndexWithScaledPass ix 0 1 = Panic IndexOutOfRange) /\
  (exists w ix, wi_output (mkOS (fun _ n => (n, false)) (fun _ => (3, NoErr)) (fun _ => false) (fun k => (10 <? k)%nat)) 1 ex_wi_msgs w0 = (w, Ok tt) /\
     NewWayIndex (f_data (w_idx w)) = Ok ix /\ zlen (wi_Ids ix) = 3 /\ exists p, FindLocations (mkSWI (wi_Ids ix) (wi_Loc ix) (wi_Shift ix) 8) 8 0 = Panic p).
Proof. exact pC76_lookup_panics_refuted. Qed.
Print Assumptions C76_lookup_panics_refuted.

(** C76, what holds instead: however the run is cancelled, an index made from an input as in
    C57 never gives wrong locations: what a lookup finds in any pass is what is kept of
    the refs of the way with that id.  (It may miss ways, or panic.) *)
Theorem C76_never_wrong_partial : forall o a inBlocks wss, writes_whole o -> reads_progress o -> calls_succeed o -> 0 <= a <= 62 -> Forall2 ways_block inBlocks wss ->
  Forall (fun w => 0 <= fst w < 2^31 /\ Forall is_s64 (snd w)) (concat wss) -> ascending_by fst (concat wss) ->
  size_bound a (concat wss) <= 2^(33 + a) -> size_bound a (concat wss) < 2^62 ->
  exists w ix, wi_index o a inBlocks = (w, Ok tt) /\ NewWayIndex (f_data (w_idx w)) = Ok ix /\
    forall pass count si id hint locs h, SubIndexWithScaledPass ix pass count = Ok si -> FindLocations si id hint = Ok (locs, h, true) ->
      exists refs, In (id, refs) (concat wss) /\ locs = kept 0 refs.
Proof. exact pC76_never_wrong_partial. Qed.
Print Assumptions C76_never_wrong_partial.

(** Cancelled after 20 of 48 bytes: way 5 is found as it should, way 8 is not found. *)
Example C76_never_wrong_ex : let o := mkOS (fun _ n => (n, false)) (fun _ => (20, NoErr)) (fun _ => false) (fun k => (9 <? k)%nat) in
  writes_whole o /\ reads_progress o /\ calls_succeed o /\
  exists w ix si, wi_index o 4 ex_wi_blocks = (w, Ok tt) /\ NewWayIndex (f_data (w_idx w)) = Ok ix /\ zlen (wi_Loc ix) = 20 /\ SubIndexWithScaledPass ix 0 1 = Ok si /\
    FindLocations si 5 0 = Ok ([3; 4], 0, true) /\ FindLocations si 8 0 = Ok ([], 0, false).
Proof. exact pC76_never_wrong_ex. Qed.

(** C77.  The dump of an index prints for every way, in order, its locations, and finds the same by searching. *)
Theorem C77_dump : forall es loc shift L, way_index_ok es loc shift -> es <> [] -> (forall e, In e es -> stored loc (position shift e) (L e)) ->
  exists si, SubIndexWithScaledPass (way_index_of es loc shift) 0 1 = Ok si /\
    dump_ways (way_index_of es loc shift) si = Ok (map (fun e => (e_id e, L e, Some (L e))) es).
Proof. exact pC77_dump. Qed.
Print Assumptions C77_dump.

Example C77_ex : way_index_ok ex_pass_es ex_pass_loc 3 /\ ex_pass_es <> [] /\ (forall e, In e ex_pass_es -> stored ex_pass_loc (position 3 e) (ex_L e)) /\
  exists si, SubIndexWithScaledPass (way_index_of ex_pass_es ex_pass_loc 3) 2 9 = Ok si /\
  exists l, dump_ways (way_index_of ex_pass_es ex_pass_loc 3) si = Ok ((1, [1], None) :: l).
Proof. exact pC77_ex. Qed.
