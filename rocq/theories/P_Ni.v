(** * P_Ni: property theorems (generated from NiThms.v by tools/gen_props.py). *)
From Verif Require Import Base PbSpec TModel HLModel FrModel ZlModel MtModel IoModel IoSpec NiModel NiSpec NiThms.

(** C44.  A count below 2^24 and an offset: packed and read back exactly, or refused (exactly
    when the offset needs more than 40 bits).  A count above 2^24 is refused. *)
Theorem C44_roundtrip_partial : forall count offset, is_u64 count -> is_u64 offset -> count <> 2^24 ->
  (count < 2^24 /\ offset < 2^40 /\ exists w, NewCountOffset count offset = Ok w /\ is_u64 w /\ co_Count w = count /\ co_Offset w = offset) \/
  ((2^24 < count \/ 2^40 <= offset) /\ exists m, NewCountOffset count offset = Panic (PanicMsg m)).
Proof. exact pC44_roundtrip_partial. Qed.
Print Assumptions C44_roundtrip_partial.

Example C44_ex : exists w, NewCountOffset (2^24 - 1) (2^40 - 1) = Ok w /\ co_Count w = 2^24 - 1 /\ co_Offset w = 2^40 - 1.
Proof. exact pC44_ex. Qed.

(** C44 is false of the code at one count: 2^24 is accepted, and what is read back is the
    count 0 and an odd offset. *)
Theorem C44_boundary_refuted : forall offset, 0 <= offset < 2^40 -> exists w, NewCountOffset (2^24) offset = Ok w /\
  co_Count w = 0 /\ co_Offset w = Z.lor offset 1.
Proof. exact pC44_boundary_refuted. Qed.
Print Assumptions C44_boundary_refuted.

(** C45.  On ascending, disjoint ranges a lookup gives what linear search gives, for every id
    and every hint: location 0 counts as not found, a hit returns the number of the range as
    the next hint, a miss returns the hint given. *)
Theorem C45_lookup : forall rs locs top id hint,
  Forall (range_ok locs) rs -> ascending_ranges rs -> top_of rs top -> 0 <= hint ->
  FindNode (sub_index_of rs locs top) id hint =
    Ok (match linear_search rs locs id 0 with
        | Some (loc, i) => (loc, i, negb (loc =? 0))
        | None => (0, hint, false)
        end).
Proof. exact pC45_lookup. Qed.
Print Assumptions C45_lookup.

Example C45_ex : Forall (range_ok ex_locations) ex_ranges /\ ascending_ranges ex_ranges /\ top_of ex_ranges 22 /\
  FindNode (sub_index_of ex_ranges ex_locations 22) 12 1 = Ok (-7, 0, true) /\
  FindNode (sub_index_of ex_ranges ex_locations 22) 11 5 = Ok (0, 0, false) /\
  FindNode (sub_index_of ex_ranges ex_locations 22) 22 0 = Ok (-10, 2, true) /\
  FindNode (sub_index_of ex_ranges ex_locations 22) 15 2 = Ok (0, 2, false).
Proof. exact pC45_ex. Qed.

(** C46.  The file written from any messages opens as the index with the ranges of all
    batches, in order, their locations one after the other, and these locations. *)
Theorem C46_roundtrip : forall o msgs, all_well o -> well_typed msgs ->
  storable 0 (all_ranges msgs) -> Forall is_s64 (all_locs msgs) ->
  exists w, ni_output o msgs w0 = (w, Ok tt) /\
    NewNodeIndex (f_data (w_idx w)) = Ok (index_of (place 0 (all_ranges msgs)) (all_locs msgs)).
Proof. exact pC46_roundtrip. Qed.
Print Assumptions C46_roundtrip.

(** The ranges of such an index are those that were stored: reading its elements back gives
    first id, count and offset of every range. *)
Theorem C46_elements : forall rs locs, Forall (range_ok locs) rs ->
  map (fun p => (fst p, co_Count (snd p), co_Offset (snd p)))
      (ByteSliceAsPairSlice (SliceAsByteSlice (ni_elements (index_of rs locs)))) =
  map (fun r => (r_first r, r_count r, r_offset r)) rs.
Proof. exact pC46_elements. Qed.
Print Assumptions C46_elements.

Example C46_ex : all_well os_well /\ well_typed ex_msgs /\ storable 0 (all_ranges ex_msgs) /\ Forall is_s64 (all_locs ex_msgs) /\
  exists w, ni_output os_well ex_msgs w0 = (w, Ok tt) /\ zlen (f_data (w_idx w)) = 112 /\
    NewNodeIndex (f_data (w_idx w)) = Ok (index_of ex_ranges ex_locations).
Proof. exact pC46_ex. Qed.

(** C47.  After indexing any input with ascending node ids, all at least 2, with fewer than
    2^23 nodes in a block and 2^39 in all, the file opens and every node is found, whatever the
    hint, at the location computed from its coordinates; no other id is found. *)
Theorem C47_every_node_partial : forall o inBlocks nss, all_well o -> Forall2 input_block inBlocks nss ->
  let ns := concat nss in
  ascending (map in_id ns) -> Forall (fun n => 2 <= in_id n < 2^63) ns ->
  Forall (fun b => zlen b < 2^23) nss -> 0 < zlen ns < 2^39 ->
  exists w idx sub, ni_index o inBlocks = (w, Ok tt) /\ NewNodeIndex (f_data (w_idx w)) = Ok idx /\ SubIndex idx 0 1 = Ok sub /\
    (forall n hint, In n ns -> 0 <= hint ->
       exists loc h, location (in_lon n) (in_lat n) = Ok loc /\ FindNode sub (in_id n) hint = Ok (loc, h, true)) /\
    (forall id hint, ~ In id (map in_id ns) -> 0 <= hint -> exists h, FindNode sub id hint = Ok (0, h, false)).
Proof. exact pC47_every_node_partial. Qed.
Print Assumptions C47_every_node_partial.

Example C47_ex : all_well os_well /\ Forall2 input_block ex_ni_blocks ex_ni_nodes /\ ascending (map in_id (concat ex_ni_nodes)) /\
  Forall (fun n => 2 <= in_id n < 2^63) (concat ex_ni_nodes) /\ Forall (fun b => zlen b < 2^23) ex_ni_nodes /\ 0 < zlen (concat ex_ni_nodes) < 2^39.
Proof. exact pC47_ex. Qed.

(** C47 is false of the code for an input starting with node 1 (or 0): of the nodes 1 and 5,
    indexed without any problem, neither is found at its location. *)
Theorem C47_first_ids_refuted : exists w idx sub l1 l5, 
  Forall2 input_block [ni_block 0 [1; 5] [10; 20] [30; 40]] [[mkInput 1 30 10; mkInput 5 40 20]] /\
  ni_index os_well [ni_block 0 [1; 5] [10; 20] [30; 40]] = (w, Ok tt) /\ NewNodeIndex (f_data (w_idx w)) = Ok idx /\ SubIndex idx 0 1 = Ok sub /\
  location 30 10 = Ok l1 /\ location 40 20 = Ok l5 /\
  FindNode sub 1 0 = Ok (0, 0, false) /\ FindNode sub 5 0 = Ok (0, 0, false).
Proof. exact pC47_first_ids_refuted. Qed.
Print Assumptions C47_first_ids_refuted.

(** C48, part: if no pass panics, the passes are consecutive and do not overlap, and start
    with the first range: together they are an initial part of the index. *)
Theorem C48_consecutive_partial : forall rs locs n subs, index_ok rs locs -> 1 <= n ->
  passes (index_of rs locs) n = Ok subs ->
  exists k, concat (map si_element subs) = map elem_of (firstn k rs) /\ Forall (fun s => si_locations s = locs) subs.
Proof. exact pC48_consecutive_partial. Qed.
Print Assumptions C48_consecutive_partial.

(** C48: exactly when no pass panics and the passes cover the index.  [l] is the last range,
    [total rs] the number of locations before it; with size = locations / passes (rounded
    down), the last range must begin at or after the start of the last pass and before the end
    of the last pass. *)
Theorem C48_covers_iff_partial : forall rs l locs n, index_ok (rs ++ [l]) locs -> 1 <= n ->
  ((exists subs, passes (index_of (rs ++ [l]) locs) n = Ok subs /\ concat (map si_element subs) = map elem_of (rs ++ [l])) <->
   zlen locs / n * (n - 1) <= total rs < zlen locs / n * n).
Proof. exact pC48_covers_iff_partial. Qed.
Print Assumptions C48_covers_iff_partial.

(** C48: a single pass has the whole index, if that has a range at all. *)
Theorem C48_single_pass : forall rs locs, index_ok rs locs -> rs <> [] ->
  exists top, SubIndex (index_of rs locs) 0 1 = Ok (sub_index_of rs locs top) /\ top_of rs top.
Proof. exact pC48_single_pass. Qed.
Print Assumptions C48_single_pass.

Example C48_ex : index_ok ex_ten (repeat (-1) 10) /\
  exists subs, passes (index_of ex_ten (repeat (-1) 10)) 5 = Ok subs /\ map (fun s => zlen (si_element s)) subs = [2; 2; 2; 2; 2].
Proof. exact pC48_ex. Qed.

(** C48 is false of the code: ten ranges of one location in three passes: the last range is
    in none; two ranges of which the second has the most locations, in three passes: the last
    pass panics; and an empty index: the only pass panics. *)
Theorem C48_coverage_refuted :
  (exists subs, passes (index_of ex_ten (repeat (-1) 10)) 3 = Ok subs /\ map (fun s => zlen (si_element s)) subs = [3; 3; 3] /\
     exists e, In e (map elem_of ex_ten) /\ ~ In e (concat (map si_element subs))) /\
  (index_ok [mkRange 5 1 0; mkRange 7 5 1] (repeat (-1) 6) /\ exists p, passes (index_of [mkRange 5 1 0; mkRange 7 5 1] (repeat (-1) 6)) 3 = Panic p) /\
  (index_ok [] [] /\ exists p, passes (index_of [] []) 1 = Panic p).
Proof. exact pC48_coverage_refuted. Qed.
Print Assumptions C48_coverage_refuted.

(** C49.  Whatever the operating system does (writes cut short, any call failing at any
    point), and whatever has been written, the file as it is before the final header write
    is refused. *)
Theorem C49_unfinished_refused : forall o msgs,
  exists p, NewNodeIndex (f_data (w_idx (fst (ni_output_body o msgs w0)))) = Panic p.
Proof. exact pC49_unfinished_refused. Qed.
Print Assumptions C49_unfinished_refused.

(** A run whose writes fail from some point on stops with index data and locations in its files. *)
Example C49_ex : let o := mkOS (fun k n => if (12 <=? k)%nat then (3, true) else (n, false)) (fun _ => (5, NoErr)) (fun _ => false) (fun _ => false) in
  exists w p, ni_output_body o ex_msgs w0 = (w, Panic p) /\ zlen (f_data (w_idx w)) = 72 /\ zlen (f_data (w_loc w)) = 48.
Proof. exact pC49_ex. Qed.

(** C50 is false of the code: whenever and however often the run is found cancelled, the
    file it leaves opens as an index with all ranges, whose locations are an initial part of
    those it should have. *)
Theorem C50_cancelled_opens_refuted : forall o msgs, writes_whole o -> reads_progress o -> calls_succeed o -> well_typed msgs ->
  storable 0 (all_ranges msgs) -> Forall is_s64 (all_locs msgs) ->
  exists w locs', ni_output o msgs w0 = (w, Ok tt) /\
    NewNodeIndex (f_data (w_idx w)) = Ok (index_of (place 0 (all_ranges msgs)) locs') /\ prefix locs' (all_locs msgs).
Proof. exact pC50_cancelled_opens_refuted. Qed.
Print Assumptions C50_cancelled_opens_refuted.

(** Cancelled before the first location is copied: the index opens, and has no locations. *)
Theorem C50_locations_lost_refuted : let o := mkOS (fun _ n => (n, false)) (fun _ => (5, NoErr)) (fun _ => false) (fun _ => true) in
  writes_whole o /\ reads_progress o /\ calls_succeed o /\
  exists w, ni_output o ex_msgs w0 = (w, Ok tt) /\ NewNodeIndex (f_data (w_idx w)) = Ok (index_of ex_ranges []) /\ all_locs ex_msgs <> [].
Proof. exact pC50_locations_lost_refuted. Qed.
Print Assumptions C50_locations_lost_refuted.

(** C50, what holds instead: whenever and however often the run is cancelled, an index made from
    an input as in C47 never gives a wrong location: what a lookup finds in any pass is the
    location of the node with that id.  (It may miss nodes, or panic.) *)
Theorem C50_never_wrong_partial : forall o inBlocks nss, writes_whole o -> reads_progress o -> calls_succeed o -> Forall2 input_block inBlocks nss ->
  let ns := concat nss in
  ascending (map in_id ns) -> Forall (fun n => 2 <= in_id n < 2^63) ns ->
  Forall (fun b => zlen b < 2^23) nss -> zlen ns < 2^39 ->
  exists w idx, ni_index o inBlocks = (w, Ok tt) /\ NewNodeIndex (f_data (w_idx w)) = Ok idx /\
    forall pass count sub id hint loc h, SubIndex idx pass count = Ok sub -> FindNode sub id hint = Ok (loc, h, true) ->
      exists n, In n ns /\ in_id n = id /\ location (in_lon n) (in_lat n) = Ok loc.
Proof. exact pC50_never_wrong_partial. Qed.
Print Assumptions C50_never_wrong_partial.

(** Cancelled after the first read: nodes 2 and 3 are found, 20 is not. *)
Example C50_never_wrong_ex : let o := mkOS (fun _ n => (n, false)) (fun _ => (30, NoErr)) (fun _ => false) (fun k => (9 <? k)%nat) in
  writes_whole o /\ reads_progress o /\ calls_succeed o /\ 
  exists w idx sub l2, ni_index o ex_ni_blocks = (w, Ok tt) /\ NewNodeIndex (f_data (w_idx w)) = Ok idx /\ zlen (ni_locations idx) = 3 /\ SubIndex idx 0 1 = Ok sub /\
    FindNode sub 2 0 = Ok (l2, 0, true) /\ location 1 10 = Ok l2 /\ FindNode sub 20 0 = Ok (0, 0, false).
Proof. exact pC50_never_wrong_ex. Qed.

(** C51.  The dump prints no mismatch, whichever elements it is asked to dump. *)
Theorem C51_no_mismatch : forall rs locs top start end_, Forall (range_ok locs) rs -> ascending_ranges rs -> top_of rs top ->
  (forall s, start = Some s -> 0 <= s) ->
  dump_mismatches (sub_index_of rs locs top) start end_ = Ok [].
Proof. exact pC51_no_mismatch. Qed.
Print Assumptions C51_no_mismatch.

(** The check is not blind: with ranges out of order a mismatch is printed. *)
Example C51_ex : dump_mismatches (sub_index_of ex_ranges ex_locations 22) None (Some 2) = Ok [] /\
  dump_mismatches (sub_index_of [mkRange 20 2 3; mkRange 10 3 0] ex_locations 22) None None = Ok [(1, 0); (1, 2)].
Proof. exact pC51_ex. Qed.
