(** * P_Du: property theorems (generated from DuThms.v by tools/gen_props.py). *)
From Verif Require Import Base PbSpec TModel FrModel ZlModel MtModel MtSpec IoModel IoSpec NiModel NiSpec WiModel WiSpec DuModel DuSpec NiThms DuThms.

(** C99.  On an index file, without a part being asked for: every id of the ranges asked for is
    printed, in order, with the value stored for it, once for each of the two options. *)
Theorem C99_dump : forall o contents rs locs, NewNodeIndex contents = Ok (index_of rs locs) -> index_ok rs locs -> Forall is_s64 locs -> rs <> [] ->
  nd_SubIndexIndex o = None -> (forall st, nd_StartElement o = Some st -> 0 <= st) ->
  node_dump o contents = Ok (listing (nd_PrintLocations o) (nd_SearchIndex o) locs (asked (nd_StartElement o) (nd_EndElement o) rs)).
Proof. exact pC99_dump. Qed.
Print Assumptions C99_dump.

(** C99, parts: if every one of the n parts can be dumped, the parts one after the other are the
    dump of an initial part of the index, each id once and in order; ... *)
Theorem C99_parts_partial : forall p s contents rs locs n outs, NewNodeIndex contents = Ok (index_of rs locs) -> index_ok rs locs -> Forall is_s64 locs -> 1 <= n ->
  mapm (fun i => node_dump (dump_part p s (Some (i, n))) contents) (map Z.of_nat (seq 0 (Z.to_nat n))) = Ok outs ->
  exists k, concat outs = listing p s locs (firstn k rs).
Proof. exact pC99_parts_partial. Qed.
Print Assumptions C99_parts_partial.

(** ... and exactly when the size of a part (locations / n, rounded down) is such that the last
    range starts in the last part, all parts can be dumped and are the dump of the whole. *)
Theorem C99_parts_whole : forall p s contents rs l locs n, NewNodeIndex contents = Ok (index_of (rs ++ [l]) locs) -> index_ok (rs ++ [l]) locs -> Forall is_s64 locs -> 1 <= n ->
  zlen locs / n * (n - 1) <= total rs < zlen locs / n * n ->
  exists outs whole, mapm (fun i => node_dump (dump_part p s (Some (i, n))) contents) (map Z.of_nat (seq 0 (Z.to_nat n))) = Ok outs /\
    node_dump (dump_part p s None) contents = Ok whole /\ concat outs = whole.
Proof. exact pC99_parts_whole. Qed.
Print Assumptions C99_parts_whole.

(** C99.  After indexing any input as in C47 whose nodes have valid coordinates, the dump of the
    index file prints with each option exactly the nodes of the input, in order, with their
    coordinates (and their ids), and no mismatch. *)
Theorem C99_from_input_partial : forall o inBlocks nss print search, all_well o -> Forall2 input_block inBlocks nss ->
  let ns := concat nss in
  ascending (map in_id ns) -> Forall (fun n => 2 <= in_id n < 2^63) ns -> Forall (fun n => is_s32 (in_lon n) /\ valid_lat (in_lat n)) ns ->
  Forall (fun b => zlen b < 2^23) nss -> 0 < zlen ns < 2^39 ->
  exists w lines, ni_index o inBlocks = (w, Ok tt) /\ node_dump (dump_part print search None) (f_data (w_idx w)) = Ok lines /\
    extracted lines = (if print then map (fun n => (in_id n, in_lon n, in_lat n)) ns else []) /\
    searched lines = (if search then map (fun n => (in_lon n, in_lat n)) ns else []) /\ ~ In Mismatch lines.
Proof. exact pC99_from_input_partial. Qed.
Print Assumptions C99_from_input_partial.

(** The nodes of the input of C47_ex, written and dumped. *)
Example C99_from_input_ex : Forall (fun n => is_s32 (in_lon n) /\ valid_lat (in_lat n)) (concat ex_ni_nodes) /\
  exists w lines, ni_index os_well ex_ni_blocks = (w, Ok tt) /\ node_dump (dump_part true true None) (f_data (w_idx w)) = Ok lines /\
    zlen lines = 14 /\ extracted lines = [(2, 1, 10); (3, 2, -20); (5, 3, 30); (9, 4, 40); (10, 9, 7); (20, 0, 8)].
Proof. exact pC99_from_input_ex. Qed.

(** Ten ranges of one location each, whole from the third on, and in five parts. *)
Example C99_ex : NewNodeIndex (ex_file ex_ten (repeat (-1) 10)) = Ok (index_of ex_ten (repeat (-1) 10)) /\ index_ok ex_ten (repeat (-1) 10) /\ Forall is_s64 (repeat (-1) 10) /\
  (exists lines, node_dump (mkNodeDump true false None None (Some 2) (Some 5) plain) (ex_file ex_ten (repeat (-1) 10)) = Ok lines /\ map (fun x => fst (fst x)) (extracted lines) = [20; 30; 40]) /\
  (exists outs, mapm (fun i => node_dump (dump_part true false (Some (i, 5))) (ex_file ex_ten (repeat (-1) 10))) (map Z.of_nat (seq 0 (Z.to_nat 5))) = Ok outs /\
     map (fun x => fst (fst x)) (extracted (concat outs)) = [0; 10; 20; 30; 40; 50; 60; 70; 80; 90]).
Proof. exact pC99_ex. Qed.

(** C99 is false of the code: the ten ranges in three parts: all three can be dumped, and id 90
    is in none of them; in eleven parts the first panics; ... *)
Theorem C99_parts_refuted :
  (exists outs, mapm (fun i => node_dump (dump_part true true (Some (i, 3))) (ex_file ex_ten (repeat (-1) 10))) (map Z.of_nat (seq 0 (Z.to_nat 3))) = Ok outs /\
     map (fun x => fst (fst x)) (extracted (concat outs)) = [0; 10; 20; 30; 40; 50; 60; 70; 80]) /\
  node_dump (dump_part true true (Some (0, 11))) (ex_file ex_ten (repeat (-1) 10)) = Panic IndexOutOfRange.
Proof. exact pC99_parts_refuted. Qed.
Print Assumptions C99_parts_refuted.

(** ... and a start element below zero makes every dump panic. *)
Theorem C99_start_refuted : forall p s st sys contents rs locs, NewNodeIndex contents = Ok (index_of rs locs) -> index_ok rs locs -> rs <> [] -> st < 0 ->
  node_dump (mkNodeDump p s None None (Some st) None sys) contents = Panic IndexOutOfRange.
Proof. exact pC99_start_refuted. Qed.
Print Assumptions C99_start_refuted.
