(** * P_Ri: property theorems (generated from RiThms.v by tools/gen_props.py). *)
From Verif Require Import Base PbSpec TModel HLModel FrModel ZlModel IoModel IoSpec NiModel RwModel WiModel WiSpec WiThms RiModel RiSpec RiThms.

(** C62, what holds: the relation index made in [n] passes lists, in file order, every relation
    with its ways and their locations, except that ways whose locations start at or after
    n * (length of the locations / n) are listed without locations.  The files of the passes
    are gone, all other files are as they were. *)
Theorem C62_passes_partial : forall inBlocks rss wayIndex output n fs contents es loc shift L, Forall2 relations_block inBlocks rss -> Forall relation_ok (concat rss) -> concat rss <> [] ->
  way_index_ok es loc shift -> (forall e, In e es -> stored loc (position shift e) (L e)) -> (exists e, In e es /\ position shift e = 0) -> 1 <= n <= zlen loc -> n < 2^62 ->
  fs wayIndex = Some contents -> NewWayIndex contents = Ok (way_index_of es loc shift) -> wayIndex <> makePassFilename output 0 n ->
  exists fs', ri_main inBlocks wayIndex output n fs = Ok fs' /\
    fs' output = Some (SliceAsByteSlice (listing (locations_in es L (fun e => position shift e <? zlen loc / n * n)) (map summary (concat rss)))) /\
    (forall j, 0 <= j < n -> fs' (makePassFilename output j n) = None) /\
    (forall name, name <> output -> (forall j, 0 <= j < n -> name <> makePassFilename output j n) -> fs' name = fs name).
Proof. exact pC62_passes_partial. Qed.
Print Assumptions C62_passes_partial.

(** C61.  With one pass: every relation, in file order, with its id, its number of ways, and for
    each way its id, the number of its locations and the locations the way index has for it
    (none if it has none). *)
Theorem C61_listing : forall inBlocks rss wayIndex output fs contents es loc shift L, Forall2 relations_block inBlocks rss -> Forall relation_ok (concat rss) -> concat rss <> [] ->
  way_index_ok es loc shift -> (forall e, In e es -> stored loc (position shift e) (L e)) -> es <> [] ->
  fs wayIndex = Some contents -> NewWayIndex contents = Ok (way_index_of es loc shift) -> wayIndex <> makePassFilename output 0 1 ->
  exists fs', ri_main inBlocks wayIndex output 1 fs = Ok fs' /\
    fs' output = Some (SliceAsByteSlice (listing (locations_in es L (fun _ => true)) (map summary (concat rss)))) /\
    fs' (makePassFilename output 0 1) = None /\
    (forall name, name <> output -> name <> makePassFilename output 0 1 -> fs' name = fs name).
Proof. exact pC61_listing. Qed.
Print Assumptions C61_listing.

(** C61 and C62, from the files on: index the ways of a file, then the relations of a file (any),
    in at most 2^a passes.  The relation index lists every relation, in file order, with its id,
    its number of ways, and for each way its id, the number of its locations, and these: what
    is kept of the refs of that way.  The number of passes makes no difference. *)
Theorem C61_from_files : forall o a wayBlocks wss inBlocks rss wayIndex output n, all_well o -> 0 <= a <= 61 -> Forall2 ways_block wayBlocks wss -> concat wss <> [] ->
  Forall (fun w => 0 <= fst w < 2^31 /\ Forall is_s64 (snd w)) (concat wss) -> ascending_by fst (concat wss) ->
  size_bound a (concat wss) <= 2^(33 + a) -> size_bound a (concat wss) < 2^62 ->
  Forall2 relations_block inBlocks rss -> Forall relation_ok (concat rss) -> concat rss <> [] -> 1 <= n <= 2^a -> wayIndex <> makePassFilename output 0 n ->
  exists w, wi_index o a wayBlocks = (w, Ok tt) /\ forall fs, fs wayIndex = Some (f_data (w_idx w)) ->
  exists fs', ri_main inBlocks wayIndex output n fs = Ok fs' /\
    fs' output = Some (SliceAsByteSlice (listing (way_locs (concat wss)) (map summary (concat rss)))) /\
    (forall j, 0 <= j < n -> fs' (makePassFilename output j n) = None) /\
    (forall name, name <> output -> (forall j, 0 <= j < n -> name <> makePassFilename output j n) -> fs' name = fs name).
Proof. exact pC61_from_files. Qed.
Print Assumptions C61_from_files.

(** C62, what holds of any index with aligned locations: at most 2^shift passes give the same as one. *)
Theorem C62_same_partial : forall inBlocks rss wayIndex output n fs contents es loc shift L, Forall2 relations_block inBlocks rss -> Forall relation_ok (concat rss) -> concat rss <> [] ->
  way_index_ok es loc shift -> (forall e, In e es -> stored loc (position shift e) (L e)) -> (exists e, In e es /\ position shift e = 0) ->
  (forall e, In e es -> position shift e + 2^shift <= zlen loc) -> 1 <= n <= 2^shift -> n < 2^62 ->
  fs wayIndex = Some contents -> NewWayIndex contents = Ok (way_index_of es loc shift) -> wayIndex <> makePassFilename output 0 1 -> wayIndex <> makePassFilename output 0 n ->
  exists fs1 fsn, ri_main inBlocks wayIndex output 1 fs = Ok fs1 /\ ri_main inBlocks wayIndex output n fs = Ok fsn /\ fs1 output = fsn output.
Proof. exact pC62_same_partial. Qed.
Print Assumptions C62_same_partial.

(** With the ways 5, 7, 8 of C57's example and three passes.  Way 6 is unknown. *)
Example C61_ex : Forall2 ways_block ex_wi_blocks ex_wi_ways /\ Forall2 relations_block ex_ri_blocks ex_ri_rels /\ Forall relation_ok (concat ex_ri_rels) /\
  bytes_of "ways" <> makePassFilename (bytes_of "out") 0 3 /\
  listing (way_locs (concat ex_wi_ways)) (map summary (concat ex_ri_rels)) = [100; 3] ++ [7; 1; -9] ++ [6; 0] ++ [5; 2; 3; 4] ++ [99; 0] ++ [102; 1] ++ [8; 0] /\
  exists w fs', wi_index os_fine 4 ex_wi_blocks = (w, Ok tt) /\ ri_main ex_ri_blocks (bytes_of "ways") (bytes_of "out") 3 (ex_ri_fs (f_data (w_idx w))) = Ok fs' /\
    fs' (bytes_of "out") = Some (SliceAsByteSlice ([100; 3] ++ [7; 1; -9] ++ [6; 0] ++ [5; 2; 3; 4] ++ [99; 0] ++ [102; 1] ++ [8; 0])).
Proof. exact pC61_ex. Qed.

Example C62_ex : Forall2 relations_block ex_ri_one [[mkRelation 77 [] [] [0; 0] [10; 2] [1; 1]]] /\ relation_ok (mkRelation 77 [] [] [0; 0] [10; 2] [1; 1]) /\
  NewWayIndex ex_pass_file = Ok (way_index_of ex_pass_es ex_pass_loc 3) /\ bytes_of "ways" <> makePassFilename (bytes_of "out") 0 1 /\
  forall n, In n [1; 2; 3; 4; 5; 6; 7; 8] -> exists fs', ri_main ex_ri_one (bytes_of "ways") (bytes_of "out") n (ex_ri_fs ex_pass_file) = Ok fs' /\
    fs' (bytes_of "out") = Some (SliceAsByteSlice ([77; 2] ++ [10; 1; 1] ++ [2; 1; 1])).
Proof. exact pC62_ex. Qed.

(** C62 is false of the code: in nine passes over this index, way 10 is listed without locations;
    in 81 passes, more than there are bytes of locations, the run panics; with no passes the
    output is not made and the file of the first step is left. *)
Theorem C62_passes_refuted :
  (exists fs', ri_main ex_ri_one (bytes_of "ways") (bytes_of "out") 9 (ex_ri_fs ex_pass_file) = Ok fs' /\
     fs' (bytes_of "out") = Some (SliceAsByteSlice ([77; 2] ++ [10; 0] ++ [2; 1; 1]))) /\
  ri_main ex_ri_one (bytes_of "ways") (bytes_of "out") 81 (ex_ri_fs ex_pass_file) = Panic IndexOutOfRange /\
  (exists fs', ri_main ex_ri_one (bytes_of "ways") (bytes_of "out") 0 (ex_ri_fs ex_pass_file) = Ok fs' /\
     fs' (bytes_of "out") = None /\ fs' (bytes_of "out.pass_000_000") = Some (SliceAsByteSlice [77; 2; -10; -2])).
Proof. exact pC62_passes_refuted. Qed.
Print Assumptions C62_passes_refuted.

(** C63, for which inputs it holds: at least one relation, way ids positive, as many member types as
    members, a way index with a way, and passes for which C62 finds no panic. *)
Theorem C63_works_partial : forall inBlocks rss wayIndex output n fs contents es loc shift L, Forall2 relations_block inBlocks rss -> Forall relation_ok (concat rss) -> concat rss <> [] ->
  way_index_ok es loc shift -> (forall e, In e es -> stored loc (position shift e) (L e)) -> (exists e, In e es /\ position shift e = 0) -> 1 <= n <= zlen loc -> n < 2^62 ->
  fs wayIndex = Some contents -> NewWayIndex contents = Ok (way_index_of es loc shift) -> wayIndex <> makePassFilename output 0 n ->
  exists fs', ri_main inBlocks wayIndex output n fs = Ok fs'.
Proof. exact pC63_works_partial. Qed.
Print Assumptions C63_works_partial.

(** C63 is false of the code: every input without relations makes it panic, whatever the index. *)
Theorem C63_no_relations_refuted : forall inBlocks rss wayIndex output n fs contents es loc shift, Forall2 relations_block inBlocks rss -> concat rss = [] ->
  way_index_ok es loc shift -> es <> [] -> 1 <= n -> fs wayIndex = Some contents -> NewWayIndex contents = Ok (way_index_of es loc shift) -> wayIndex <> makePassFilename output 0 n ->
  exists p, ri_main inBlocks wayIndex output n fs = Panic p.
Proof. exact pC63_no_relations_refuted. Qed.
Print Assumptions C63_no_relations_refuted.

(** C63 is false of the code: a relation with the ways 0 and 7 makes it panic; of a relation 5 with the way -3 and a
    relation 1 without ways it lists only the first, with a location that way 3 does not have; a
    relation with more members than member types makes it panic. *)
Theorem C63_ways_refuted :
  ri_main [ri_block 0 [mkRelation 5 [] [] [0; 0] [0; 7] [1; 1]]] (bytes_of "ways") (bytes_of "out") 1 (ex_ri_fs ex_pass_file) = Panic SliceOutOfRange /\
  (exists fs', ri_main [ri_block 0 [mkRelation 5 [] [] [0] [-3] [1]; mkRelation 1 [] [] [] [] []]] (bytes_of "ways") (bytes_of "out") 1 (ex_ri_fs ex_pass_file) = Ok fs' /\
     fs' (bytes_of "out") = Some (SliceAsByteSlice ([5; 1] ++ [3; 1; 0]))) /\
  ri_main [ri_block 0 [mkRelation 5 [] [] [0; 0] [1; 2] [1]]] (bytes_of "ways") (bytes_of "out") 1 (ex_ri_fs ex_pass_file) = Panic IndexOutOfRange.
Proof. exact pC63_ways_refuted. Qed.
Print Assumptions C63_ways_refuted.
