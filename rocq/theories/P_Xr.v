(** * P_Xr: property theorems (generated from XrThms.v by tools/gen_props.py). *)
From Verif Require Import Base PbSpec TModel HLModel FrModel ZlModel IoModel IoSpec NiModel RwModel WiModel WiSpec WiThms RiModel RiSpec RiThms XrThms.

(** C62, exactly: the relation index made in [n] passes is that made in one pass if and only if every way
    of a relation that has locations in the way index starts before n * (length of the locations / n).
    (No pass panics if there are not more passes than bytes of locations.) *)
Theorem C62_exact : forall inBlocks rss wayIndex output n fs contents es loc shift L, Forall2 relations_block inBlocks rss -> Forall relation_ok (concat rss) -> concat rss <> [] ->
  way_index_ok es loc shift -> (forall e, In e es -> stored loc (position shift e) (L e)) -> (exists e, In e es /\ position shift e = 0) -> 1 <= n <= zlen loc -> n < 2^62 ->
  fs wayIndex = Some contents -> NewWayIndex contents = Ok (way_index_of es loc shift) -> wayIndex <> makePassFilename output 0 1 -> wayIndex <> makePassFilename output 0 n ->
  exists fs1 fsn, ri_main inBlocks wayIndex output 1 fs = Ok fs1 /\ ri_main inBlocks wayIndex output n fs = Ok fsn /\
    (fsn output = fs1 output <->
     forall r e, In r (concat rss) -> In e es -> In (e_id e) (way_members r) -> L e <> [] -> position shift e < zlen loc / n * n).
Proof. exact pC62_exact. Qed.
Print Assumptions C62_exact.

(** Both sides: in the example of C62_ex, way 10 of relation 77 starts at byte 72 of 80: before 8 * (80 / 8) but not
    before 9 * (80 / 9). *)
Example C62_exact_ex : way_index_ok ex_pass_es ex_pass_loc 3 /\ In (mkEntry 10 9) ex_pass_es /\
  In 10 (way_members (mkRelation 77 [] [] [0; 0] [10; 2] [1; 1])) /\ ex_L (mkEntry 10 9) <> [] /\
  position 3 (mkEntry 10 9) = 72 /\ zlen ex_pass_loc / 8 * 8 = 80 /\ zlen ex_pass_loc / 9 * 9 = 72.
Proof. exact pC62_exact_ex. Qed.

(** C63, exactly, for sound relations: with a way index as the indexer makes it (the first way's locations first), the tool
    finishes if and only if there is a relation, the way index has a way, and there are not more passes than bytes of locations. *)
Theorem C63_exact : forall inBlocks rss wayIndex output n fs contents es loc shift L, Forall2 relations_block inBlocks rss -> Forall relation_ok (concat rss) ->
  way_index_ok es loc shift -> (forall e, In e es -> stored loc (position shift e) (L e)) -> (es <> [] -> exists e, In e es /\ position shift e = 0) -> 1 <= n < 2^62 ->
  fs wayIndex = Some contents -> NewWayIndex contents = Ok (way_index_of es loc shift) -> wayIndex <> makePassFilename output 0 n ->
  ((exists fs', ri_main inBlocks wayIndex output n fs = Ok fs') <-> concat rss <> [] /\ es <> [] /\ n <= zlen loc).
Proof. exact pC63_exact. Qed.
Print Assumptions C63_exact.

(** Its hypotheses: C62_ex.  80 bytes of locations: 80 passes do, 81 do not. *)
Example C63_exact_ex : way_index_ok ex_pass_es ex_pass_loc 3 /\ zlen ex_pass_loc = 80 /\
  (exists fs', ri_main ex_ri_one (bytes_of "ways") (bytes_of "out") 80 (ex_ri_fs ex_pass_file) = Ok fs') /\
  ri_main ex_ri_one (bytes_of "ways") (bytes_of "out") 81 (ex_ri_fs ex_pass_file) = Panic IndexOutOfRange.
Proof. exact pC63_exact_ex. Qed.
