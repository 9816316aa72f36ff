(** * P_Xb: property theorems (generated from XbThms.v by tools/gen_props.py). *)
From Verif Require Import Base PbSpec PbModel TModel HLModel FrModel ZlModel IoModel IoSpec NiModel NiSpec WiModel WiSpec DuModel DuSpec NiThms WiThms DuThms XbThms.

(** C101, exactly (the part numbers are unsigned): an accepted command line of dumpnodeindex is carried out without a panic, on
    a file with index [rs ++ [l]], if and only if there are at most as many parts as locations, the part's share starts no later
    than the last range, and the start element is not negative or no element is to be printed. *)
Theorem C101_node_dump_exact : forall o contents rs l locs, NewNodeIndex contents = Ok (index_of (rs ++ [l]) locs) -> index_ok (rs ++ [l]) locs -> Forall is_s64 locs ->
  parseArgs node_dump_validate (Parsed o []) = Starts o ->
  (forall i, nd_SubIndexIndex o = Some i -> 0 <= i) ->
  ((exists lines, node_dump o contents = Ok lines) <->
   (forall i n, nd_SubIndexIndex o = Some i -> nd_SubIndexCount o = Some n -> n <= zlen locs /\ zlen locs / n * i <= total rs) /\
   (forall st, nd_StartElement o = Some st -> 0 <= st \/ exists e, nd_EndElement o = Some e /\ e <= st)).
Proof. exact pC101_node_dump_exact. Qed.
Print Assumptions C101_node_dump_exact.

(** The ten ranges in parts: accepted and carried out with a negative start where nothing is to be printed; not carried out
    where something is. *)
Example C101_node_dump_ex : let o e := mkNodeDump true true (Some 1) (Some 5) (Some (-3)) e plain in
  NewNodeIndex (ex_file ex_ten (repeat (-1) 10)) = Ok (index_of ex_ten (repeat (-1) 10)) /\ index_ok ex_ten (repeat (-1) 10) /\
  (forall e, parseArgs node_dump_validate (Parsed (o e) []) = Starts (o e)) /\
  node_dump (o (Some (-4))) (ex_file ex_ten (repeat (-1) 10)) = Ok [] /\ node_dump (o (Some (-2))) (ex_file ex_ten (repeat (-1) 10)) = Panic IndexOutOfRange.
Proof. exact pC101_node_dump_ex. Qed.
