(** * P_Dw: property theorems (generated from DwThms.v by tools/gen_props.py). *)
From Verif Require Import Base PbSpec PbModel TModel HLModel FrModel ZlModel IoModel IoSpec NiModel NiSpec WiModel WiSpec DuModel DuSpec NiThms WiThms DuThms DwThms.

(** C100.  On a way index file without a part being asked for: for each way, in order, its
    locations, once for each of the two options; no failure. *)
Theorem C100_dump : forall p s contents es loc shift L, NewWayIndex contents = Ok (way_index_of es loc shift) -> way_index_ok es loc shift -> es <> [] ->
  (forall e, In e es -> stored loc (position shift e) (L e)) ->
  way_dump (way_part p s None) contents =
    Ok (flat_map (fun e => (if p then [WayLine (e_id e) (L e)] else []) ++ (if s then [WayLine (e_id e) (L e)] else [])) es).
Proof. exact pC100_dump. Qed.
Print Assumptions C100_dump.

(** C100, a part: exactly what is printed for part k of n (which can be dumped if some way starts
    before its end): with the first option all ways of the index, not only the part's; with the
    second every way not in the part is reported as a failure. *)
Theorem C100_part_exact : forall p s contents es loc shift L k n, NewWayIndex contents = Ok (way_index_of es loc shift) -> way_index_ok es loc shift ->
  (forall e, In e es -> stored loc (position shift e) (L e)) -> 1 <= n -> 0 <= k < n ->
  let q := zlen loc / n in (exists e, In e es /\ position shift e < q * (k + 1)) ->
  exists found : entry -> bool, (forall e, In e es -> (found e = true <-> In e (pass_of shift (q * k) (q * (k + 1)) es))) /\
    way_dump (way_part p s (Some (k, n))) contents =
      Ok (flat_map (fun e => (if p then [WayLine (e_id e) (L e)] else []) ++
                             (if s then [if found e then WayLine (e_id e) (L e) else WayFailed (e_id e)] else [])) es).
Proof. exact pC100_part_exact. Qed.
Print Assumptions C100_part_exact.

(** C100.  After indexing any input as in C57, the dump of the index file prints for each way of
    the input, in order, what is kept of its refs, once for each option. *)
Theorem C100_from_input : forall o a inBlocks wss print search, all_well o -> 0 <= a <= 62 -> Forall2 ways_block inBlocks wss -> concat wss <> [] ->
  Forall (fun w => 0 <= fst w < 2^31 /\ Forall is_s64 (snd w)) (concat wss) -> ascending_by fst (concat wss) ->
  size_bound a (concat wss) <= 2^(33 + a) -> size_bound a (concat wss) < 2^62 ->
  exists w, wi_index o a inBlocks = (w, Ok tt) /\
    way_dump (way_part print search None) (f_data (w_idx w)) =
      Ok (flat_map (fun x => (if print then [WayLine (fst x) (kept 0 (snd x))] else []) ++ (if search then [WayLine (fst x) (kept 0 (snd x))] else [])) (concat wss)).
Proof. exact pC100_from_input. Qed.
Print Assumptions C100_from_input.

(** The ways of C57's example, written and dumped. *)
Example C100_ex : exists w lines, wi_index os_fine 4 ex_wi_blocks = (w, Ok tt) /\ way_dump (way_part true true None) (f_data (w_idx w)) = Ok lines /\
  lines = [WayLine 5 [3; 4]; WayLine 5 [3; 4]; WayLine 7 [-9]; WayLine 7 [-9]; WayLine 8 []; WayLine 8 []].
Proof. exact pC100_ex. Qed.

(** C100 is false of the code: asked for part 1 of 5 of an index of ten ways, the tool prints all
    ten, and reports the eight ways of the other parts as failures. *)
Theorem C100_part_refuted : NewWayIndex ex_way_file = Ok (way_index_of ex_pass_es ex_pass_loc 3) /\
  (exists lines, way_dump (way_part true false (Some (1, 5))) ex_way_file = Ok lines /\ zlen lines = 10) /\
  way_dump (way_part false true (Some (1, 5))) ex_way_file =
    Ok [WayFailed 1; WayFailed 2; WayLine 3 [1]; WayLine 4 [1]; WayFailed 5; WayFailed 6; WayFailed 7; WayFailed 8; WayFailed 9; WayFailed 10].
Proof. exact pC100_part_refuted. Qed.
Print Assumptions C100_part_refuted.

(** C101.  A tool starts exactly if the command line can be read, has no positional arguments
    and breaks none of the tool's rules; ... *)
Theorem C101_starts : forall (A : Type) (validate : A -> list string) r (o : A),
  parseArgs validate r = Starts o <-> r = Parsed o [] /\ validate o = [].
Proof. exact pC101_starts. Qed.
Print Assumptions C101_starts.

(** ... if it does not start it exits, with status 0 if help was asked for and otherwise with
    status 1 and at least one message. *)
Theorem C101_exits : forall (A : Type) (validate : A -> list string) r, (forall o, parseArgs validate r <> Starts o) ->
  (r = HelpAsked /\ parseArgs validate r = Exits 0 []) \/
  (r <> HelpAsked /\ exists m ms, parseArgs validate r = Exits 1 (m :: ms)).
Proof. exact pC101_exits. Qed.
Print Assumptions C101_exits.

(** C101, the rules: a profile rate needs a profile file; and for the dump tools the two options
    of a part are given together, the first being below the second. *)
Theorem C101_rules :
  (forall (A : Type) (sys : A -> SystemOpts) o, tool_validate sys o = [] <-> rate_rule (sys o)) /\
  (forall o, node_dump_validate o = [] <-> rate_rule (nd_sys o) /\ part_rule (nd_SubIndexIndex o) (nd_SubIndexCount o)) /\
  (forall o, way_dump_validate o = [] <-> rate_rule (wd_sys o) /\ part_rule (wd_SubIndexIndex o) (wd_SubIndexCount o)).
Proof. exact pC101_rules. Qed.
Print Assumptions C101_rules.

(** C101, partial: what an accepted command line of dumpnodeindex needs, on a file with index
    [rs ++ [l]], to be carried out without a panic: a start element that is not negative, at most
    as many parts as locations, and the part's share starting no later than the last range. *)
Theorem C101_node_dump_partial : forall o contents rs l locs, NewNodeIndex contents = Ok (index_of (rs ++ [l]) locs) -> index_ok (rs ++ [l]) locs -> Forall is_s64 locs ->
  parseArgs node_dump_validate (Parsed o []) = Starts o ->
  (forall i, nd_SubIndexIndex o = Some i -> 0 <= i) -> (forall st, nd_StartElement o = Some st -> 0 <= st) ->
  ((exists lines, node_dump o contents = Ok lines) <->
   (forall i n, nd_SubIndexIndex o = Some i -> nd_SubIndexCount o = Some n -> n <= zlen locs /\ zlen locs / n * i <= total rs)).
Proof. exact pC101_node_dump_partial. Qed.
Print Assumptions C101_node_dump_partial.

Example C101_ex : parseArgs node_dump_validate (Parsed (dump_part true true (Some (1, 5))) []) = Starts (dump_part true true (Some (1, 5))) /\
  parseArgs node_dump_validate (Parsed (mkNodeDump true true (Some 5) (Some 5) None None (mkSys None None None (Some 1))) [[104]]) = Exits 1 [ePositional; eRate; eBelow] /\
  parseArgs way_dump_validate (Parsed (mkWayDump true true (Some 5) None plain) []) = Exits 1 [eTogether] /\
  (exists lines, node_dump (dump_part true true (Some (1, 5))) (ex_file ex_ten (repeat (-1) 10)) = Ok lines /\ zlen lines = 4).
Proof. exact pC101_ex. Qed.

(** C101 is false of the code: dumpwayindex accepts part -1 of 1, and panics on every index; it
    accepts part -1 of 0, and divides by zero; dumpnodeindex accepts more parts than there are
    locations and negative start elements, and panics. *)
Theorem C101_accepted_refuted :
  (forall p s, parseArgs way_dump_validate (Parsed (way_part p s (Some (-1, 1))) []) = Starts (way_part p s (Some (-1, 1))) /\
     forall contents es loc shift, NewWayIndex contents = Ok (way_index_of es loc shift) -> way_index_ok es loc shift ->
       way_dump (way_part p s (Some (-1, 1))) contents = Panic IndexOutOfRange) /\
  (forall p s, parseArgs way_dump_validate (Parsed (way_part p s (Some (-1, 0))) []) = Starts (way_part p s (Some (-1, 0))) /\
     forall contents ix, NewWayIndex contents = Ok ix -> way_dump (way_part p s (Some (-1, 0))) contents = Panic DivideByZero) /\
  (let o := dump_part true true (Some (0, 11)) in parseArgs node_dump_validate (Parsed o []) = Starts o /\ node_dump o (ex_file ex_ten (repeat (-1) 10)) = Panic IndexOutOfRange) /\
  (let o := mkNodeDump true true None None (Some (-1)) None plain in parseArgs node_dump_validate (Parsed o []) = Starts o /\ node_dump o (ex_file ex_ten (repeat (-1) 10)) = Panic IndexOutOfRange).
Proof. exact pC101_accepted_refuted. Qed.
Print Assumptions C101_accepted_refuted.
