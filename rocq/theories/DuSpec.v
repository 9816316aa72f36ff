(** * DuSpec: what the dump tools should print, and which command lines should be accepted. *)
From Verif Require Import Base MtModel NiModel NiSpec WiModel WiSpec DuModel.

(** ** Node dump *)
(** The lines for id [first + i], stored with value [loc] (0: no node): one for each of the two options. *)
Definition id_lines (print search : bool) (first i loc : Z) : list node_line :=
  let word := loc mod 2^64 in
  let '(lng, lat) := DecodeLocation word in
  (if print then [if loc =? 0 then ExtractSkip else Extract word lng lat first i (first + i)] else []) ++
  (if search then [if loc =? 0 then SearchSkip else Search word lng lat] else []).
(** The lines of a range: every id of it, in order. *)
Definition range_lines (print search : bool) (locs : list Z) (r : range) : list node_line :=
  flat_map (fun i => id_lines print search (r_first r) (Z.of_nat i) (nth (Z.to_nat (r_offset r) + i) locs 0)) (seq 0 (Z.to_nat (r_count r))).
Definition listing (print search : bool) (locs : list Z) (rs : list range) : list node_line :=
  flat_map (range_lines print search locs) rs.
(** The ranges asked for: from number [start] (0 if not given) up to but not including [end_]. *)
Definition asked (start end_ : option Z) (rs : list range) : list range :=
  let rs := match end_ with Some e => firstn (Z.to_nat e) rs | None => rs end in
  match start with Some s => skipn (Z.to_nat s) rs | None => rs end.

(** What a reader of the output learns: ids with their coordinates; coordinates found. *)
Definition extracted (lines : list node_line) : list (Z * Z * Z) :=
  flat_map (fun l => match l with Extract _ lng lat _ _ id => [(id, lng, lat)] | _ => [] end) lines.
Definition searched (lines : list node_line) : list (Z * Z) :=
  flat_map (fun l => match l with Search _ lng lat => [(lng, lat)] | _ => [] end) lines.

(** Options without the debugging ones. *)
Definition plain : SystemOpts := mkSys None None None None.
Definition dump_part (print search : bool) (part : option (Z * Z)) : NodeDumpOpts :=
  mkNodeDump print search (option_map fst part) (option_map snd part) None None plain.

(** ** Way dump *)
Definition way_part (print search : bool) (part : option (Z * Z)) : WayDumpOpts :=
  mkWayDump print search (option_map fst part) (option_map snd part) plain.

(** ** Command lines *)
(** The rules the help text and the messages state. *)
Definition rate_rule (s : SystemOpts) : Prop := MemProfileRate s <> None -> MemProfile s <> None.
Definition part_rule (index count : option Z) : Prop :=
  (index = None /\ count = None) \/ exists i n, index = Some i /\ count = Some n /\ i < n.
