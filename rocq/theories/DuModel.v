(** * DuModel: command lines (args.go of the tools, internal/system/args.go, internal/ui/args.go,
    internal/args/help.go) and the two dump tools as whole programs (cmd/dumpnodeindex,
    cmd/dumpwayindex). *)
From Verif Require Import Base PbModel TModel MtModel IoModel NiModel WiModel.

(** ** internal/system/args.go *)
(** system/args.go:3-8; a nil pointer is None.  Durations, thread counts and file names are only
    passed on. *)
Record SystemOpts : Type := mkSys {
  MaxThreads : option Z; CpuProfile : option (list Z); MemProfile : option (list Z); MemProfileRate : option Z }.
Definition given {A} (o : option A) : bool := match o with Some _ => true | None => false end.
Definition eRate : string := "mem-profile-rate requires mem-profile".
(** system/args.go:10-16 *)
Definition SystemOpts_Validate (o : SystemOpts) : list string :=
  if given (MemProfileRate o) && negb (given (MemProfile o)) then [eRate] else [].

(** ** parseArgs: args.go of each tool *)
(** What parser.ParseArgs returns: the options and the positional arguments, or an error, which
    args.IsHelp (internal/args/help.go:11-29) recognises as the request for help or not.  How
    go-flags reads a command line is not modelled. *)
Inductive parsed (A : Type) : Type :=
| Parsed (opts : A) (positional : list (list Z))
| HelpAsked
| BadLine (err : string).
Arguments Parsed {A} opts positional. Arguments HelpAsked {A}. Arguments BadLine {A} err.
(** What parseArgs does: it returns the options, or it prints and calls os.Exit with a status.
    The help text itself is not modelled. *)
Inductive started (A : Type) : Type :=
| Starts (opts : A)
| Exits (status : Z) (messages : list string).
Arguments Starts {A} opts. Arguments Exits {A} status messages.
Definition ePositional : string := "no positional arguments allowed".
(** cmd/nodeindex/args.go:22-61, and the same in the other tools: [validate] is the tool's part
    between "Arg validation" and the test of len(errors). *)
Definition parseArgs {A} (validate : A -> list string) (r : parsed A) : started A :=
  match r with
  | HelpAsked => Exits 0 []
  | BadLine e => Exits 1 [e]
  | Parsed opts positional =>
      let errors := (if zlen positional =? 0 then [] else [ePositional]) ++ validate opts in
      if 0 <? zlen errors then Exits 1 errors else Starts opts
  end.

(** cmd/nodeindex/args.go:16-22,43-49, cmd/wayindex, cmd/relindex, cmd/decompress,
    cmd/rewritenodes, cmd/tagfilter, cmd/blockcount, cmd/entitycount, cmd/entityfind: the
    embedded SystemOpts is all these tools check (ui/args.go:11-13 returns nil). *)
Definition tool_validate {A} (sys : A -> SystemOpts) (o : A) : list string := SystemOpts_Validate (sys o).

Definition eTogether : string := "sub-index-count and sub-index-index must be specified together".
Definition eBelow : string := "sub-index-index must be below sub-index-count".
(** cmd/dumpnodeindex/args.go:56-62 and cmd/dumpwayindex/args.go:54-60; the comparison is of
    uint64 values in the one and of int values in the other. *)
Definition part_errors (index count : option Z) : list string :=
  (if Bool.eqb (given count) (given index) then [] else [eTogether]) ++
  match count, index with
  | Some n, Some i => if n <=? i then [eBelow] else []
  | _, _ => []
  end.

(** ** cmd/dumpnodeindex *)
(** cmd/dumpnodeindex/args.go:13-22; index and count are uint64, start and end int. *)
Record NodeDumpOpts : Type := mkNodeDump {
  nd_PrintLocations : bool; nd_SearchIndex : bool;
  nd_SubIndexIndex : option Z; nd_SubIndexCount : option Z;
  nd_StartElement : option Z; nd_EndElement : option Z; nd_sys : SystemOpts }.
(** cmd/dumpnodeindex/args.go:49-62 *)
Definition node_dump_validate (o : NodeDumpOpts) : list string :=
  SystemOpts_Validate (nd_sys o) ++ part_errors (nd_SubIndexIndex o) (nd_SubIndexCount o).

(** The lines printed.  [lng] and [lat] stand for what is printed of float64(lng)/10_000_000 and
    float64(lat)/10_000_000 with %f. *)
Inductive node_line : Type :=
| Extract (word lng lat first idx id : Z)   (* dumpnodeindex.go:57-63 *)
| ExtractSkip                               (* dumpnodeindex.go:54 *)
| Search (word lng lat : Z)                 (* dumpnodeindex.go:73-76 *)
| SearchSkip                                (* dumpnodeindex.go:70 *)
| Mismatch.                                 (* dumpnodeindex.go:82 *)

(** dumpnodeindex.go:49-84: the lines for position [idx] of [element] *)
Definition node_dump_id (o : NodeDumpOpts) (si : NodeSubIndex) (element : IndexElement) (idx : Z) : res (list node_line) :=
  '(extract, l1) <-
    (if nd_PrintLocations o then
       loc <- lidx (si_locations si) (u64 (ie_Offset element + idx)) ;;
       let extract := u64 loc in
       if extract =? 0 then Ok (extract, [ExtractSkip])
       else
         let '(lng, lat) := DecodeLocation extract in
         Ok (extract, [Extract extract lng lat (FirstID element) idx (u64 (FirstID element + idx))])
     else Ok (0, [])) ;;
  '(search, l2) <-
    (if nd_SearchIndex o then
       '(l, _, found) <- FindNode si (u64 (FirstID element + idx)) 0 ;;
       let search := u64 l in
       if negb (found : bool) then Ok (search, [SearchSkip])
       else
         let '(lng, lat) := DecodeLocation search in
         Ok (search, [Search search lng lat])
     else Ok (0, [])) ;;
  Ok (l1 ++ l2 ++ if nd_PrintLocations o && nd_SearchIndex o && negb (extract =? search) then [Mismatch] else []).
(** dumpnodeindex.go:48-86 *)
Fixpoint node_dump_ids (o : NodeDumpOpts) (si : NodeSubIndex) (element : IndexElement) (n : nat) (idx : Z) : res (list node_line) :=
  match n with
  | O => Ok []
  | S n =>
      l <- node_dump_id o si element idx ;;
      rest <- node_dump_ids o si element n (idx + 1) ;;
      Ok (l ++ rest)
  end.
(** dumpnodeindex.go:37-88 (the block under "if false" prints nothing) *)
Fixpoint node_dump_elements (o : NodeDumpOpts) (si : NodeSubIndex) (n : nat) (currentElement : Z) : res (list node_line) :=
  match n with
  | O => Ok []
  | S n =>
      element <- lidx (si_element si) currentElement ;;
      l <- (if nd_SearchIndex o || nd_PrintLocations o
            then node_dump_ids o si element (Z.to_nat (ie_Count element)) 0 else Ok []) ;;
      rest <- node_dump_elements o si n (currentElement + 1) ;;
      Ok (l ++ rest)
  end.
(** dumpnodeindex.go:12-89 after parseArgs, on a file with these contents: what is printed if
    it ends. *)
Definition node_dump (o : NodeDumpOpts) (contents : list Z) : res (list node_line) :=
  idx <- NewNodeIndex contents ;;
  si <- match nd_SubIndexIndex o with
        | Some i => match nd_SubIndexCount o with
                    | Some n => SubIndex idx i n
                    | None => Panic NilDeref
                    end
        | None => SubIndex idx 0 1
        end ;;
  let startElement := match nd_StartElement o with Some s => s | None => 0 end in
  let count := zlen (si_element si) in
  let endElement := match nd_EndElement o with Some e => if e <? count then e else count | None => count end in
  node_dump_elements o si (Z.to_nat (endElement - startElement)) startElement.

(** ** cmd/dumpwayindex *)
(** cmd/dumpwayindex/args.go:13-20; index and count are int. *)
Record WayDumpOpts : Type := mkWayDump {
  wd_PrintLocations : bool; wd_SearchIndex : bool;
  wd_SubIndexIndex : option Z; wd_SubIndexCount : option Z; wd_sys : SystemOpts }.
(** cmd/dumpwayindex/args.go:47-60 *)
Definition way_dump_validate (o : WayDumpOpts) : list string :=
  SystemOpts_Validate (wd_sys o) ++ part_errors (wd_SubIndexIndex o) (wd_SubIndexCount o).
(** The lines printed; the same format is used for both options. *)
Inductive way_line : Type :=
| WayLine (id : Z) (locs : list Z)   (* dumpwayindex.go:30 and 37 *)
| WayFailed (id : Z).                (* dumpwayindex.go:35 *)
(** dumpwayindex.go:27-39: the lines for one entry of the index *)
Definition way_dump_entry (o : WayDumpOpts) (ix : WayIndex) (si : SubWayIndex) (data : Z) : res (list way_line) :=
  l1 <- (if wd_PrintLocations o then
           locs <- way_locations (mkSWI (wi_Ids ix) (wi_Loc ix) (wi_Shift ix) 0) data ;; Ok [WayLine (wd_WayID data) locs]
         else Ok []) ;;
  l2 <- (if wd_SearchIndex o then
           '(locs, _, ok) <- FindLocations si (wd_WayID data) 0 ;;
           Ok [if (ok : bool) then WayLine (wd_WayID data) locs else WayFailed (wd_WayID data)]
         else Ok []) ;;
  Ok (l1 ++ l2).
(** dumpwayindex.go:12-42 after parseArgs, on a file with these contents: what is printed if it
    ends.  The loop is over the entries of the whole index. *)
Definition way_dump (o : WayDumpOpts) (contents : list Z) : res (list way_line) :=
  ix <- NewWayIndex contents ;;
  si <- match wd_SubIndexIndex o with
        | Some i => match wd_SubIndexCount o with
                    | Some n => SubIndexWithScaledPass ix i n
                    | None => Panic NilDeref
                    end
        | None => SubIndexWithScaledPass ix 0 1
        end ;;
  ls <- mapm (way_dump_entry o ix si) (wi_Ids ix) ;;
  Ok (concat ls).
