(** * RiModel: the relation index (cmd/relindex). *)
From Verif Require Import Base PbModel TModel HLModel FrModel ZlModel IoModel NiModel RwModel WiModel.

(** ** cmd/relindex/relindexerinit/relindexer_worker.go *)
(** relindexer_worker.go:16-21 *)
Definition ri_reader : PBReader := mkReader false true true false.

(** relindexer_worker.go:49-54 *)
Fixpoint ri_count (types : list Z) : Z :=
  match types with
  | [] => 0
  | t :: r => (if t =? RelationMemberTypeWay then 1 else 0) + ri_count r
  end.
(** relindexer_worker.go:56-62: [types] is r.MemberType[idx:] *)
Fixpoint ri_members (ids types : list Z) : res (list Z) :=
  match ids with
  | [] => Ok []
  | wayId :: ids =>
      match types with
      | [] => Panic IndexOutOfRange
      | t :: types =>
          out <- ri_members ids types ;;
          Ok (if negb (t =? RelationMemberTypeWay) then out else s64 (- wayId) :: out)
      end
  end.
(** relindexer_worker.go:47-62: one relation; ID is a uint64 *)
Definition ri_relation (outputData : list Z) (r : Relation) : res (list Z) :=
  ms <- ri_members (rel_MemIDs r) (rel_MemberType r) ;;
  Ok (outputData ++ [s64 (rel_ID r); ri_count (rel_MemberType r)] ++ ms).
(** relindexer_worker.go:44-64 *)
Definition ri_data (pb : PrimitiveBlock) : res (list Z) :=
  foldm (fun s pg => match pg_Relations pg with
                     | None => Ok s
                     | Some rs => foldm ri_relation rs s
                     end)
        (pblk_PrimitiveGroup pb) [].

(** A message sent to the writer; [rm_Words] is its Data if that is a []int64. *)
Record ri_msg : Type := mkRiMsg { rm_Index : Z; rm_Type : list Z; rm_Words : option (list Z) }.
Definition tRelationData : list Z := bytes_of "RelationData".
(** relindexer_worker.go:28-76: the message sent for one block (state display left out) *)
Definition ri_worker (env : zenv) (data : Block) : res ri_msg :=
  if negb (seqb (blk_Type data) tOSMData) then Ok (mkRiMsg (blk_Index data) (blk_Type data) None)
  else
    b <- ReadBlob (blk_Data data) Blob0 ;;
    raw <- GetRawData env b ;;
    pb <- ReadPrimitiveBlock ri_reader raw PrimitiveBlock0 ;;
    words <- ri_data pb ;;
    Ok (mkRiMsg (blk_Index data) tRelationData (Some words)).

(** ** cmd/relindex/relindexerinit/relindexer_writer.go:11-27: the contents of the file, when
    all calls to the operating system succeed. *)
Fixpoint ri_write (msgs : list ri_msg) (contents : list Z) : res (list Z) :=
  match msgs with
  | [] => Ok contents
  | m :: r =>
      if negb (seqb (rm_Type m) tRelationData) then ri_write r contents
      else
        match rm_Words m with
        | None => Panic (PanicMsg "interface conversion")
        | Some words => ri_write r (contents ++ SliceAsByteSlice words)
        end
  end.
(** The first step: every block handled by some worker, the messages delivered to the writer
    in block order (C37). *)
Definition ri_init (inBlocks : list (zenv * Block)) : res (list Z) :=
  msgs <- mapm (fun b => ri_worker (fst b) (snd b)) inBlocks ;;
  ri_write msgs [].

(** ** cmd/relindex/relindex.go *)
(** relindex.go:51-79: the ways of a relation.  [rest] is u[i:]; what is appended to
    outputData and u[i:] afterwards are returned.  Every round uses up a word. *)
Fixpoint ri_ways (fuel : nat) (swi : SubWayIndex) (pass count : Z) (n : Z) (rest : list Z) : res (list Z * list Z) :=
  if 0 <? n then
    match fuel with
    | O => Diverge
    | S fuel =>
        match rest with
        | [] => Panic IndexOutOfRange
        | wayId :: rest =>
            if wayId <? 0 then
              '(locations, _, ok) <- FindLocations swi (s64 (- wayId)) 0 ;;
              '(out, rest) <- ri_ways fuel swi pass count (n - 1) rest ;;
              Ok ((if negb (ok : bool) then
                     if s64 (pass + 1) <? count then [wayId] else [s64 (- wayId); 0]
                   else s64 (- wayId) :: zlen locations :: locations) ++ out, rest)
            else
              match rest with
              | [] => Panic IndexOutOfRange
              | locCount :: rest =>
                  locs <- lslice rest 0 locCount ;;
                  '(out, rest) <- ri_ways fuel swi pass count (n - 1) (skipn (Z.to_nat locCount) rest) ;;
                  Ok (wayId :: locCount :: locs ++ out, rest)
              end
        end
    end
  else Ok ([], rest).

(** relindex.go:41-85: the loop over the relations; [rest] is u[i:], [written] the contents of
    the output file *)
Fixpoint ri_rels (fuel : nat) (swi : SubWayIndex) (pass count : Z) (rest outputData written : list Z) : res (list Z * list Z) :=
  match rest with
  | [] => Ok (outputData, written)
  | relId :: rest =>
      match fuel with
      | O => Diverge
      | S fuel =>
          match rest with
          | [] => Panic IndexOutOfRange
          | wayCount :: rest =>
              '(out, rest) <- ri_ways (S (List.length rest)) swi pass count wayCount rest ;;
              let outputData := outputData ++ [relId; wayCount] ++ out in
              if 1000000 <? zlen outputData then ri_rels fuel swi pass count rest [] (written ++ SliceAsByteSlice outputData)
              else ri_rels fuel swi pass count rest outputData written
          end
      end
  end.
(** relindex.go:29-92 [rewrite]: from the contents of the input file to those of the output
    file, when all calls to the operating system succeed except the mapping of an empty file. *)
Definition ri_rewrite (wi : WayIndex) (pass count : Z) (contents : list Z) : res (list Z) :=
  swi <- SubIndexWithScaledPass wi pass count ;;
  m <- MMapMap contents ;;
  let u := ByteSliceAsInt64Slice m in
  '(outputData, written) <- ri_rels (S (List.length u)) swi pass count u [] [] ;;
  Ok (if 0 <? zlen outputData then written ++ SliceAsByteSlice outputData else written).

(** relindex.go:128-143: pass [i] and the ones after it, [n] in all.  The output file is
    created while the input, another file, is mapped. *)
Fixpoint ri_loop (wi : WayIndex) (output : list Z) (passes : Z) (n : nat) (i : Z) (fs : fsys) : res fsys :=
  match n with
  | O => Ok fs
  | S n =>
      let inputFile := makePassFilename output i passes in
      let outputFile := if i + 1 <? passes then makePassFilename output (i + 1) passes else output in
      match fs inputFile with
      | None => Panic IOError
      | Some contents =>
          out <- ri_rewrite wi i passes contents ;;
          ri_loop wi output passes n (i + 1) (fs_remove_try (fs_set fs outputFile (Some out)) inputFile)
      end
  end.
(** relindex.go:94-151 [main] on the file system (an index that is closed and the statistics
    are left out); [passes], an int, is not negative: makePassFilename prints a minus
    sign otherwise. *)
Definition ri_main (inBlocks : list (zenv * Block)) (wayIndex output : list Z) (passes : Z) (fs : fsys) : res fsys :=
  first <- ri_init inBlocks ;;
  let fs := fs_set fs (makePassFilename output 0 passes) (Some first) in
  match fs wayIndex with
  | None => Panic IOError
  | Some contents =>
      ix <- NewWayIndex contents ;;
      ri_loop ix output passes (Z.to_nat passes) 0 fs
  end.
