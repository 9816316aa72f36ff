(** * RwModel: rewriting node references (cmd/rewritenodes). *)
From Verif Require Import Base PbModel TModel HLModel FrModel ZlModel IoModel NiModel.

(** ** cmd/rewritenodes/rewriter/noderewriter_worker.go *)

(** noderewriter_worker.go:18-22 *)
Definition rw_reader : PBReader := mkReader true true false true.

(** noderewriter_worker.go:68-86: the refs of a way, rewritten in place; [outIndex] is always
    the index of the ref being read, since every branch writes one ref, so the list of the
    refs written is the new content.  Returns the refs and the hint. *)
Fixpoint rw_refs (ix : NodeSubIndex) (finalPass : bool) (refs : list Z) (hint : Z) : res (list Z * Z) :=
  match refs with
  | [] => Ok ([], hint)
  | ref :: r =>
      if ref <? 0 then
        '(out, hint) <- rw_refs ix finalPass r hint ;; Ok (ref :: out, hint)
      else
        '(mortonLocation, hint, found) <- FindNode ix (u64 ref) hint ;;
        '(out, hint) <- rw_refs ix finalPass r hint ;;
        Ok ((if found then mortonLocation else if negb finalPass then ref else ref) :: out, hint)
  end.

(** noderewriter_worker.go:61-88: the ways of a group (elements are pointers). *)
Fixpoint rw_ways (ix : NodeSubIndex) (finalPass : bool) (ways : list Way) (hint : Z) : res (list Way * Z) :=
  match ways with
  | [] => Ok ([], hint)
  | w :: r =>
      '(refs, hint) <- rw_refs ix finalPass (way_Refs w) hint ;;
      '(out, hint) <- rw_ways ix finalPass r hint ;;
      Ok (mkWay (way_ID w) (way_Keys w) (way_Vals w) refs :: out, hint)
  end.
Definition set_ways (g : PrimitiveGroup) (ws : option (list Way)) : PrimitiveGroup :=
  mkGroup (pg_RawDense g) (pg_Dense g) ws (pg_RawWays g) (pg_Relations g) (pg_RawRelations g).
Fixpoint rw_groups (ix : NodeSubIndex) (finalPass : bool) (gs : list PrimitiveGroup) (hint : Z)
  : res (list PrimitiveGroup * Z) :=
  match gs with
  | [] => Ok ([], hint)
  | g :: r =>
      '(ws, hint) <- match pg_Ways g with
                     | None => Ok (None, hint)
                     | Some ws => '(ws, hint) <- rw_ways ix finalPass ws hint ;; Ok (Some ws, hint)
                     end ;;
      '(out, hint) <- rw_groups ix finalPass r hint ;;
      Ok (set_ways g ws :: out, hint)
  end.
Definition set_groups (p : PrimitiveBlock) (gs : list PrimitiveGroup) : PrimitiveBlock :=
  mkBlock (pblk_StringTableRaw p) (pblk_StringTable p) gs (pblk_Granularity p)
          (pblk_DateGranularity p) (pblk_LatOffset p) (pblk_LonOffset p).

(** noderewriter_worker.go:43-46 *)
Definition count_ways (gs : list PrimitiveGroup) : Z :=
  fold_left (fun n g => n + match pg_Ways g with Some ws => zlen ws | None => 0 end) gs 0.

(** noderewriter_worker.go:28-98: the block sent for one block (state display left out). *)
Definition rw_worker (env : zenv) (ix : NodeSubIndex) (finalPass : bool) (data : Block) : res Block :=
  if negb (seqb (blk_Type data) tOSMData) then Ok data
  else
    b <- ReadBlob (blk_Data data) Blob0 ;;
    raw <- GetRawData env b ;;
    pb <- ReadPrimitiveBlock rw_reader raw PrimitiveBlock0 ;;
    if count_ways (pblk_PrimitiveGroup pb) =? 0 then Ok data
    else
      '(gs, _) <- rw_groups ix finalPass (pblk_PrimitiveGroup pb) 0 ;;
      out <- Blob_Write (mkBlob None None None (Some (PrimitiveBlock_Write (set_groups pb gs)))) [] ;;
      Ok (mkBlk (blk_Index data) (exact out) tOSMData).

(** ** cmd/rewritenodes/rewritenodes.go *)

(** One pass over a file: pbf.ProcessFileAsync with the worker above and
    noderewriter_writer.go (FrModel.rewriter_writer).  [envs i] is the environment in which
    block [i] is decompressed. *)
Definition rw_pass (envs : Z -> zenv) (ix : NodeSubIndex) (finalPass : bool) (file : list Z) : res (list Z) :=
  m <- MMapMap file ;;
  bs <- read_file m ;;
  ms <- mapm (fun b => rw_worker (envs (blk_Index b)) ix finalPass b) bs ;;
  rewriter_writer ms [].

(** fmt's %03d of a uint64 *)
Fixpoint decimal (fuel : nat) (n : Z) : list Z :=
  match fuel with
  | O => []
  | S f => if n <? 10 then [48 + n] else decimal f (n / 10) ++ [48 + n mod 10]
  end.
Definition pad3 (s : list Z) : list Z := repeat 48 (3 - List.length s) ++ s.
Definition fmt03d (n : Z) : list Z := pad3 (decimal 20 n).
(** rewritenodes.go:20-22 [makePassFilename] *)
Definition makePassFilename (fn : list Z) (pass count : Z) : list Z :=
  fn ++ bytes_of ".pass_" ++ fmt03d pass ++ bytes_of "_" ++ fmt03d count.

(** rewritenodes.go:37-43: the number of passes; [memory] is the option in megabytes. *)
Definition rw_count (locationCount : Z) (memory : option Z) : res Z :=
  match memory with
  | None => Ok 1
  | Some m =>
      let memTarget := u64 (m * 1048576) in
      let memRequired := u64 (locationCount * 8) in
      if memTarget =? 0 then Panic DivideByZero
      else Ok (u64 (memRequired / memTarget + 1))
  end.

(** The file system: contents of the files that exist. *)
Definition fsys : Type := list Z -> option (list Z).
Definition fs_set (fs : fsys) (name : list Z) (c : option (list Z)) : fsys :=
  fun n => if seqb n name then c else fs n.
(** iio.OsRemoveTry: errors are ignored; iio.OsRemove: they panic. *)
Definition fs_remove_try (fs : fsys) (name : list Z) : fsys := fs_set fs name None.
Definition fs_remove (fs : fsys) (name : list Z) : res fsys :=
  match fs name with None => Panic IOError | Some _ => Ok (fs_set fs name None) end.

(** rewritenodes.go:49-82: pass [i] and the ones after it, [n] in all; [envs i j] is the
    environment in which pass [i] decompresses block [j].  The output file is
    created (emptied) while the input, another file, is mapped; its content when the pass is
    done is what the writer wrote. *)
Fixpoint rw_loop (envs : Z -> Z -> zenv) (idx : NodeIndex) (input output : list Z) (passes : Z) (n : nat) (i : Z) (fs : fsys)
  : res fsys :=
  match n with
  | O => Ok fs
  | S n =>
      let fs := if 1 <? i then fs_remove_try fs (makePassFilename output (i - 1) passes) else fs in
      let inputFile := if 0 <? i then makePassFilename output i passes else input in
      let outputFile := if i + 1 <? passes then makePassFilename output (i + 1) passes else output in
      ix <- SubIndex idx i passes ;;
      match fs inputFile with
      | None => Panic IOError
      | Some file =>
          out <- rw_pass (envs i) ix (i =? passes - 1) file ;;
          rw_loop envs idx input output passes n (i + 1) (fs_set fs outputFile (Some out))
      end
  end.
(** rewritenodes.go:24-101 [main], on the file system; the index file has been opened. *)
Definition rw_main (envs : Z -> Z -> zenv) (idx : NodeIndex) (input output : list Z) (memory : option Z) (fs : fsys) : res fsys :=
  passes <- rw_count (LocationCount idx) memory ;;
  fs <- rw_loop envs idx input output passes (Z.to_nat passes) 0 fs ;;
  if 1 <? passes then fs_remove fs (makePassFilename output (passes - 1) passes) else Ok fs.
