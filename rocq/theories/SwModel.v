(** * SwModel: the writers of the six tools, with what the operating system answers and with their records (SlModel.v). *)
From Flocq Require Import BinarySingleNaN.
From Verif Require Import Base PbModel TModel HLModel FrModel ZlModel IoModel NiModel WiModel RiModel RwModel TfModel TrModel TmModel PgModel SlModel.

(** A computation on files ([S]: their state) with the deeds it performs; after a panic the state is what a crashed process leaves behind. *)
Definition tio (S A : Type) : Type := S -> list deed * (S * res A).
Definition tio_bind {S A B} (m : tio S A) (f : A -> tio S B) : tio S B := fun s =>
  match m s with
  | (d, (s, Ok a)) => let r := f a s in (d ++ fst r, snd r)
  | (d, (s, Panic p)) => (d, (s, Panic p))
  | (d, (s, Diverge)) => (d, (s, Diverge))
  end.
Notation "x <== m ;; k" := (tio_bind m (fun x => k)) (at level 61, m at next level, right associativity).
Definition say {S} (ds : list deed) : tio S unit := fun s => (ds, (s, Ok tt)).
Definition act {S A} (m : S -> S * res A) : tio S A := fun s => ([], m s).
Definition give {S A} (r : res A) : tio S A := fun s => ([], (s, r)).

(** ** One output file: decompress, relindex, rewritenodes, tagfilter *)

(** The output file and the header buffer ([blobHeaderBuf], its first four bytes) of the writers that have one. *)
Record ofile : Type := mkOfile { of_k : nat; of_file : file; of_hdr : list Z }.
Definition of0 : ofile := mkOfile 0 (mkFile [] 0) zero4.
(** iio.OsCreate, iio.FClose *)
Definition of_call (o : os) (s : ofile) : ofile * res unit :=
  (mkOfile (S (of_k s)) (of_file s) (of_hdr s), if os_fail o (of_k s) then Panic IOError else Ok tt).
(** iio.FWrite, iio.FWriteSliceI64 *)
Definition of_write (o : os) (buf : list Z) (s : ofile) : ofile * res unit :=
  let '(k, f, r) := FWrite o (of_k s) (of_file s) buf in (mkOfile k f (of_hdr s), r).
Definition of_write_words (o : os) (ws : list Z) (s : ofile) : ofile * res unit :=
  let '(k, f, r) := FWriteSlice o (of_k s) (of_file s) ws in (mkOfile k f (of_hdr s), r).

(** SetWritingBlock and SetStateWriting, e.g. cmd/decompress/decompressor/state/state_writer.go:25-28 *)
Definition wReading : Z := 0.
Definition wWriting : Z := 1.
Definition SetStateWriting (block : Z) : list deed := [Store CBlock block; Store CState wWriting].
(** The loop of the four writers: [skip] the blocks passed over and what is done then, [idx] the number of the block, [put] how it is written. *)
Fixpoint w_loop {M} (skip : M -> bool) (skipped : list deed) (idx : M -> Z) (put : M -> tio ofile unit) (msgs : list M) : tio ofile unit :=
  _ <== say [Doing Waiting] ;;
  match msgs with
  | [] => give (Ok tt)
  | m :: r =>
      _ <== (if skip m then say skipped
             else _ <== say (SetStateWriting (idx m) ++ [Doing (Writing (idx m))]) ;; _ <== put m ;; say (SetCurrentState wReading)) ;;
      w_loop skip skipped idx put r
  end.

(** cmd/decompress/decompressor/decompressor_writer.go:11-24 [Output]; a message is the number and the data of a block *)
Definition dc_output (o : os) (msgs : list (Z * list Z)) : tio ofile unit :=
  _ <== act (of_call o) ;;
  _ <== say (SetCurrentState wReading) ;;
  _ <== w_loop (fun _ => false) [] fst (fun m => act (of_write o (snd m))) msgs ;;
  act (of_call o).
(** cmd/relindex/relindexerinit/relindexer_writer.go:11-27 [Output] *)
Definition ri_output (o : os) (msgs : list ri_msg) : tio ofile unit :=
  _ <== act (of_call o) ;;
  _ <== say (SetCurrentState wReading) ;;
  _ <== w_loop (fun m => negb (seqb (rm_Type m) tRelationData)) [] rm_Index
          (fun m => match rm_Words m with
                    | None => give (Panic (PanicMsg "interface conversion"))
                    | Some ws => act (of_write_words o ws)
                    end) msgs ;;
  act (of_call o).
(** cmd/rewritenodes/rewriter/noderewriter_writer.go:22-38 and cmd/tagfilter/tagfilterer/tagfilterer_writer.go:28-44: the header is built in the reused
    buffer, then header and data are written *)
Definition put_frame (o : os) (b : Block) : tio ofile unit :=
  let data := vis (blk_Data b) in
  out <== (fun s => ([], (s, be32_put (BlobHeader_Write (mkBlobHeader (blk_Type b) (s32 (zlen data))) (of_hdr s))
                                      (u32 (zlen (BlobHeader_Write (mkBlobHeader (blk_Type b) (s32 (zlen data))) (of_hdr s)) - 4))))) ;;
  _ <== act (fun s => (mkOfile (of_k s) (of_file s) (firstn 4 out), Ok tt)) ;;
  _ <== act (of_write o out) ;;
  act (of_write o data).
(** noderewriter_writer.go:14-43 [Writer] *)
Definition rw_output (o : os) (msgs : list Block) : tio ofile unit :=
  _ <== act (of_call o) ;;
  _ <== w_loop (fun _ => false) [] blk_Index (put_frame o) msgs ;;
  act (of_call o).
(** cmd/tagfilter/tagfilterer/state/state_writer.go:36-38; tagfilterer_writer.go:14-49 [Writer]; the file is not closed *)
Definition AddFiller : list deed := [AddTo CFiller 1].
Definition tf_output (o : os) (msgs : list Block) : tio ofile unit :=
  _ <== act (of_call o) ;;
  w_loop (fun m => seqb (blk_Type m) tFiller) AddFiller blk_Index (put_frame o) msgs.
(** rewritenodes has one writer record for all passes (cmd/rewritenodes/rewritenodes.go:44, rewriter/noderewriter.go:8-16), one run of [Writer] in each, each
    with its own file: the deeds of the passes one after the other, until one panics. *)
Fixpoint rw_outputs (passes : list (os * list Block)) : list deed :=
  match passes with
  | [] => []
  | (o, msgs) :: r =>
      match rw_output o msgs of0 with
      | (d, (_, Ok _)) => d ++ rw_outputs r
      | (d, _) => d
      end
  end.

(** ** Two files: nodeindex, wayindex *)

(** cmd/nodeindex/indexer/state/state_writer.go:14-20 and cmd/wayindex/wayindexer/state/state_writer.go:14-20 *)
Definition iReading : Z := 0.
Definition iWritingIndex : Z := 1.
Definition iWritingLocations : Z := 2.
Definition iCopyingLocations : Z := 3.
Definition iFinalizing : Z := 4.
(** state_writer.go:30-33, 35-38, 44-46 *)
Definition SetStateWritingIndex (block : Z) : list deed := [Store CBlock block; Store CState iWritingIndex].
Definition SetStateCopyLocations (sz : Z) : list deed := [Store CTotal sz; Store CState iCopyingLocations].
Definition AdvanceCopy (amount : Z) : list deed := [AddTo CCopied (u64 amount)].

(** The copy loop (IoModel.copy_loop) with its deeds; [done]: the bytes copied before (for the statements). *)
Fixpoint copy_told (fuel : nat) (o : os) (k : nat) (fDst fSrc : file) (size done : Z) : list deed * (nat * file * file * res unit) :=
  match fuel with
  | O => ([], (k, fDst, fSrc, Diverge))
  | S fuel =>
      let here := Doing (Copying done (zlen (f_data fSrc))) in
      if os_cancelled o k then ([here], (S k, fDst, fSrc, Ok tt))
      else
        match FCopy o (S k) fDst fSrc size with
        | (k, fDst, fSrc, Ok n) =>
            if n =? 0 then ([here], (k, fDst, fSrc, Ok tt))
            else let r := copy_told fuel o k fDst fSrc size (done + n) in (here :: AdvanceCopy n ++ fst r, snd r)
        | (k, fDst, fSrc, Panic p) => ([here], (k, fDst, fSrc, Panic p))
        | (k, fDst, fSrc, Diverge) => ([here], (k, fDst, fSrc, Diverge))
        end
  end.
Definition io_copy_told (o : os) : tio wstate unit := fun w =>
  let '(d, (k, fd, fs, r)) := copy_told (S (List.length (f_data (w_loc w)))) o (w_k w) (w_idx w) (w_loc w) copyBufferSize 0 in
  (d, (mkW k fd fs, r)).
(** What is done from here on is copying the temporary file (for the statements). *)
Definition say_copying : tio wstate unit := fun w => ([Doing (Copying 0 (zlen (f_data (w_loc w))))], (w, Ok tt)).

(** cmd/nodeindex/indexer/nodeindexer_writer.go:27-48, as NiModel.ni_write_batches; lastLocationIndex and indexElementCount at the end *)
Fixpoint ni_batches_told (o : os) (msgs : list ni_msg) (lastLocationIndex indexElementCount : Z) : tio wstate (Z * Z) :=
  _ <== say [Doing Waiting] ;;
  match msgs with
  | [] => give (Ok (lastLocationIndex, indexElementCount))
  | m :: r =>
      if negb (seqb (nm_Type m) tIndexData) then ni_batches_told o r lastLocationIndex indexElementCount
      else
        match nm_Batch m with
        | None => give (Panic (PanicMsg "interface conversion"))
        | Some (ranges, locations) =>
            _ <== say (SetStateWritingIndex (zlen ranges) ++ [Doing (WritingIndex (nm_Index m) (zlen ranges))]) ;;
            x <== give (ni_ranges ranges [] lastLocationIndex indexElementCount) ;;
            _ <== act (idx_WriteSlice o (fst (fst x))) ;;
            _ <== say (SetCurrentState iWritingLocations ++ [Doing (WritingLocations (nm_Index m))]) ;;
            _ <== act (loc_WriteSlice o locations) ;;
            _ <== say (SetCurrentState iReading) ;;
            ni_batches_told o r (snd (fst x)) (snd x)
        end
  end.
(** nodeindexer_writer.go:14-73 [Output] *)
Definition ni_output_told (o : os) (msgs : list ni_msg) : tio wstate unit :=
  _ <== act (io_call o) ;;
  _ <== act (io_call o) ;;
  _ <== act (idx_WriteSlice o [0; 0]) ;;
  _ <== say (SetCurrentState iReading) ;;
  n <== ni_batches_told o msgs 0 0 ;;
  _ <== say (SetStateCopyLocations (u64 (8 * fst n))) ;;
  _ <== say_copying ;;
  _ <== act (loc_rewind o) ;;
  _ <== io_copy_told o ;;
  _ <== act (io_call o) ;;
  _ <== act (io_call o) ;;
  _ <== say (SetCurrentState iFinalizing ++ [Doing Finalizing]) ;;
  _ <== act (idx_rewind o) ;;
  _ <== act (idx_WriteSlice o [Version; snd n]) ;;
  act (io_call o).

(** cmd/wayindex/wayindexer/wayindexer_writer.go:28-51, as WiModel.wi_write_batches; the locations are written while the record says "writing index".
    locationLength and indexBlockCount at the end *)
Fixpoint wi_batches_told (o : os) (shift : Z) (msgs : list wi_msg) (locationLength indexBlockCount : Z) : tio wstate (Z * Z) :=
  _ <== say [Doing Waiting] ;;
  match msgs with
  | [] => give (Ok (locationLength, indexBlockCount))
  | m :: r =>
      if negb (seqb (wm_Type m) tWayIndexData) then wi_batches_told o shift r locationLength indexBlockCount
      else
        match wm_Batch m with
        | None => give (Panic (PanicMsg "interface conversion"))
        | Some (blocks, locations) =>
            _ <== say (SetStateWritingIndex (zlen blocks) ++ [Doing (WritingIndex (wm_Index m) (zlen blocks))]) ;;
            out <== give (wi_rebase blocks locationLength) ;;
            _ <== act (idx_WriteSlice o out) ;;
            _ <== act (loc_Write o locations) ;;
            _ <== give (if shift <? 0 then Panic NegativeShift else Ok tt) ;;
            _ <== say (SetCurrentState iReading) ;;
            wi_batches_told o shift r (s64 (locationLength + Z.shiftr (zlen locations) shift)) (s64 (indexBlockCount + zlen blocks))
        end
  end.
(** wayindexer_writer.go:14-81 [Output] *)
Definition wi_output_told (o : os) (shift : Z) (msgs : list wi_msg) : tio wstate unit :=
  _ <== act (io_call o) ;;
  _ <== act (io_call o) ;;
  _ <== act (idx_WriteSlice o [0; 0]) ;;
  _ <== say (SetCurrentState iReading) ;;
  n <== wi_batches_told o shift msgs 0 0 ;;
  _ <== give (if shift <? 0 then Panic NegativeShift else Ok tt) ;;
  _ <== say (SetStateCopyLocations (u64 (s64 (Z.shiftl (fst n) shift)))) ;;
  _ <== say_copying ;;
  _ <== act (loc_rewind o) ;;
  _ <== io_copy_told o ;;
  _ <== act (io_call o) ;;
  _ <== act (io_call o) ;;
  _ <== say (SetCurrentState iFinalizing ++ [Doing Finalizing]) ;;
  _ <== act (idx_rewind o) ;;
  _ <== act (idx_WriteSlice o [snd n; shift]) ;;
  act (io_call o).

(** ** The percentage *)
(** x * 10 (an integer) times 2^e, rounded to the nearest integer, to the even one if there are two *)
Definition round_tenths (m e : Z) : Z :=
  if 0 <=? e then 10 * m * 2 ^ e
  else
    let d := 2 ^ (- e) in
    let q := 10 * m / d in
    let r := 10 * m mod d in
    if 2 * r <? d then q else if d <? 2 * r then q + 1 else if Z.even q then q else q + 1.
(** fmt's %2.01f (width 2, precision 1), which is strconv.FormatFloat(x, 'f', 1, 64): the exact value correctly rounded; also for the values that are not
    numbers.  Values here have at most 20 digits before the point. *)
Definition percent_text (x : f64) : list Z :=
  match x with
  | B754_nan => bytes_of "NaN"
  | B754_infinity s => bytes_of (if s then "-Inf" else "+Inf")
  | B754_zero s => bytes_of (if s then "-0.0" else "0.0")
  | B754_finite s m e _ =>
      let t := round_tenths (Zpos m) e in
      (if s then bytes_of "-" else []) ++ decimal 20 (t / 10) ++ bytes_of "." ++ decimal 20 (t mod 10)
  end.
(** [100*pct] *)
Definition percent (pct : f64) : f64 := f64_mult (f64_of_Z 100) pct.

(** ** The widgets *)

(** cmd/decompress/decompressor/widget/widget_state_writer.go:26-34, cmd/rewritenodes/rewriter/widget/widget_state_writer.go:26-34 *)
Definition dc_writer_widget : update :=
  Load CState (fun s =>
  if s =? wReading then Show (Text (bytes_of "Writer: waiting for block"))
  else if s =? wWriting then Load CBlock (fun b => Show (Text (bytes_of "Writer: writing block " ++ d_ b)))
  else Show Unchanged).
(** cmd/relindex/relindexerinit/widget/widget_state_writer.go:26-33 *)
Definition ri_writer_widget : update :=
  Load CState (fun s =>
  if s =? wReading then Show (Text (bytes_of "Writer: waiting for block"))
  else if s =? wWriting then Load CBlock (fun b => Show (Text (bytes_of "Writer: writing index block " ++ d_ b)))
  else Show Unchanged).
(** cmd/tagfilter/tagfilterer/widget/widget_state_writer.go:26-33 *)
Definition tf_writer_widget : update :=
  Load CState (fun s =>
  let dropped t := Load CFiller (fun f => Load CBlock (fun b => Show (Text (bytes_of t ++ d_ f ++ bytes_of "/" ++ d_ b ++ bytes_of " blocks")))) in
  if s =? wReading then dropped "Writer: waiting for block, dropped "%string
  else if s =? wWriting then dropped "Writer: writing block, dropped "%string
  else Show Unchanged).
(** cmd/nodeindex/indexer/widget/widget_state_writer.go:27-46, and the same in cmd/wayindex.  The widget is in a view (line 37 would panic otherwise). *)
Definition ix_writer_widget : update :=
  Load CState (fun s =>
  if s =? iReading then Show (Text (bytes_of "Writer: waiting for block"))
  else if s =? iWritingIndex then Load CBlock (fun b => Show (Text (bytes_of "Writer: writing index block " ++ d_ b)))
  else if s =? iWritingLocations then Show (Text (bytes_of "Writer: writing locations"))
  else if s =? iCopyingLocations then
    Load CCopied (fun at_ => Load CTotal (fun max =>
    let pct := fraction at_ max in
    Show (Bar (bytes_of "Writer: copying locations (" ++ d_ at_ ++ bytes_of "/" ++ d_ max ++ bytes_of ") " ++ percent_text (percent pct) ++ bytes_of "%") pct)))
  else if s =? iFinalizing then Show (Text (bytes_of "Writer: finalizing index"))
  else Show Unchanged).
