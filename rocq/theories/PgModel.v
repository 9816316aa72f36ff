(** * PgModel: the progress of a run as the user interface shows it: the record that the goroutine reading the file keeps
    (internal/pbf/process.go), read at the same time by the widgets (internal/ui/widget), and the progress bars drawn from it. *)
From Flocq Require Import BinarySingleNaN.
From Verif Require Import Base TModel HLModel FrModel TrModel TmModel.

(** internal/pbf/process.go:22-28 [ProcessFileState]: currentState, at and max. *)
Record pfs : Type := mkPfs { p_state : Z; p_at : Z; p_max : Z }.
(** process.go:30-35 *)
Definition Initializing : Z := 0.
Definition LoadingBlock : Z := 1.
Definition SendingBlock : Z := 2.
Definition ShuttingDown : Z := 3.

(** Where the goroutine is in processFileWork: before the store to at (line 98), before the store to max (99), at the loop's
    condition (105), before lines 107-108, before 110-111, before 113-123, at the select (125), before 136, after it. *)
Inductive ppc : Type := PStart | PMax | PLoop | PLoading | PHeader (blobHeaderSize : Z) | PType (bh : BlobHeader) | PSend (dataSize : Z) | PDown | PEnd.

(** process.go:98-137: one step, which is at most one store to the record.  [cancelled] is which case of the select (125-129) is taken.  The
    third component counts the blocks sent. *)
Definition pstep (file : list Z) (cancelled : bool) (s : ppc * pfs * Z) : res (ppc * pfs * Z) :=
  let '(pc, p, sent) := s in
  let inputBuffer := exact file in
  let set_state st pc := Ok (pc, mkPfs st (p_at p) (p_max p), sent) in
  let add_at n pc sent := Ok (pc, mkPfs (p_state p) (u64 (p_at p + n)) (p_max p), sent) in
  match pc with
  | PStart => Ok (PMax, mkPfs (p_state p) 0 (p_max p), sent)
  | PMax => Ok (PLoop, mkPfs (p_state p) (p_at p) (zlen file), sent)
  | PLoop => if p_at p <? p_max p then set_state LoadingBlock PLoading else Ok (PDown, p, sent)
  | PLoading =>
      h <- sslice inputBuffer (p_at p) (zlen file) ;;
      blobHeaderSize <- be32_get (vis h) ;;
      add_at 4 (PHeader blobHeaderSize) sent
  | PHeader blobHeaderSize =>
      hb <- sslice inputBuffer (p_at p) (u64 (p_at p + blobHeaderSize)) ;;
      bh <- ReadBlobHeader hb ;;
      add_at blobHeaderSize (PType bh) sent
  | PType bh =>
      if negb (seqb (bh_Type bh) tOSMHeader) && negb (seqb (bh_Type bh) tOSMData) then Panic (PanicMsg "bh.Type")
      else
        _ <- sslice inputBuffer (p_at p) (u64 (p_at p + u64 (bh_DataSize bh))) ;;
        set_state SendingBlock (PSend (u64 (bh_DataSize bh)))
  | PSend dataSize => if cancelled then Ok (PDown, p, sent) else add_at dataSize PLoop (sent + 1)
  | PDown => set_state ShuttingDown PEnd
  | PEnd => Ok (PEnd, p, sent)
  end.

(** The record (and the number of blocks sent) at the start and after each of these steps, up to a panic. *)
Fixpoint prun (file : list Z) (choices : list bool) (s : ppc * pfs * Z) : list (ppc * pfs * Z) :=
  s :: match choices with
       | [] => []
       | c :: r => match pstep file c s with Ok s' => prun file r s' | _ => [] end
       end.
(** process.go:154-168 [ProcessFileAsync]: the record is made with the state Initializing. *)
Definition file_run (file : list Z) (choices : list bool) : list (ppc * pfs * Z) := prun file choices (PStart, mkPfs Initializing 0 0, 0).

(** ** the progress bars *)
Definition f64_mult (x y : f64) : f64 := @Bmult 53 1024 f64_prec f64_emax mode_NE x y.
Definition f64_plus (x y : f64) : f64 := @Bplus 53 1024 f64_prec f64_emax mode_NE x y.
(** Go's conversion of a float64 to int on amd64: towards zero; what does not fit, or is not a number, gives the least int. *)
Definition f64_int (x : f64) : Z :=
  if is_finite x && (- 2^63 <=? Btrunc x) && (Btrunc x <? 2^63) then Btrunc x else - 2^63.

(** internal/ui/format.go:12-16, 22: how many characters of a line of width [w] are highlighted. *)
Definition clamp01 (pct : f64) : f64 :=
  if f64_gt (f64_of_Z 0) pct then f64_of_Z 0 else if f64_gt pct (f64_of_Z 1) then f64_of_Z 1 else pct.
Definition bar (w : Z) (pct : f64) : Z := f64_int (f64_mult (f64_of_Z w) (clamp01 pct)).
(** format.go:7-29 [MarkupAsProgress], with its floating point part. *)
Definition MarkupAsProgressF (s : list Z) (w : Z) (pct : f64) : res (list Z) := MarkupAsProgress s w (bar w pct).

(** internal/ui/widget/widget_process_state.go:37, cmd/rewritenodes/rewriter/widget/widget_state_worker.go:44,
    cmd/nodeindex/indexer/widget/widget_state_writer.go:38: the fraction done. *)
Definition fraction (at_ max : Z) : f64 := f64_div (f64_of_Z at_) (f64_of_Z max).
(** internal/ui/widget/widget_pass_progress.go:34-43 [PassProgress.update]: the fraction done of all passes. *)
Definition pass_fraction (pass count at_ max : Z) : f64 :=
  let pfsPct := clamp01 (fraction at_ max) in
  let pct := f64_div (f64_of_Z pass) (f64_of_Z count) in
  if is_nan pfsPct then pct else f64_plus pct (f64_div pfsPct (f64_of_Z count)).
