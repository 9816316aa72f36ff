(** * PlModel: the parallel pipeline (internal/pbf/process.go, internal/pbf/reorder.go). *)
From Verif Require Import Base.

(** ** internal/pbf/reorder.go *)
Section Reorder.
  Context {B : Type} (idx : B -> Z).
  (** reorder.go:7 [reorderBuffer]: a map from Index to block, as a list with distinct indexes *)
  (** delete(rb, k) *)
  Definition rb_delete (rb : list B) (k : Z) : list B := filter (fun b => negb (idx b =? k)) rb.
  (** rb[b.Index] = b *)
  Definition rb_put (rb : list B) (b : B) : list B := b :: rb_delete rb (idx b).
  (** reorder.go:9-15 [pop]: the block if there is one, and the map afterwards *)
  Definition rb_pop (rb : list B) (k : Z) : option B * list B :=
    match find (fun b => idx b =? k) rb with
    | Some b => (Some b, rb_delete rb k)
    | None => (None, rb)
    end.
  (** reorder.go:22-25: the blocks that can be sent, sent; [next] is a uint64.  Every round
      takes a block out of the map. *)
  Fixpoint rb_flush (fuel : nat) (rb : list B) (next : Z) : res (list B * Z * list B) :=
    match rb_pop rb next with
    | (None, rb) => Ok (rb, next, [])
    | (Some b, rb) =>
        match fuel with
        | O => Diverge
        | S fuel => '(rb, next, out) <- rb_flush fuel rb (u64 (next + 1)) ;; Ok (rb, next, b :: out)
        end
    end.
  (** reorder.go:20-26: one block received; state: the map, next, the blocks sent *)
  Definition reorder_one (s : list B * Z * list B) (b : B) : res (list B * Z * list B) :=
    let '(rb, next, sent) := s in
    let rb := rb_put rb b in
    '(rb, next, out) <- rb_flush (List.length rb) rb next ;;
    Ok (rb, next, sent ++ out).
  (** reorder.go:17-26: the blocks received so far *)
  Definition reorder_some (arrivals : list B) : res (list B * Z * list B) := foldm reorder_one arrivals ([], 0, []).
  (** reorder.go:17-31 [reorder]: all blocks received and the channel closed; the blocks sent *)
  Definition reorder (arrivals : list B) : res (list B) :=
    '(rb, _, sent) <- reorder_some arrivals ;;
    if zlen rb =? 0 then Ok sent else Panic (PanicMsg "channel closed without all blocks processed").
End Reorder.

(** ** internal/pbf/process.go

    A transition system: one step is one action of one goroutine, or a send on an
    unbuffered channel together with the receive that takes it (neither happens without the
    other).  The steps of a worker function between two channel operations are one step; so are those of
    the writer function. *)

(** What the goroutines do.  [c_work]: what a worker makes of a block (a panic ends the
    process).  [c_index]: the Index of what it sends.  [c_writer]: is there a writer?
    [c_write_panics]: does the writer panic on the last of these blocks?  [c_read_panics]:
    does reading the file panic after the last block? *)
Record cfg (A B : Type) : Type := mkCfg
  { c_work : A -> res B; c_index : B -> Z; c_writer : bool; c_write_panics : list B -> bool; c_read_panics : bool }.
Arguments mkCfg {A B}. Arguments c_work {A B}. Arguments c_index {A B}. Arguments c_writer {A B}.
Arguments c_write_panics {A B}. Arguments c_read_panics {A B}.

(** Where processFileWork is: in the loop (107-135); after close(chInputBlobs), waiting for the
    workers (139-140); after close(chReorderBlobs) (142-143); after
    close(chOutputBlobs) (146-147); after close(pfs.done) (151). *)
Inductive phase : Type := PRead | PWaitWorkers | PWaitReorder | PWaitWriter | PDone.
(** A worker: waiting to receive; computing; sending its result; returned. *)
Inductive wpos (A B : Type) : Type := WRecv | WBusy (a : A) | WSend (b : B) | WDone.
Arguments WRecv {A B}. Arguments WBusy {A B}. Arguments WSend {A B}. Arguments WDone {A B}.
(** [w_mine]: the blocks it has finished, in order *)
Record worker (A B : Type) : Type := mkWk { w_pos : wpos A B; w_mine : list A }.
Arguments mkWk {A B}. Arguments w_pos {A B}. Arguments w_mine {A B}.
(** The reorderer: waiting to receive; looking for the next block; sending it; returned. *)
Inductive rpos (B : Type) : Type := ORecv | OFlush | OSend (b : B) | ODone.
Arguments ORecv {B}. Arguments OFlush {B}. Arguments OSend {B}. Arguments ODone {B}.
(** The writer: waiting to receive; writing; returned. *)
Inductive vpos : Type := VRecv | VBusy | VDone.
Inductive crash : Type := CrashRead | CrashWork | CrashReorder | CrashWrite.

Record st (A B : Type) : Type := mkSt
  { s_cancelled : bool;          (* the context *)
    s_phase : phase;
    s_todo : list A;             (* the blocks not sent yet *)
    s_workers : list (worker A B);
    s_ro : rpos B; s_rb : list B; s_next : Z;   (* the reorderer, its map and next *)
    s_wr : vpos; s_got : list B; (* the writer and all it received *)
    s_crash : option crash }.    (* a goroutine panicked *)
Arguments mkSt {A B}. Arguments s_cancelled {A B}. Arguments s_phase {A B}. Arguments s_todo {A B}.
Arguments s_workers {A B}. Arguments s_ro {A B}. Arguments s_rb {A B}. Arguments s_next {A B}.
Arguments s_wr {A B}. Arguments s_got {A B}. Arguments s_crash {A B}.

(** process.go:71-105: all goroutines started (without a writer there is no reorderer) *)
Definition pl_init {A B} (c : cfg A B) (inp : list A) (workers : nat) : st A B :=
  mkSt false PRead inp (repeat (mkWk WRecv []) workers)
       (if c_writer c then ORecv else ODone) [] 0 (if c_writer c then VRecv else VDone) [] None.

Inductive step {A B} (c : cfg A B) : st A B -> st A B -> Prop :=
(** the context is cancelled by the user interface, at any time *)
| step_cancel : forall ph td ws ro rb nx wr gt,
    step c (mkSt false ph td ws ro rb nx wr gt None) (mkSt true ph td ws ro rb nx wr gt None)
(** process.go:107: the end of the file *)
| step_read_end : forall cn ws ro rb nx wr gt, c_read_panics c = false ->
    step c (mkSt cn PRead [] ws ro rb nx wr gt None) (mkSt cn PWaitWorkers [] ws ro rb nx wr gt None)
(** process.go:109-117: what is left of the file cannot be read *)
| step_read_panic : forall cn ws ro rb nx wr gt, c_read_panics c = true ->
    step c (mkSt cn PRead [] ws ro rb nx wr gt None) (mkSt cn PRead [] ws ro rb nx wr gt (Some CrashRead))
(** process.go:128-129: the select statement, <-ctx.Done() *)
| step_read_cancelled : forall a td ws ro rb nx wr gt,
    step c (mkSt true PRead (a :: td) ws ro rb nx wr gt None) (mkSt true PWaitWorkers (a :: td) ws ro rb nx wr gt None)
(** process.go:130: the select statement, chInputBlobs <- obh; some worker receives it *)
| step_send : forall cn a td l m r ro rb nx wr gt,
    step c (mkSt cn PRead (a :: td) (l ++ mkWk WRecv m :: r) ro rb nx wr gt None)
           (mkSt cn PRead td (l ++ mkWk (WBusy a) m :: r) ro rb nx wr gt None)
(** a worker makes its result; without a writer the next thing it does is receive *)
| step_work : forall cn ph td l m r ro rb nx wr gt a b, c_work c a = Ok b ->
    step c (mkSt cn ph td (l ++ mkWk (WBusy a) m :: r) ro rb nx wr gt None)
           (mkSt cn ph td (l ++ mkWk (if c_writer c then WSend b else WRecv) (m ++ [a]) :: r) ro rb nx wr gt None)
| step_work_panic : forall cn ph td l m r ro rb nx wr gt a p, c_work c a = Panic p ->
    step c (mkSt cn ph td (l ++ mkWk (WBusy a) m :: r) ro rb nx wr gt None)
           (mkSt cn ph td (l ++ mkWk (WBusy a) m :: r) ro rb nx wr gt (Some CrashWork))
(** the range loop of a worker ends: chInputBlobs is closed and (unbuffered) empty *)
| step_work_end : forall cn ph td l m r ro rb nx wr gt, ph <> PRead ->
    step c (mkSt cn ph td (l ++ mkWk WRecv m :: r) ro rb nx wr gt None)
           (mkSt cn ph td (l ++ mkWk WDone m :: r) ro rb nx wr gt None)
(** a worker sends its result; the reorderer puts it into the map (reorder.go:20-21) *)
| step_arrive : forall cn ph td l m r rb nx wr gt b,
    step c (mkSt cn ph td (l ++ mkWk (WSend b) m :: r) ORecv rb nx wr gt None)
           (mkSt cn ph td (l ++ mkWk WRecv m :: r) OFlush (rb_put (c_index c) rb b) nx wr gt None)
(** reorder.go:22-23 *)
| step_pop : forall cn ph td ws rb nx wr gt b rb', rb_pop (c_index c) rb nx = (Some b, rb') ->
    step c (mkSt cn ph td ws OFlush rb nx wr gt None) (mkSt cn ph td ws (OSend b) rb' (u64 (nx + 1)) wr gt None)
| step_flushed : forall cn ph td ws rb nx wr gt rb', rb_pop (c_index c) rb nx = (None, rb') ->
    step c (mkSt cn ph td ws OFlush rb nx wr gt None) (mkSt cn ph td ws ORecv rb' nx wr gt None)
(** reorder.go:24: the writer receives a block *)
| step_deliver : forall cn ph td ws b rb nx gt,
    step c (mkSt cn ph td ws (OSend b) rb nx VRecv gt None) (mkSt cn ph td ws OFlush rb nx VBusy (gt ++ [b]) None)
| step_write : forall cn ph td ws ro rb nx gt, c_write_panics c gt = false ->
    step c (mkSt cn ph td ws ro rb nx VBusy gt None) (mkSt cn ph td ws ro rb nx VRecv gt None)
| step_write_panic : forall cn ph td ws ro rb nx gt, c_write_panics c gt = true ->
    step c (mkSt cn ph td ws ro rb nx VBusy gt None) (mkSt cn ph td ws ro rb nx VBusy gt (Some CrashWrite))
(** process.go:140-142: wgWorker.Wait() returns; close(chReorderBlobs), if there is one *)
| step_workers_done : forall cn td ws ro rb nx wr gt, Forall (fun w => w_pos w = WDone) ws ->
    step c (mkSt cn PWaitWorkers td ws ro rb nx wr gt None)
           (mkSt cn (if c_writer c then PWaitReorder else PDone) td ws ro rb nx wr gt None)
(** reorder.go:27-31: chReorderBlobs is closed *)
| step_reorder_end : forall cn td ws nx wr gt,
    step c (mkSt cn PWaitReorder td ws ORecv [] nx wr gt None) (mkSt cn PWaitReorder td ws ODone [] nx wr gt None)
| step_reorder_panic : forall cn td ws b rb nx wr gt,
    step c (mkSt cn PWaitReorder td ws ORecv (b :: rb) nx wr gt None)
           (mkSt cn PWaitReorder td ws ORecv (b :: rb) nx wr gt (Some CrashReorder))
(** process.go:143-146: wgReorder.Wait() returns; close(chOutputBlobs) *)
| step_reorder_done : forall cn td ws rb nx wr gt,
    step c (mkSt cn PWaitReorder td ws ODone rb nx wr gt None) (mkSt cn PWaitWriter td ws ODone rb nx wr gt None)
(** the range loop of the writer ends and it returns *)
| step_write_end : forall cn td ws ro rb nx gt,
    step c (mkSt cn PWaitWriter td ws ro rb nx VRecv gt None) (mkSt cn PWaitWriter td ws ro rb nx VDone gt None)
(** process.go:147-151: wgWriter.Wait() returns; close(pfs.done) *)
| step_writer_done : forall cn td ws ro rb nx gt,
    step c (mkSt cn PWaitWriter td ws ro rb nx VDone gt None) (mkSt cn PDone td ws ro rb nx VDone gt None).

(** The states that can come up. *)
Inductive reachable {A B} (c : cfg A B) (inp : list A) (workers : nat) : st A B -> Prop :=
| reach_init : reachable c inp workers (pl_init c inp workers)
| reach_step : forall s s', reachable c inp workers s -> step c s s' -> reachable c inp workers s'.
