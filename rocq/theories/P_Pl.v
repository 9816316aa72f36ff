(** * P_Pl: property theorems (generated from PlThms.v by tools/gen_props.py). *)
From Verif Require Import Base PbSpec TModel HLModel FrModel ZlModel TfModel IoModel NiModel RwModel WiModel RiModel PlModel PlSpec PlThms.

(** C36.  After any part of the blocks has arrived, exactly the longest possible start of the
    sequence has been forwarded: all its blocks have arrived and the next one has not. *)
Theorem C36_prompt : forall (B : Type) (idx : B -> Z) blocks arrived coming,
  indexed idx blocks -> Permutation (arrived ++ coming) blocks ->
  exists waiting next m, reorder_some idx arrived = Ok (waiting, next, firstn m blocks) /\
    (forall b, In b (firstn m blocks) -> In b arrived) /\
    (forall b, nth_error blocks m = Some b -> ~ In b arrived).
Proof. exact pC36_prompt. Qed.
Print Assumptions C36_prompt.

(** C36.  Whatever the order in which the blocks arrive, each is forwarded once, in index
    order, and the check at the end passes. *)
Theorem C36_in_order : forall (B : Type) (idx : B -> Z) blocks arrivals,
  indexed idx blocks -> Permutation arrivals blocks -> reorder idx arrivals = Ok blocks.
Proof. exact pC36_in_order. Qed.
Print Assumptions C36_in_order.

(** C36.  If the blocks received have different indexes and one is missing below some block
    received, the check at the end aborts. *)
Theorem C36_missing : forall (B : Type) (idx : B -> Z) arrivals b k,
  NoDup (map idx arrivals) -> (forall b, In b arrivals -> 0 <= idx b < 2^64 - 1) ->
  In b arrivals -> 0 <= k < idx b -> ~ In k (map idx arrivals) ->
  reorder idx arrivals = Panic (PanicMsg "channel closed without all blocks processed").
Proof. exact pC36_missing. Qed.
Print Assumptions C36_missing.

Example C36_ex :
  let blocks := [(0, 10); (1, 11); (2, 12)] in
  indexed fst blocks /\ Permutation [(2, 12); (0, 10); (1, 11)] blocks /\
  reorder fst [(2, 12); (0, 10); (1, 11)] = Ok blocks /\
  reorder fst [(2, 12); (0, 10)] = Panic (PanicMsg "channel closed without all blocks processed").
Proof. exact pC36_ex. Qed.

(** C37.  In every state that any schedule of any number of workers can reach, what the
    writer has received is the sequential result of the first blocks of the file. *)
Theorem C37_prefix : forall (A B : Type) (c : cfg A B) (idx : A -> Z) inp workers s,
  c_writer c = true -> indexed idx inp -> keeps_index c idx inp -> reachable c inp workers s ->
  exists m, mapm (c_work c) (firstn m inp) = Ok (s_got s).
Proof. exact pC37_prefix. Qed.
Print Assumptions C37_prefix.

(** C37.  When the run completes without having been cancelled, the writer has received the
    sequential result of the whole file. *)
Theorem C37_complete : forall (A B : Type) (c : cfg A B) (idx : A -> Z) inp workers s,
  c_writer c = true -> indexed idx inp -> keeps_index c idx inp -> reachable c inp workers s ->
  completed s -> s_cancelled s = false -> mapm (c_work c) inp = Ok (s_got s).
Proof. exact pC37_complete. Qed.
Print Assumptions C37_complete.

(** C37.  The reorderer never aborts; a run aborts only where sequential processing would:
    reading, working or writing panics. *)
Theorem C37_no_abort : forall (A B : Type) (c : cfg A B) (idx : A -> Z) inp workers s,
  indexed idx inp -> keeps_index c idx inp -> reachable c inp workers s ->
  match s_crash s with
  | None => True
  | Some CrashRead => c_read_panics c = true
  | Some CrashWork => exists a p, In a inp /\ c_work c a = Panic p
  | Some CrashReorder => False
  | Some CrashWrite => c_write_panics c (s_got s) = true
  end.
Proof. exact pC37_no_abort. Qed.
Print Assumptions C37_no_abort.

(** C38.  There is no infinite run: from the start, every schedule has at most this many
    steps, cancelled or not. *)
Theorem C38_bounded : forall (A B : Type) (c : cfg A B) inp workers k s,
  steps c k (pl_init c inp workers) s -> (k <= 8 * List.length inp + workers + 8)%nat.
Proof. exact pC38_bounded. Qed.
Print Assumptions C38_bounded.

(** C38.  In every state that can come up, with at least one worker, either the run has ended
    or some goroutine can move. *)
Theorem C38_progress : forall (A B : Type) (c : cfg A B) (idx : A -> Z) inp workers s,
  (c_writer c = true -> indexed idx inp /\ keeps_index c idx inp) -> (forall a, In a inp -> c_work c a <> Diverge) -> (1 <= workers)%nat ->
  reachable c inp workers s -> ended s \/ can_move c s.
Proof. exact pC38_progress. Qed.
Print Assumptions C38_progress.

(** C38.  If nothing panics by itself, a run that cannot go on has completed ... *)
Theorem C38_maximal : forall (A B : Type) (c : cfg A B) (idx : A -> Z) inp workers s,
  (c_writer c = true -> indexed idx inp /\ keeps_index c idx inp) -> no_panics c inp -> (1 <= workers)%nat ->
  reachable c inp workers s -> ~ can_move c s -> completed s.
Proof. exact pC38_maximal. Qed.
Print Assumptions C38_maximal.

(** C38.  ... and from every state that can come up, cancelled or not, completion is reached
    by letting the goroutines go on. *)
Theorem C38_completes : forall (A B : Type) (c : cfg A B) (idx : A -> Z) inp workers s,
  (c_writer c = true -> indexed idx inp /\ keeps_index c idx inp) -> no_panics c inp -> (1 <= workers)%nat ->
  reachable c inp workers s ->
  exists k s', steps c k s s' /\ completed s' /\ s_cancelled s' = s_cancelled s.
Proof. exact pC38_completes. Qed.
Print Assumptions C38_completes.

(** C38.  With no worker at all the first block is never received: the run is stuck. *)
Theorem C38_no_workers : forall (A B : Type) (c : cfg A B) a inp,
  ~ ended (pl_init c (a :: inp) 0) /\ ~ can_move c (pl_init c (a :: inp) 0).
Proof. exact pC38_no_workers. Qed.
Print Assumptions C38_no_workers.

(** C39.  Whenever and however often the run was cancelled: at completion the writer has
    received, in order, the results of exactly the blocks handed to the workers, and these are
    the first blocks of the file. *)
Theorem C39_prefix : forall (A B : Type) (c : cfg A B) (idx : A -> Z) inp workers s,
  c_writer c = true -> indexed idx inp -> keeps_index c idx inp -> reachable c inp workers s -> completed s ->
  exists m, mapm (c_work c) (firstn m inp) = Ok (s_got s) /\ s_todo s = skipn m inp.
Proof. exact pC39_prefix. Qed.
Print Assumptions C39_prefix.

(** C39.  Once cancelled, the run still completes, whatever the state: by every schedule that
    goes on as long as it can (see C38_maximal; C38_bounded), and there is one. *)
Theorem C39_shutdown : forall (A B : Type) (c : cfg A B) (idx : A -> Z) inp workers s,
  c_writer c = true -> indexed idx inp -> keeps_index c idx inp -> no_panics c inp -> (1 <= workers)%nat ->
  reachable c inp workers s -> s_cancelled s = true ->
  (exists k s', steps c k s s' /\ completed s') /\
  (forall k s', steps c k s s' -> (forall s2, ~ step c s' s2) -> completed s') /\
  (forall k s', steps c k s s' -> (k <= 8 * List.length inp + workers + 8)%nat).
Proof. exact pC39_shutdown. Qed.
Print Assumptions C39_shutdown.

(** C40.  Without a writer, when the run completes without having been cancelled, every block
    has been handled exactly once, by one worker. *)
Theorem C40_once : forall (A B : Type) (c : cfg A B) inp workers s,
  c_writer c = false -> reachable c inp workers s -> completed s -> s_cancelled s = false ->
  Permutation (flat_map w_mine (s_workers s)) inp.
Proof. exact pC40_once. Qed.
Print Assumptions C40_once.

(** C40.  At every moment, cancelled or not, no block has been handled twice and none that is not
    in the file; those handled or being handled are the first ones of the file. *)
Theorem C40_always : forall (A B : Type) (c : cfg A B) inp workers s,
  c_writer c = false -> reachable c inp workers s ->
  exists m, Permutation (flat_map w_mine (s_workers s) ++ flat_map (fun w => match w_pos w with WBusy a => [a] | _ => [] end) (s_workers s)) (firstn m inp).
Proof. exact pC40_always. Qed.
Print Assumptions C40_always.

(** The second block can overtake the first; the writer has then received nothing. *)
Example C37_ex :
  indexed fst pl_ex_in /\ keeps_index (pl_ex true) fst pl_ex_in /\ no_panics (pl_ex true) pl_ex_in /\
  (exists s, reachable (pl_ex true) pl_ex_in 2 s /\ s_rb s = [(1, 60)] /\ s_got s = []) /\
  (exists s, reachable (pl_ex true) pl_ex_in 2 s /\ completed s /\ s_cancelled s = false /\ s_got s = [(0, 50); (1, 60); (2, 70)]).
Proof. exact pC37_ex. Qed.

(** Without a writer: the same file is handled, one block each by ... some worker. *)
Example C40_ex : exists s, reachable (pl_ex false) pl_ex_in 2 s /\ completed s /\ s_cancelled s = false.
Proof. exact pC40_ex. Qed.

(** A cancelled run: one block of three was sent. *)
Example C39_ex : exists s, reachable (pl_ex true) pl_ex_in 1 s /\ completed s /\ s_cancelled s = true /\ s_got s = [(0, 50)] /\ s_todo s = [(1, 6); (2, 7)].
Proof. exact pC39_ex. Qed.

(** C37.  The blocks of every file have the indexes 0, 1, 2, ... *)
Theorem C37_file_indexed : forall file bs, bytes file -> zlen file < 2^63 -> read_file file = Ok bs -> indexed blk_Index bs.
Proof. exact pC37_file_indexed. Qed.
Print Assumptions C37_file_indexed.

(** C37.  In every tool the worker keeps the index. *)
Theorem C37_keeps : forall (envs : Z -> zenv) ix fin shift wpb wpn wpw wpr wpd rp bs,
  keeps_index (rw_cfg envs ix fin wpb rp) blk_Index bs /\ keeps_index (ni_cfg envs wpn rp) blk_Index bs /\
  keeps_index (wi_cfg shift envs wpw rp) blk_Index bs /\ keeps_index (ri_cfg envs wpr rp) blk_Index bs /\
  keeps_index (tf_cfg envs wpb rp) blk_Index bs /\ keeps_index (dc_cfg envs wpd rp) blk_Index bs.
Proof. exact pC37_keeps. Qed.
Print Assumptions C37_keeps.

(** C37.  So for each tool, whatever the schedule and the number of workers, an uncancelled
    completed run over a file has the effect of the sequential functions about which the other
    properties are stated. *)
Theorem C37_tools : forall envs file bs workers wpb wpn wpw wpr wpd rp,
  bytes file -> zlen file < 2^63 -> read_file file = Ok bs ->
  (forall ix fin s, reachable (rw_cfg envs ix fin wpb rp) bs workers s -> completed s -> s_cancelled s = false ->
     rw_pass envs ix fin file = (m <- MMapMap file ;; rewriter_writer (s_got s) [])) /\
  (forall o s, reachable (ni_cfg envs wpn rp) bs workers s -> completed s -> s_cancelled s = false ->
     ni_index o (with_env envs bs) = ni_output o (s_got s) w0) /\
  (forall o shift s, reachable (wi_cfg shift envs wpw rp) bs workers s -> completed s -> s_cancelled s = false ->
     wi_index o shift (with_env envs bs) = wi_output o shift (s_got s) w0) /\
  (forall s, reachable (ri_cfg envs wpr rp) bs workers s -> completed s -> s_cancelled s = false ->
     ri_init (with_env envs bs) = ri_write (s_got s) []) /\
  (forall s, reachable (tf_cfg envs wpb rp) bs workers s -> completed s -> s_cancelled s = false ->
     tf_worker (with_env envs bs) = Ok (s_got s)) /\
  (forall s, reachable (dc_cfg envs wpd rp) bs workers s -> completed s -> s_cancelled s = false ->
     decompress envs file = Ok (concat (map snd (s_got s)))).
Proof. exact pC37_tools. Qed.
Print Assumptions C37_tools.
