(** * TrModel: the worker tracker and its display (internal/tracker), and the progress
    markup (internal/ui/format.go). *)
From Verif Require Import Base.

(** ** internal/tracker/worker_tracker.go

    A worker state is an interface value holding a pointer; it is represented by a number,
    compared as the pointers are. *)

(** worker_tracker.go:21: append *)
Definition tr_track (ws : list Z) (w : Z) : list Z := ws ++ [w].
(** [copy(ws[i:], ws[i+1:])]: the elements after [i] move one down, the last one stays *)
Definition copy_down (ws : list Z) (i : nat) : list Z :=
  firstn i ws ++ skipn (S i) ws ++ skipn (List.length ws - 1) ws.
(** worker_tracker.go:28-35: the loop; [i] is idx and [rest] what of the slice is left to
    look at.  The nil assigned to the last element (line 31) is cut off by the next line and
    is not represented. *)
Fixpoint tr_untrack_from (ws : list Z) (i : nat) (rest : list Z) (w : Z) : list Z :=
  match rest with
  | [] => ws
  | other :: rest =>
      if other =? w then firstn (List.length ws - 1) (copy_down ws i)
      else tr_untrack_from ws (S i) rest w
  end.
Definition tr_untrack (ws : list Z) (w : Z) : list Z := tr_untrack_from ws 0 ws w.
(** worker_tracker.go:40-48 *)
Definition WorkerStates (ws : list Z) : list Z := fold_left (fun states worker => states ++ [worker]) ws [].

(** A call; it changes the list while it holds the lock, and increments the version after
    it has released it. *)
Inductive call : Type := Track (w : Z) | Untrack (w : Z).
Definition tr_update (ws : list Z) (c : call) : list Z :=
  match c with Track w => tr_track ws w | Untrack w => tr_untrack ws w end.

(** ** internal/tracker/widget_workers.go *)

(** A widget: a new one is different from all earlier ones, and knows the state it was made
    for (widget_workers.go:50). *)
Record widget : Type := mkWidget { wg_id : Z; wg_state : Z }.
Definition wg_eqb (a b : widget) : bool := (wg_id a =? wg_id b) && (wg_state a =? wg_state b).
(** widget_workers.go:16-23; [d_made] counts the widgets made, [d_box] is what the box shows *)
Record display : Type := mkDisplay { d_last : Z; d_states : list (Z * widget); d_box : list widget; d_made : Z }.
Definition display0 : display := mkDisplay 0 [] [] 0.
(** the map [states] *)
Definition lookup (k : Z) (m : list (Z * widget)) : option widget :=
  option_map snd (find (fun p => fst p =? k) m).
Definition map_set (m : list (Z * widget)) (k : Z) (x : widget) : list (Z * widget) :=
  filter (fun p => negb (fst p =? k)) m ++ [(k, x)].
(** widget_workers.go:40-42: all old widgets are removed from the box (in the order of the map's
    iteration, which does not matter) *)
Definition remove_old (box : list widget) (old : list (Z * widget)) : list widget :=
  fold_left (fun box p => filter (fun x => negb (wg_eqb x (snd p))) box) old box.
(** widget_workers.go:45-53 *)
Definition add_worker (old : list (Z * widget)) (a : list (Z * widget) * list widget * Z) (w : Z) :=
  let '(new, box, made) := a in
  match lookup w old with
  | Some x => (map_set new w x, box ++ [x], made)
  | None => let x := mkWidget made w in (map_set new w x, box ++ [x], made + 1)
  end.
(** widget_workers.go:39-56: the part of RefreshStates after the version was found different;
    [ws] is what WorkerStates returns *)
Definition rebuild (d : display) (ws : list Z) : display :=
  let '(new, box, made) := fold_left (add_worker (d_states d)) ws ([], remove_old (d_box d) (d_states d), d_made d) in
  mkDisplay (d_last d) new box made.

(** ** Everything together

    Goroutines that still have some calls to make; [true]: the current call has released the lock
    but not yet incremented the version.  The display's goroutine is idle, or has seen a new
    version and not yet read the list.  [t_log]: the calls that have changed the list, in
    order (not in the program; for the statements). *)
Record tsys : Type := mkTsys
  { t_version : Z; t_workers : list Z; t_threads : list (list call * bool);
    t_display : display; t_reading : bool; t_log : list call }.
Definition tsys0 (progs : list (list call)) : tsys :=
  mkTsys 0 [] (map (fun p => (p, false)) progs) display0 false [].
Inductive tstep : tsys -> tsys -> Prop :=
(** worker_tracker.go:20-22 and 27-36 *)
| t_update : forall v ws l c cs r d b log,
    tstep (mkTsys v ws (l ++ (c :: cs, false) :: r) d b log)
          (mkTsys v (tr_update ws c) (l ++ (cs, true) :: r) d b (log ++ [c]))
(** worker_tracker.go:23 and 37 *)
| t_bump : forall v ws l cs r d b log,
    tstep (mkTsys v ws (l ++ (cs, true) :: r) d b log)
          (mkTsys (u64 (v + 1)) ws (l ++ (cs, false) :: r) d b log)
(** widget_workers.go:34-35 *)
| t_same : forall v ws ths d log, d_last d = v ->
    tstep (mkTsys v ws ths d false log) (mkTsys v ws ths d false log)
(** widget_workers.go:34-38 *)
| t_new : forall v ws ths d log, d_last d <> v ->
    tstep (mkTsys v ws ths d false log)
          (mkTsys v ws ths (mkDisplay v (d_states d) (d_box d) (d_made d)) true log)
(** widget_workers.go:39-56 *)
| t_rebuild : forall v ws ths d log,
    tstep (mkTsys v ws ths d true log) (mkTsys v ws ths (rebuild d (WorkerStates ws)) false log).
Inductive treach (progs : list (list call)) : tsys -> Prop :=
| treach_0 : treach progs (tsys0 progs)
| treach_S : forall s s', treach progs s -> tstep s s' -> treach progs s'.
(** One whole refresh during which no goroutine makes a call. *)
Definition refresh (s : tsys) : tsys :=
  if d_last (t_display s) =? t_version s then s
  else mkTsys (t_version s) (t_workers s) (t_threads s)
         (rebuild (mkDisplay (t_version s) (d_states (t_display s)) (d_box (t_display s)) (d_made (t_display s)))
            (WorkerStates (t_workers s))) false (t_log s).

(** ** internal/ui/format.go *)

(** format.go:31-33: strings.Replace(s, "%", "%%", -1) *)
Definition EscapePercent (s : list Z) : list Z := flat_map (fun c => if c =? 37 then [37; 37] else [c]) s.
(** format.go:7-29.  [pre] is int(float64(w) * pct) for the pct cut down to 0..1; the
    floating point computation is not modelled: [pre] is any number.  83 and 78 are S and
    N, 32 is the space. *)
Definition MarkupAsProgress (s : list Z) (w : Z) (pre : Z) : res (list Z) :=
  if w =? 0 then Ok s
  else
    let pad := w - zlen s in
    let s := if 0 <? pad then s ++ repeat 32 (Z.to_nat pad) else s in
    if pre <? 0 then Ok s
    else if zlen s <=? pre then Ok s
    else Ok ([37; 83] ++ EscapePercent (firstn (Z.to_nat pre) s) ++ [37; 78] ++ EscapePercent (skipn (Z.to_nat pre) s)).
