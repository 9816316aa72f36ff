(** * P_Tr: property theorems (generated from TrThms.v by tools/gen_props.py). *)
From Verif Require Import Base TrModel TrSpec TrThms.

(** C73.  At every moment of every interleaving of goroutines whose calls track no worker twice,
    the listed workers are exactly those tracked and not untracked since, in the order of
    tracking. *)
Theorem C73_listed : forall progs s,
  treach progs s -> NoDup (flat_map tracked progs) ->
  those (live (t_log s)) (tracked (t_log s)) (WorkerStates (t_workers s)).
Proof. exact pC73_listed. Qed.
Print Assumptions C73_listed.

(** C73.  The version is the number of calls that have finished, modulo 2^64. *)
Theorem C73_version : forall progs s, treach progs s -> t_version s = calls_done s mod 2^64.
Proof. exact pC73_version. Qed.
Print Assumptions C73_version.

(** C73.  The tools' workers track themselves when they start and untrack themselves when they
    return: when all have returned nothing is listed any more. *)
Theorem C73_all_gone : forall ws s,
  NoDup ws -> treach (map (fun w => [Track w; Untrack w]) ws) s -> quiet s -> WorkerStates (t_workers s) = [].
Proof. exact pC73_all_gone. Qed.
Print Assumptions C73_all_gone.

(** C74.  What is shown is at every moment the list after some beginning of the history of calls,
    and this beginning includes at least all calls that had finished when the last refresh
    looked at the version (which is their number).  Fewer than 2^64 calls are made. *)
Theorem C74_fresh : forall progs s,
  treach progs s -> NoDup (flat_map tracked progs) -> zlen (concat progs) < 2^64 -> t_reading s = false ->
  exists before after, t_log s = before ++ after /\ d_last (t_display s) <= zlen before /\
    those (live before) (tracked before) (shown (t_display s)).
Proof. exact pC74_fresh. Qed.
Print Assumptions C74_fresh.

(** C74.  When all calls have finished, one refresh shows exactly the listed workers, whatever
    happened before. *)
Theorem C74_current : forall progs s,
  treach progs s -> NoDup (flat_map tracked progs) -> zlen (concat progs) < 2^64 ->
  quiet s -> t_reading s = false ->
  treach progs (refresh s) /\ shown (t_display (refresh s)) = WorkerStates (t_workers s).
Proof. exact pC74_current. Qed.
Print Assumptions C74_current.

(** C74.  A refresh keeps the widget of every worker that stays listed. *)
Theorem C74_keeps : forall progs s x,
  treach progs s -> NoDup (flat_map tracked progs) -> zlen (concat progs) < 2^64 -> t_reading s = false ->
  In x (d_box (t_display s)) -> In (wg_state x) (t_workers s) -> In x (d_box (t_display (refresh s))).
Proof. exact pC74_keeps. Qed.
Print Assumptions C74_keeps.

(** An example: worker 1 was tracked and shown, then worker 2 was tracked. *)
Example C74_ex : exists s, treach [[Track 1; Untrack 1]; [Track 2]] s /\ NoDup (flat_map tracked [[Track 1; Untrack 1]; [Track 2]]) /\ t_reading s = false /\
  t_workers s = [1; 2] /\ shown (t_display s) = [1] /\ d_last (t_display s) = 1 /\ shown (t_display (refresh s)) = [1; 2].
Proof. exact pC74_ex. Qed.

Example C73_ex : exists s, treach [[Track 1; Untrack 1]; [Track 2; Untrack 2]] s /\ t_log s = [Track 2; Track 1; Untrack 2] /\ WorkerStates (t_workers s) = [1] /\ t_version s = 1.
Proof. exact pC73_ex. Qed.

(** C75, partial.  For every text, width and number of highlighted characters: if the highlighted
    part is shorter than the line, the padded text is shown literally with this part in
    standout style.  If the whole line would be highlighted (or the width is 0, or the
    progress is not a number), nothing is, and the text must not contain percent signs.
    Missing: the unescaped cases, see C75_refuted.  The characters are single bytes. *)
Theorem C75_markup_partial : forall s w pre,
  (w <> 0 -> 0 <= pre < Z.max (zlen s) w ->
    exists m, MarkupAsProgress s w pre = Ok m /\
      show N_style m = map (fun c => (c, S_style)) (firstn (Z.to_nat pre) (padded s w)) ++
                       map (fun c => (c, N_style)) (skipn (Z.to_nat pre) (padded s w))) /\
  (w = 0 \/ pre < 0 \/ Z.max (zlen s) w <= pre -> ~ In 37 s ->
    exists m, MarkupAsProgress s w pre = Ok m /\
      show N_style m = map (fun c => (c, N_style)) (if w =? 0 then s else padded s w)).
Proof. exact pC75_markup_partial. Qed.
Print Assumptions C75_markup_partial.

(** C75 is false of the code: "at 100%" on a line of 8 characters at full progress loses its
    percent sign and a space. *)
Theorem C75_refuted : exists s w m,
  MarkupAsProgress s w w = Ok m /\ s = bytes_of "at 100%" /\ w = 8 /\ map fst (show N_style m) = bytes_of "at 100" /\ map fst (show N_style m) <> padded s w.
Proof. exact pC75_refuted. Qed.
Print Assumptions C75_refuted.

Example C75_ex : exists m, MarkupAsProgress (bytes_of "at 50%") 8 4 = Ok m /\ m = bytes_of "%Sat 5%N0%%  ".
Proof. exact pC75_ex. Qed.
