(** * P_Pt: property theorems (generated from PtThms.v by tools/gen_props.py). *)
From Verif Require Import Base PbSpec PbModel TModel HLModel FrModel FrSpec ZlModel IoModel NiModel WiModel RiModel RwModel TfModel TrModel TrSpec TmModel PgModel PgSpec SlModel SlSpec SwModel PtModel PtSpec PtThms.

Local Open Scope Z_scope.
(** C108.  The percentage shown with numbers a/m (below 2^53): a number of tenths from 0.0 to 100.0, off 100*a/m by at most half a tenth (and one part in 2^40 more). *)
Theorem C108_percent : forall a m, 0 < m < 2^53 -> 0 <= a <= m -> exists t, percent_text (percent (fraction a m)) = tenths_text t /\ tenths_of a m t.
Proof. exact pC108_percent. Qed.
Print Assumptions C108_percent.

(** C108.  It does not become smaller as a grows. *)
Theorem C108_grows : forall a a' m, 0 < m < 2^53 -> 0 <= a <= a' -> a' <= m -> exists t t',
  percent_text (percent (fraction a m)) = tenths_text t /\ percent_text (percent (fraction a' m)) = tenths_text t' /\ tenths_of a m t /\ tenths_of a' m t' /\ t <= t'.
Proof. exact pC108_grows. Qed.
Print Assumptions C108_grows.

(** C108.  At the start it is 0.0, at the end 100.0. *)
Theorem C108_ends : forall m, 0 < m < 2^53 -> percent_text (percent (fraction 0 m)) = bytes_of "0.0" /\ percent_text (percent (fraction m m)) = bytes_of "100.0".
Proof. exact pC108_ends. Qed.
Print Assumptions C108_ends.

(** "100.0%" is also shown before the end: at 9996 of 10000.  With nothing to do there is no number: with nothing to copy the node index says NaN%. *)
Theorem C108_end_refuted : percent_text (percent (fraction 9996 10000)) = bytes_of "100.0" /\ 9996 < 10000.
Proof. exact pC108_end_refuted. Qed.
Print Assumptions C108_end_refuted.

Theorem C108_nothing_refuted : let ds := fst (ni_output_told ex_tens [] w0) in
  doing ds 5 (Copying 0 0) /\ look ds 5 ix_writer_widget 5 (Bar (bytes_of "Writer: copying locations (0/0) NaN%") (fraction 0 0)).
Proof. exact pC108_nothing_refuted. Qed.
Print Assumptions C108_nothing_refuted.

Example C108_ex : percent_text (percent (fraction 1 3)) = bytes_of "33.3" /\ tenths_of 1 3 333 /\ percent_text (percent (fraction 12345 99999)) = bytes_of "12.3" /\
  percent_text (percent (fraction 1 1000)) = bytes_of "0.1" /\ percent_text (percent (fraction 7 8)) = bytes_of "87.5" /\ tenths_text 875 = bytes_of "87.5" /\ tenths_text 1000 = bytes_of "100.0".
Proof. exact pC108_ex. Qed.

(** C109.  Whatever the file's bytes are (less than 2^53 of them) and whenever the line is made (the three reads at moments i <= j <= k of the run): the line is one of
    four; it names the tool and the file; "loading block" or "sending block" is followed by the position at moment j, the size of the file and their percentage. *)
Theorem C109_line : forall action filename file choices i j k state a m, bytes file -> zlen file < 2^53 ->
  glance (file_run file choices) i j k state a m ->
  let l := process_line action filename state a m in
  state = Initializing /\ l = Text (about_file action filename (bytes_of "initializing")) \/
  (state = LoadingBlock \/ state = SendingBlock) /\ m = zlen file /\ 0 < m /\ 0 <= a <= m /\ (exists t, tenths_of a m t /\
    l = Bar (about_file action filename (progress_text (if state =? SendingBlock then "sending block" else "loading block") a m t) ++ bytes_of "%") (fraction a m)) \/
  state = ShuttingDown /\ l = Text (about_file action filename (bytes_of "shutting down")).
Proof. exact pC109_line. Qed.
Print Assumptions C109_line.

Theorem C109_truth : forall file choices i pc p sent, bytes file -> zlen file < 2^63 -> nth_error (file_run file choices) i = Some (pc, p, sent) ->
  (p_state p = Initializing -> sent = 0) /\
  (p_state p = LoadingBlock -> pc = PLoading \/ (exists n, pc = PHeader n) \/ (exists bh, pc = PType bh)) /\
  (p_state p = SendingBlock -> (exists n, pc = PSend n) \/ pc = PLoop \/ pc = PDown) /\
  (p_state p = ShuttingDown -> pc = PEnd /\ forall choices' i' pc' p' sent', (i <= i')%nat -> nth_error (file_run file (choices ++ choices')) i' = Some (pc', p', sent') -> sent' = sent) /\
  (forall fbs, frames file fbs -> p_state p = ShuttingDown -> ~ In true (firstn i choices) -> sent = zlen fbs).
Proof. exact pC109_truth. Qed.
Print Assumptions C109_truth.

(** C109.  Later lines are never behind earlier ones. *)
Theorem C109_never_back : forall file choices i j k state a m i' j' k' state' a' m', bytes file -> zlen file < 2^53 ->
  glance (file_run file choices) i j k state a m -> glance (file_run file choices) i' j' k' state' a' m' -> (k <= i')%nat ->
  state = LoadingBlock \/ state = SendingBlock -> state' = LoadingBlock \/ state' = SendingBlock ->
  m = m' /\ a <= a' /\ exists t t', percent_text (percent (fraction a m)) = tenths_text t /\ percent_text (percent (fraction a' m')) = tenths_text t' /\ t <= t'.
Proof. exact pC109_never_back. Qed.
Print Assumptions C109_never_back.

(** C109, partial.  In a view of width w, while the position is before the end of the file (a < m), the line is shown as it is, padded to the width, with the share a/m of
    the width highlighted (off by less than two characters).  Missing: the end of the file, see below. *)
Theorem C109_screen_partial : forall s w a m, 0 < w < 2^31 -> 0 < m < 2^53 -> 0 <= a < m -> exists n, 0 <= n < w /\ (n - 1) * m < w * a < (n + 2) * m /\
  on_screen show N_style (Some w) (Bar s (fraction a m)) = Ok (Some (highlighted n (padded s w))).
Proof. exact pC109_screen_partial. Qed.
Print Assumptions C109_screen_partial.

(** C109, exact.  At the end of the file (a = m): a line that fits (its text, and the percent sign) is shown without the percent sign and without any highlighting (the spaces
    that follow have the style named by a space); one that is longer than the view is shown as it is, with w characters highlighted.  For texts without a percent sign of their own. *)
Theorem C109_full_exact : forall s w m, 0 < w < 2^31 -> 0 < m < 2^53 -> ~ In 37 s ->
  on_screen show N_style (Some w) (Bar (s ++ bytes_of "%") (fraction m m)) = Ok (Some
    (if zlen s + 1 <=? w then in_plain s ++ map (fun c => (c, 32)) (repeat 32 (Z.to_nat (w - zlen s - 2))) else highlighted w (s ++ bytes_of "%"))).
Proof. exact pC109_full_exact. Qed.
Print Assumptions C109_full_exact.

(** C109.  The line about the pass (rewritenodes): "Pass p/n", counted from 1, with the share of all passes highlighted; no highlighting if this is the whole line. *)
Theorem C109_pass : forall w pass count a m, 0 < w < 2^31 -> 0 <= pass < count -> count < 2^53 -> 0 <= m < 2^53 -> 0 <= a <= m -> exists n s,
  s = bytes_of "Pass " ++ shown_number (pass + 1) ++ bytes_of "/" ++ shown_number count /\
  0 <= n <= w /\ (0 < m -> (n - 1) * (count * m) < w * (pass * m + a) < (n + 2) * (count * m)) /\ (m = 0 -> (n - 1) * count < w * pass < (n + 2) * count) /\
  on_screen show N_style (Some w) (pass_line pass count a m) = Ok (Some (if n <? zlen (padded s w) then highlighted n (padded s w) else in_plain (padded s w))).
Proof. exact pC109_pass. Qed.
Print Assumptions C109_pass.

Theorem C109_sign_refuted : forall action filename file fbs steps w, bytes file -> zlen file < 2^53 -> frames file fbs -> fbs <> [] -> (5 * List.length fbs + 4 <= steps)%nat ->
  ~ In 37 action -> ~ In 37 filename -> w < 2^31 ->
  let s := about_file action filename (progress_text "sending block" (zlen file) (zlen file) 1000) in zlen s + 1 <= w ->
  exists i, let l := process_line action filename SendingBlock (zlen file) (zlen file) in
  glance (file_run file (repeat false steps)) i i i SendingBlock (zlen file) (zlen file) /\ l = Bar (s ++ bytes_of "%") (fraction (zlen file) (zlen file)) /\
  exists c, on_screen show N_style (Some w) l = Ok (Some c) /\ ~ In 37 (map fst c) /\ ~ In S_style (map snd c).
Proof. exact pC109_sign_refuted. Qed.
Print Assumptions C109_sign_refuted.

Example C109_ex : bytes ex_file /\ frames ex_file [ex_file] /\ zlen ex_file = 19 /\
  glance (file_run ex_file [false; false; false; false; false]) 3 5 5 LoadingBlock 17 19 /\
  process_line (bytes_of "NodeIndex") (bytes_of "a.pbf") LoadingBlock 17 19 = Bar (bytes_of "[NodeIndex] Processing PBF a.pbf: loading block 17/19 89.5%") (fraction 17 19) /\
  on_screen show N_style (Some 6) (Bar (bytes_of "a 50%") (fraction 1 2)) = Ok (Some (highlighted 3 (bytes_of "a 50% "))) /\
  on_screen show N_style (Some 70) (process_line (bytes_of "NodeIndex") (bytes_of "a.pbf") SendingBlock 19 19) =
    Ok (Some (in_plain (bytes_of "[NodeIndex] Processing PBF a.pbf: sending block 19/19 100.0") ++ map (fun c => (c, 32)) (repeat 32 9))) /\
  pass_line 1 3 0 19 = Bar (bytes_of "Pass 2/3") (pass_fraction 1 3 0 19).
Proof. exact pC109_ex. Qed.
