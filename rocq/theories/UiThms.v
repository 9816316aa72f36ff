(** * UiThms: the user interface (C110). *)
From Verif Require Import Base UiModel UiSpec.
From Coq Require Import Permutation.

Lemma remove_all : forall l box, fold_left RemoveWidget l box = filter (fun x => negb (existsb (Z.eqb x) l)) box.
Proof.
  induction l as [|w l IH]; intros box; cbn [fold_left].
  - induction box as [|x box IHb]; [reflexivity|]. cbn [fold_left filter existsb negb] in *. f_equal. exact IHb.
  - rewrite IH. unfold RemoveWidget. clear IH. induction box as [|x box IHb]; [reflexivity|]. cbn [filter existsb]. destruct (x =? w) eqn:E; cbn [negb orb]; [exact IHb|].
    cbn [filter]. destruct (existsb (Z.eqb x) l); cbn [negb]; [exact IHb|]. rewrite IHb. reflexivity.
Qed.
Lemma replace_all box ws : replace_in box ws = ws.
Proof.
  unfold replace_in. rewrite remove_all. assert (E : filter (fun x => negb (existsb (Z.eqb x) box)) box = []).
  { assert (G : forall l, incl l box -> filter (fun x => negb (existsb (Z.eqb x) box)) l = []).
    { induction l as [|x l IH]; intros H; [reflexivity|]. cbn [filter]. assert (existsb (Z.eqb x) box = true) as ->.
      { apply existsb_exists. exists x. split; [apply H; left; reflexivity|apply Z.eqb_refl]. } cbn [negb]. apply IH. intros y Hy. apply H. right. exact Hy. }
    apply G, incl_refl. }
  rewrite E. assert (A : forall (ws b : list Z), fold_left (fun b w => b ++ [w]) ws b = b ++ ws).
  { clear. induction ws as [|w ws IH]; intros b; cbn [fold_left]; [symmetry; apply app_nil_r|]. rewrite IH, <- app_assoc. reflexivity. }
  rewrite A. reflexivity.
Qed.
Lemma last_shown_app a b x : last_shown (a ++ b) x = last_shown b (last_shown a x).
Proof. revert x. induction a as [|e a IH]; intros x; [reflexivity|]. destruct e; cbn [app last_shown]; apply IH. Qed.
Lemma funcs_app a b : funcs (a ++ b) = funcs a ++ funcs b.
Proof. apply flat_map_app. Qed.

Definition stop_instrs : list instr := [IClose; IWaitTicker; IQuit; IWaitApp].
Definition phase (shows : list (list Z)) (u : uistate) : Prop :=
  let quits := In EvQuit (u_queue u ++ u_posting u) in
  (exists made rest, shows = made ++ rest /\ u_main u = map IReplace rest ++ stop_instrs /\ u_shutdown u = false /\ u_ticker u <> TReturned /\ u_loop u = true /\ ~ quits /\
     Permutation (funcs (u_handled u ++ u_queue u ++ u_posting u)) made) \/
  u_shutdown u = true /\ Permutation (funcs (u_handled u ++ u_queue u ++ u_posting u)) shows /\
  (u_main u = [IWaitTicker; IQuit; IWaitApp] /\ u_loop u = true /\ ~ quits \/
   u_ticker u = TReturned /\
   (u_main u = [IQuit; IWaitApp] /\ u_loop u = true /\ ~ quits \/
    u_main u = [IWaitApp] /\ (u_loop u = true /\ quits \/ u_loop u = false) \/
    u_main u = [] /\ u_loop u = false)).
Definition keys_ok (u : uistate) : Prop :=
  (u_cancelled u = true <-> In (ctrl KeyCtrlC) (u_handled u)) /\ (u_dead u = true <-> In (ctrl KeyCtrlA) (u_handled u)) /\ u_box u = last_shown (u_handled u) [].
Lemma in_snoc {A} (x y : A) l : In x (l ++ [y]) <-> In x l \/ y = x.
Proof. rewrite in_app_iff. cbn. tauto. Qed.
Lemma main_program shows : flat_map instrs (program shows) = map IReplace shows ++ stop_instrs.
Proof. unfold program. rewrite flat_map_app. cbn [flat_map instrs]. f_equal. induction shows as [|a l IH]; [reflexivity|]. cbn. f_equal. exact IH. Qed.

Lemma phase_start shows : phase shows (NewUI (program shows)) /\ keys_ok (NewUI (program shows)).
Proof.
  split.
  - left. exists [], shows. split; [reflexivity|]. cbn [NewUI u_main u_shutdown u_ticker u_loop u_queue u_posting u_handled]. rewrite main_program. split; [reflexivity|]. split; [reflexivity|]. split; [discriminate|]. split; [reflexivity|]. split; [intros []|constructor].
  - unfold keys_ok. cbn. intuition discriminate.
Qed.

Ltac uiproj := cbn [u_queue u_posting u_ticker u_shutdown u_main u_loop u_box u_cancelled u_dead u_handled] in *.
(** what the moves do to the lists of events *)
Lemma keys_step cap mv u u' shows : phase shows u -> keys_ok u -> ui_step cap mv u = Some u' -> keys_ok u'.
Proof.
  intros Ph K E. destruct u as [q ps tk sd mn lp box cn dead hd]. unfold ui_step in E. destruct dead; [discriminate E|].
  destruct mv.
  1,2,3,4,6: repeat match type of E with context [match ?x with _ => _ end] => destruct x; try discriminate E end; injection E as <-; exact K.
  - destruct mn as [|x mn]; [discriminate E|]. destruct x; repeat match type of E with context [match ?x with _ => _ end] => destruct x eqn:?; try discriminate E end; injection E as <-; try exact K.
    exfalso. unfold phase in Ph. uiproj. destruct Ph as [(made & rest & _ & Hm & Hs & _)|(_ & _ & [[Hm _]|(_ & [[Hm _]|[[Hm _]|[Hm _]]])])]; congruence.
  - destruct lp; [|discriminate E]. destruct q as [|e q]; [discriminate E|]. injection E as <-. unfold keys_ok in *. uiproj. destruct K as (K1 & K2 & K3).
    destruct e as [|ws|mods k| |]; cbn [handle].
    + uiproj. rewrite !in_snoc, last_shown_app. cbn [last_shown]. split; [|split]; [rewrite K1|rewrite K2|exact K3]; intuition discriminate.
    + uiproj. rewrite !in_snoc, last_shown_app, replace_all. cbn [last_shown]. split; [|split]; [rewrite K1|rewrite K2|reflexivity]; intuition discriminate.
    + destruct (Z.eqb_spec mods ModCtrl) as [->|Nm]; cbn [negb].
      * destruct k; uiproj; rewrite !in_snoc, last_shown_app; cbn [last_shown]; unfold ctrl in *; (split; [|split; [|exact K3]]); rewrite ?K1, ?K2; intuition (try discriminate).
      * unfold ModCtrl in Nm. uiproj. rewrite !in_snoc, last_shown_app. cbn [last_shown]. unfold ctrl in *. split; [|split; [|exact K3]]; rewrite ?K1, ?K2; intuition congruence.
    + uiproj. rewrite !in_snoc, last_shown_app. cbn [last_shown]. split; [|split]; [rewrite K1|rewrite K2|exact K3]; intuition discriminate.
    + uiproj. rewrite !in_snoc, last_shown_app. cbn [last_shown]. split; [|split]; [rewrite K1|rewrite K2|exact K3]; intuition discriminate.
Qed.

Lemma quits_snoc q ps e : e <> EvQuit -> (In EvQuit ((q ++ [e]) ++ ps) <-> In EvQuit (q ++ ps)).
Proof. intros H. rewrite !in_app_iff. cbn. intuition congruence. Qed.
Lemma quits_end q ps e : e <> EvQuit -> (In EvQuit (q ++ ps ++ [e]) <-> In EvQuit (q ++ ps)).
Proof. intros H. rewrite !in_app_iff. cbn. intuition congruence. Qed.
Lemma quits_tail q ps e : e <> EvQuit -> (In EvQuit ((e :: q) ++ ps) <-> In EvQuit (q ++ ps)).
Proof. intros H. cbn. intuition congruence. Qed.
Lemma nth_split_at {A} (ps : list A) i e : nth_error ps i = Some e -> ps = firstn i ps ++ e :: skipn (S i) ps.
Proof. revert i. induction ps as [|x ps IH]; intros [|i] H; try discriminate H; cbn in *; [injection H as ->; reflexivity|]. f_equal. apply IH, H. Qed.
Lemma quits_move q ps i e : nth_error ps i = Some e -> (In EvQuit ((q ++ [e]) ++ firstn i ps ++ skipn (S i) ps) <-> In EvQuit (q ++ ps)).
Proof. intros H. rewrite (nth_split_at _ _ _ H) at 3. rewrite !in_app_iff. cbn [In]. tauto. Qed.
Definition perm_all (h q ps : list event) (l : list (list Z)) : Prop := Permutation (funcs (h ++ q ++ ps)) l.
Lemma funcs_plain e : (forall ws, e <> EvFunc ws) -> funcs [e] = [].
Proof. destruct e; intros H; try reflexivity. exfalso. apply (H widgets). reflexivity. Qed.
Lemma perm_queue h q ps l e : (forall ws, e <> EvFunc ws) -> perm_all h q ps l -> perm_all h (q ++ [e]) ps l.
Proof. intros H P. unfold perm_all in *. rewrite !funcs_app in *. rewrite (funcs_plain e H), app_nil_r. exact P. Qed.
Lemma perm_posting h q ps l e : (forall ws, e <> EvFunc ws) -> perm_all h q ps l -> perm_all h q (ps ++ [e]) l.
Proof. intros H P. unfold perm_all in *. rewrite !funcs_app in *. rewrite (funcs_plain e H), app_nil_r. exact P. Qed.
Lemma perm_take h e q ps l : perm_all h (e :: q) ps l -> perm_all (h ++ [e]) q ps l.
Proof. unfold perm_all. rewrite <- app_assoc. exact (fun x => x). Qed.
Lemma perm_move h q ps l i e : nth_error ps i = Some e -> perm_all h q ps l -> perm_all h (q ++ [e]) (firstn i ps ++ skipn (S i) ps) l.
Proof.
  intros H P. unfold perm_all in *. rewrite <- P. rewrite (nth_split_at _ _ _ H) at 3. change (e :: skipn (S i) ps) with ([e] ++ skipn (S i) ps). rewrite !funcs_app, <- !app_assoc.
  apply Permutation_app_head, Permutation_app_head. rewrite !app_assoc. apply Permutation_app_tail, Permutation_app_comm.
Qed.
Lemma phase_step cap mv u u' shows : phase shows u -> ui_step cap mv u = Some u' -> u_dead u' = false -> phase shows u'.
Proof.
  intros Ph E Al. destruct u as [q ps tk sd mn lp box cn dead hd]. unfold ui_step in E. destruct dead; [discriminate E|]. unfold phase in *. uiproj.
  destruct mv.
  - destruct tk; try discriminate E. injection E as <-. uiproj.
    destruct Ph as [(made & rest & H1 & H2 & H3 & H4 & H5 & H6 & H7)|(H1 & H2 & [H3|(H3 & _)])]; [left; exists made, rest; repeat split; auto; discriminate|right; auto|discriminate H3].
  - destruct (room cap q); [|discriminate E]. injection E as <-. uiproj. assert (Q := quits_snoc q ps (EvKey modifiers k) ltac:(discriminate)).
    destruct Ph as [(made & rest & H1 & H2 & H3 & H4 & H5 & H6 & H7)|(H1 & H2 & H3)].
    + left. exists made, rest. rewrite Q. repeat split; auto. apply perm_queue; [discriminate|exact H7].
    + right. rewrite Q. split; [exact H1|]. split; [apply perm_queue; [discriminate|exact H2]|exact H3].
  - destruct tk; try discriminate E. destruct (room cap q); [|discriminate E]. injection E as <-. uiproj. assert (Q := quits_snoc q ps EvUpdate ltac:(discriminate)).
    destruct Ph as [(made & rest & H1 & H2 & H3 & H4 & H5 & H6 & H7)|(H1 & H2 & [H3|(H3 & _)])]; [| |discriminate H3].
    + left. exists made, rest. rewrite Q. repeat split; auto; [discriminate|]. apply perm_queue; [discriminate|exact H7].
    + right. rewrite Q. split; [exact H1|]. split; [apply perm_queue; [discriminate|exact H2]|left; exact H3].
  - destruct tk; try discriminate E. destruct sd; [|discriminate E]. injection E as <-. uiproj.
    destruct Ph as [(made & rest & H1 & H2 & H3 & H4 & H5 & H6 & H7)|(H1 & H2 & [H3|(H3 & _)])]; [discriminate H3| |discriminate H3].
    right. split; [reflexivity|]. split; [exact H2|]. left. exact H3.
  - destruct Ph as [(made & rest & H1 & H2 & H3 & H4 & H5 & H6 & H7)|(H1 & H2 & [(H3 & H4 & H5)|(H3 & [(H4 & H5 & H6)|[(H4 & H5)|(H4 & H5)]])])].
    + subst mn sd lp. destruct rest as [|ws rest]; cbn [map app stop_instrs] in E.
      * injection E as <-. uiproj. right. rewrite app_nil_r in H1. subst made. split; [reflexivity|]. split; [exact H7|]. left. auto.
      * injection E as <-. uiproj. left. exists (made ++ [ws]), rest. rewrite quits_end by discriminate. rewrite <- app_assoc. repeat split; auto.
        rewrite !app_assoc, funcs_app. apply Permutation_app_tail. rewrite <- app_assoc. exact H7.
    + subst mn. destruct tk; try discriminate E. injection E as <-. uiproj. right. split; [exact H1|]. split; [exact H2|]. right. split; [reflexivity|]. left. auto.
    + subst mn. injection E as <-. uiproj. right. split; [exact H1|]. split; [apply perm_posting; [discriminate|exact H2]|]. right. split; [exact H3|]. right. left. split; [reflexivity|]. left. split; [exact H5|]. rewrite !in_app_iff. cbn. auto.
    + subst mn. destruct lp; [discriminate E|]. injection E as <-. uiproj. right. split; [exact H1|]. split; [exact H2|]. right. auto.
    + subst mn. discriminate E.
  - destruct (nth_error ps i) as [e|] eqn:N; [|discriminate E]. destruct (room cap q); [|discriminate E]. injection E as <-. uiproj. pose proof (quits_move q ps i e N) as Q.
    destruct Ph as [(made & rest & H1 & H2 & H3 & H4 & H5 & H6 & H7)|(H1 & H2 & H3)].
    + left. exists made, rest. rewrite Q. repeat split; auto. apply perm_move; [exact N|exact H7].
    + right. rewrite Q. split; [exact H1|]. split; [apply perm_move; [exact N|exact H2]|exact H3].
  - destruct lp; [|discriminate E]. destruct q as [|e q]; [discriminate E|]. assert (Eu : u' = handle e (mkUi q ps tk sd mn true box cn false hd)) by congruence. clear E.
    assert (T : e <> EvQuit -> exists ps' cn' dead' box', handle e (mkUi q ps tk sd mn true box cn false hd) = mkUi q ps' tk sd mn true box' cn' dead' (hd ++ [e]) /\ (ps' = ps \/ ps' = ps ++ [EvRefresh])).
    { destruct e as [|ws|mods k| |]; intros Ne; cbn [handle]; try (do 4 eexists; split; [reflexivity|left; reflexivity]); [|contradiction]. destruct (negb _); [do 4 eexists; split; [reflexivity|left; reflexivity]|]. destruct k; do 4 eexists; (split; [reflexivity|]); auto. }
    assert (Dq : e = EvQuit \/ e <> EvQuit) by (destruct e; (left; reflexivity) || (right; discriminate)). destruct Dq as [->|Ne].
    + cbn [handle] in Eu. subst u'. uiproj. destruct Ph as [(made & rest & H1 & H2 & H3 & H4 & H5 & H6 & H7)|(H1 & H2 & [(H3 & H4 & H5)|(H3 & [(H4 & H5 & H6)|[(H4 & H5)|(H4 & H5)]])])].
      * exfalso. apply H6. left. reflexivity.
      * exfalso. apply H5. left. reflexivity.
      * exfalso. apply H6. left. reflexivity.
      * right. split; [exact H1|]. split; [apply perm_take; exact H2|]. right. split; [exact H3|]. right. left. auto.
      * discriminate H5.
    + destruct (T Ne) as (ps' & cn' & dead' & box' & Eh & Hp). rewrite Eh in Eu. subst u'. uiproj. clear Eh T.
      assert (Q : In EvQuit (q ++ ps') <-> In EvQuit ((e :: q) ++ ps)) by (rewrite quits_tail by exact Ne; destruct Hp as [-> | ->]; [reflexivity|apply quits_end; discriminate]).
      assert (Pm : forall l, perm_all hd (e :: q) ps l -> perm_all (hd ++ [e]) q ps' l) by (intros l Hl; apply perm_take in Hl; destruct Hp as [-> | ->]; [exact Hl|apply perm_posting; [discriminate|exact Hl]]).
      destruct Ph as [(made & rest & H1 & H2 & H3 & H4 & H5 & H6 & H7)|(H1 & H2 & H3)].
      * left. exists made, rest. rewrite Q. repeat split; auto. apply Pm, H7.
      * right. rewrite Q. split; [exact H1|]. split; [apply Pm, H2|exact H3].
Qed.
Lemma alive cap mv u u' : ui_step cap mv u = Some u' -> u_dead u = false.
Proof. destruct u as [q ps tk sd mn lp box cn [|] hd]; [discriminate|reflexivity]. Qed.
Lemma run_inv cap shows : forall mvs u u', ui_run cap mvs u = Some u' -> (u_dead u = false -> phase shows u) -> keys_ok u -> (u_dead u' = false -> phase shows u') /\ keys_ok u'.
Proof.
  induction mvs as [|mv mvs IH]; intros u u' E Ph K; cbn [ui_run] in E; [injection E as <-; auto|]. destruct (ui_step cap mv u) as [u1|] eqn:E1; [|discriminate E]. pose proof (alive _ _ _ _ E1) as Al.
  apply (IH u1 u' E); [intros D; eapply phase_step; eauto|eapply keys_step; eauto].
Qed.
Lemma moment_inv cap shows u : moment cap shows u -> (u_dead u = false -> phase shows u) /\ keys_ok u.
Proof. intros (mvs & E). destruct (phase_start shows) as (P & K). apply (run_inv cap shows mvs _ _ E); auto. Qed.

(** how much is left to do without ticks and keys *)
Definition ev_weight (e : event) : nat := match e with EvKey _ _ => 4 | _ => 1 end.
Definition evs (l : list event) : nat := fold_right (fun e n => ev_weight e + n)%nat 0%nat l.
Definition work_left (u : uistate) : nat :=
  evs (u_queue u) + (evs (u_posting u) + List.length (u_posting u)) + 4 * List.length (u_main u) + match u_ticker u with TSelect => 1 | TPosting => 3 | TReturned => 0 end.
Lemma evs_app a b : evs (a ++ b) = (evs a + evs b)%nat.
Proof. induction a as [|e a IH]; [reflexivity|]. cbn [app evs fold_right]. fold (evs (a ++ b)) (evs a). rewrite IH. lia. Qed.
Lemma evs_one e : evs [e] = ev_weight e.
Proof. cbn. lia. Qed.
Lemma work_less cap mv u u' : own mv -> ui_step cap mv u = Some u' -> (work_left u' < work_left u)%nat.
Proof.
  intros O_ E. destruct u as [q ps tk sd mn lp box cn dead hd]. unfold ui_step in E. destruct dead; [discriminate E|]. unfold work_left. destruct mv; try destruct O_.
  - destruct tk; try discriminate E. destruct (room cap q); [|discriminate E]. injection E as <-. uiproj. rewrite evs_app. cbn [evs fold_right ev_weight]. lia.
  - destruct tk; try discriminate E. destruct sd; [|discriminate E]. injection E as <-. uiproj. lia.
  - destruct mn as [|x mn]; [discriminate E|]. destruct x; repeat match type of E with context [match ?x with _ => _ end] => destruct x; try discriminate E end; injection E as <-; uiproj; rewrite ?evs_app, ?app_length; cbn [evs fold_right ev_weight List.length]; lia.
  - destruct (nth_error ps i) as [e|] eqn:N; [|discriminate E]. destruct (room cap q); [|discriminate E]. injection E as <-. uiproj.
    pose proof (f_equal evs (nth_split_at _ _ _ N)) as E1. pose proof (f_equal (@List.length event) (nth_split_at _ _ _ N)) as E2. change (e :: skipn (S i) ps) with ([e] ++ skipn (S i) ps) in *.
    rewrite !evs_app in E1. rewrite !app_length in E2. rewrite !evs_app, !app_length. rewrite evs_one in *. change (@List.length event [e]) with 1%nat in E2. cbn [skipn] in E1, E2. lia.
  - destruct lp; [|discriminate E]. destruct q as [|e q]; [discriminate E|]. assert (Eu : u' = handle e (mkUi q ps tk sd mn true box cn false hd)) by congruence. subst u'. clear E.
    assert (Eq : evs (e :: q) = (ev_weight e + evs q)%nat) by reflexivity.
    destruct e as [|ws|mods k| |]; cbn [handle]; [| |destruct (negb _); [|destruct k]| |]; uiproj; rewrite Eq, ?evs_app, ?app_length, ?evs_one; cbn [ev_weight List.length]; lia.
Qed.
Lemma work_bound cap : forall mvs u u', Forall own mvs -> ui_run cap mvs u = Some u' -> (List.length mvs + work_left u' <= work_left u)%nat.
Proof.
  induction mvs as [|mv mvs IH]; intros u u' F E; cbn [ui_run] in E; [injection E as <-; cbn; lia|]. destruct (ui_step cap mv u) as [u1|] eqn:E1; [|discriminate E]. inversion F as [|? ? F1 F2]; subst.
  pose proof (work_less _ _ _ _ F1 E1). pose proof (IH u1 u' F2 E). cbn [List.length]. lia.
Qed.
Lemma stuck_stopped cap shows u : (1 <= cap)%nat -> phase shows u -> u_dead u = false -> (forall mv, own mv -> ui_step cap mv u = None) -> stopped u.
Proof.
  intros Hc Ph D Sk. destruct u as [q ps tk sd mn lp box cn dead hd]. uiproj. subst dead. unfold phase, stopped in *. uiproj.
  pose proof (Sk MMain Logic.I) as Sm. pose proof (Sk MLoop Logic.I) as Sl. pose proof (Sk MPostUpdate Logic.I) as Sp. pose proof (Sk MTickerReturns Logic.I) as St. pose proof (fun i => Sk (MPost i) Logic.I) as Si. clear Sk. cbn [ui_step] in *.
  assert (Rm : lp = true -> q = [] /\ room cap q = true).
  { intros ->. destruct q as [|e q]; [|discriminate Sl]. split; [reflexivity|]. unfold room. apply Nat.ltb_lt. cbn [List.length]. lia. }
  destruct Ph as [(made & rest & H1 & H2 & H3 & H4 & H5 & H6 & H7)|(H1 & H2 & [(H3 & H4 & H5)|(H3 & [(H4 & H5 & H6)|[(H4 & H5)|(H4 & H5)]])])].
  - subst mn sd. destruct rest as [|ws rest]; cbn in Sm; discriminate Sm.
  - subst mn sd. destruct tk; [discriminate St| |discriminate Sm]. destruct (Rm H4) as (_ & R). rewrite R in Sp. discriminate Sp.
  - subst mn. discriminate Sm.
  - subst mn. destruct H5 as [(-> & Q)| ->]; [|discriminate Sm]. destruct (Rm eq_refl) as (-> & R). cbn [app] in Q. apply In_nth_error in Q as (i & Hi). specialize (Si i). rewrite Hi, R in Si. discriminate Si.
  - exact H4.
Qed.

(** C110.  The program ends: at every moment (until a panic), whatever the capacity of the channel of events, the program can only make a bounded number of moves of its own (until
    the next tick or key), and if it can make none, Stop has returned. *)
Lemma pC110_stop : forall cap shows u, (1 <= cap)%nat -> moment cap shows u -> exists bound, forall mvs u', Forall own mvs -> ui_run cap mvs u = Some u' ->
  (List.length mvs <= bound)%nat /\ (u_dead u' = false -> (forall mv, own mv -> ui_step cap mv u' = None) -> stopped u').
Proof.
  intros cap shows u Hc M. exists (work_left u). intros mvs u' F E. split; [pose proof (work_bound cap mvs u u' F E); lia|]. intros D Sk.
  destruct (moment_inv cap shows u M) as (Ph & K). destruct (run_inv cap shows mvs u u' E Ph K) as (Ph' & _). apply (stuck_stopped cap shows u' Hc (Ph' D) D Sk).
Qed.
(** C110.  When Stop has returned, the ticking goroutine has ended and so has the event loop: nothing is shown or cancelled after it. *)
Lemma pC110_after : forall cap shows u mvs u', moment cap shows u -> u_dead u = false -> stopped u -> ui_run cap mvs u = Some u' ->
  stopped u' /\ u_ticker u' = TReturned /\ u_loop u' = false /\ u_dead u' = false /\ u_box u' = u_box u /\ u_cancelled u' = u_cancelled u /\ u_handled u' = u_handled u.
Proof.
  intros cap shows u mvs u' M D St E. destruct (moment_inv cap shows u M) as (Ph & _). specialize (Ph D).
  assert (H : u_ticker u = TReturned /\ u_loop u = false).
  { unfold stopped in St. unfold phase in Ph. rewrite St in Ph. destruct Ph as [(made & rest & H1 & H2 & _)|(_ & _ & [(C & _)|(T & [(C & _)|[(C & _)|(_ & Lp)]])])]; try discriminate C; [destruct rest; discriminate H2|auto]. }
  destruct H as (T & Lp). clear Ph M. revert u T Lp D St E. induction mvs as [|mv mvs IH]; intros u T Lp D St E; cbn [ui_run] in E; [injection E as <-; repeat split; assumption|].
  destruct (ui_step cap mv u) as [u1|] eqn:E1; [|discriminate E].
  assert (X : stopped u1 /\ u_ticker u1 = TReturned /\ u_loop u1 = false /\ u_dead u1 = false /\ u_box u1 = u_box u /\ u_cancelled u1 = u_cancelled u /\ u_handled u1 = u_handled u).
  { destruct u as [q ps tk sd mn lp box cn dead hd]. unfold stopped in *. uiproj. subst tk lp mn dead. cbn [ui_step] in E1. destruct mv; try discriminate E1.
    - destruct (room cap q); [|discriminate E1]. injection E1 as <-. repeat split.
    - destruct (nth_error ps i); [|discriminate E1]. destruct (room cap q); [|discriminate E1]. injection E1 as <-. repeat split. }
  destruct X as (X1 & X2 & X3 & X4 & X5 & X6 & X7). destruct (IH u1 X2 X3 X4 X1 E) as (Y1 & Y2 & Y3 & Y4 & Y5 & Y6 & Y7). repeat split; try assumption; congruence.
Qed.
(** C110.  The work is cancelled when Ctrl-C has been taken from the events, and never otherwise; the program panics when Ctrl-A has been, and never otherwise (in particular
    not in Stop). *)
Lemma pC110_keys : forall cap shows u, moment cap shows u -> (u_cancelled u = true <-> In (ctrl KeyCtrlC) (u_handled u)) /\ (u_dead u = true <-> In (ctrl KeyCtrlA) (u_handled u)).
Proof. intros cap shows u M. destruct (moment_inv cap shows u M) as (_ & K1 & K2 & _). split; assumption. Qed.
(** C110.  What is shown is all the widgets of the last call whose function has been taken (none before the first), and every call made is taken at most once. *)
Lemma pC110_shown : forall cap shows u, moment cap shows u -> u_dead u = false ->
  u_box u = last_shown (u_handled u) [] /\ exists made rest, shows = made ++ rest /\ rearranged (funcs (u_handled u ++ u_queue u ++ u_posting u)) made.
Proof.
  unfold rearranged. intros cap shows u M D. destruct (moment_inv cap shows u M) as (Ph & _ & _ & B). split; [exact B|]. destruct (Ph D) as [(made & rest & H1 & _ & _ & _ & _ & _ & P)|(_ & P & _)]; [eauto|]. exists shows, []. rewrite app_nil_r. auto.
Qed.
(** C110, partial.  If the functions posted get into the channel in the order of the calls, they are taken in this order: what is shown is the widgets of the latest call taken.
    Missing: PostFunc posts from goroutines of its own, see below. *)
Lemma in_order cap : forall mvs u u' made, Forall (fun mv => match mv with MPost i => i = 0%nat | _ => True end) mvs -> ui_run cap mvs u = Some u' ->
  funcs (u_handled u ++ u_queue u ++ u_posting u) ++ flat_map (fun x => match x with IReplace ws => [ws] | _ => [] end) (u_main u) = made ->
  funcs (u_handled u' ++ u_queue u' ++ u_posting u') ++ flat_map (fun x => match x with IReplace ws => [ws] | _ => [] end) (u_main u') = made.
Proof.
  induction mvs as [|mv mvs IH]; intros u u' made F E H; cbn [ui_run] in E; [injection E as <-; exact H|]. destruct (ui_step cap mv u) as [u1|] eqn:E1; [|discriminate E]. inversion F as [|? ? F1 F2]; subst.
  apply (IH u1 u' _ F2 E). clear IH E F F2. destruct u as [q ps tk sd mn lp box cn dead hd]. unfold ui_step in E1. destruct dead; [discriminate E1|]. uiproj. destruct mv.
  - destruct tk; try discriminate E1. injection E1 as <-. reflexivity.
  - destruct (room cap q); [|discriminate E1]. injection E1 as <-. uiproj. rewrite !funcs_app. cbn [funcs flat_map app]. rewrite app_nil_r. reflexivity.
  - destruct tk; try discriminate E1. destruct (room cap q); [|discriminate E1]. injection E1 as <-. uiproj. rewrite !funcs_app. cbn [funcs flat_map app]. rewrite app_nil_r. reflexivity.
  - destruct tk; try discriminate E1. destruct sd; [|discriminate E1]. injection E1 as <-. reflexivity.
  - destruct mn as [|x mn]; [discriminate E1|]. destruct x; repeat match type of E1 with context [match ?x with _ => _ end] => destruct x; try discriminate E1 end; injection E1 as <-; uiproj; rewrite ?funcs_app; cbn [funcs flat_map app]; rewrite ?app_nil_r, <- ?app_assoc; reflexivity.
  - subst i. destruct ps as [|e ps]; cbn [nth_error] in E1; [discriminate E1|]. destruct (room cap q); [|discriminate E1]. injection E1 as <-. uiproj. cbn [firstn skipn app]. change (e :: ps) with ([e] ++ ps). rewrite !funcs_app, <- !app_assoc. reflexivity.
  - destruct lp; [|discriminate E1]. destruct q as [|e q]; [discriminate E1|]. injection E1 as <-. destruct e as [|ws|mods k| |]; cbn [handle]; [| |destruct (negb _); [|destruct k]| |]; uiproj; rewrite <- ?app_assoc; cbn [app]; try reflexivity.
    rewrite !funcs_app. cbn [funcs flat_map app]. rewrite !funcs_app. cbn [funcs flat_map app]. rewrite app_nil_r. reflexivity.
Qed.
Lemma pC110_order_partial : forall cap shows mvs u, ui_run cap mvs (NewUI (program shows)) = Some u -> Forall (fun mv => match mv with MPost i => i = 0%nat | _ => True end) mvs ->
  exists later, shows = funcs (u_handled u) ++ later /\ (funcs (u_handled u) = [] /\ u_box u = [] \/ exists earlier, funcs (u_handled u) = earlier ++ [u_box u]).
Proof.
  intros cap shows mvs u E F. pose proof (in_order cap mvs _ u shows F E) as X. cbn [NewUI u_handled u_queue u_posting u_main] in X. rewrite main_program in X.
  specialize (X ltac:(rewrite flat_map_app; cbn [stop_instrs flat_map funcs app]; rewrite app_nil_r; clear; induction shows as [|a l IH]; [reflexivity|]; cbn; f_equal; exact IH)).
  rewrite funcs_app, <- app_assoc in X. eexists. split; [symmetry; exact X|].
  destruct (moment_inv cap shows u ltac:(exists mvs; exact E)) as (_ & _ & _ & ->).
  assert (G : forall es b, funcs es = [] /\ last_shown es b = b \/ exists earlier, funcs es = earlier ++ [last_shown es b]).
  { induction es as [|e es IH]; intros b; [left; split; reflexivity|]. destruct e; cbn [last_shown funcs flat_map app]; try exact (IH b).
    destruct (IH widgets) as [(A & B)|(earlier & A)]; right; [exists []; fold (funcs es); rewrite A, B; reflexivity|exists (widgets :: earlier); fold (funcs es); rewrite A; reflexivity]. }
  apply G.
Qed.
(** The functions of two calls may get into the channel the other way round: then what is shown until the end is the widgets of the first call. *)
Definition ex_ui_moves : list move := [MMain; MMain; MPost 1; MPost 0; MLoop; MLoop; MTick; MMain; MPostUpdate; MTickerReturns; MMain; MMain; MPost 0; MLoop; MLoop; MMain].
Lemma pC110_order_refuted : exists mvs u, ui_run 10 mvs (NewUI (program [[1; 2]; [3; 4]])) = Some u /\ stopped u /\ u_dead u = false /\ u_box u = [1; 2].
Proof. exists ex_ui_moves. eexists. split; [vm_compute; reflexivity|]. split; [reflexivity|]. split; reflexivity. Qed.
Definition ex_ui_ctrl : list move := [MMain; MPost 0; MLoop; MKey 2 KeyCtrlC; MTick; MPostUpdate; MLoop; MKey 0 KeyCtrlA; MLoop; MLoop; MKey 2 KeyCtrlL; MMain; MLoop; MTickerReturns; MMain; MPost 0; MMain; MLoop; MPost 0; MLoop; MMain].
Lemma pC110_ex : exists u, ui_run 2 ex_ui_ctrl (NewUI (program [[5; 6]])) = Some u /\ moment 2 [[5; 6]] u /\ stopped u /\ u_cancelled u = true /\ u_dead u = false /\ u_box u = [5; 6] /\
  Forall (fun mv => match mv with MPost i => i = 0%nat | _ => True end) ex_ui_ctrl /\ ui_run 1 [MKey 2 KeyCtrlA; MLoop; MLoop] (NewUI (program [])) = None /\ ui_step 1 (MKey 2 (KeyOther 7)) (NewUI (program [])) <> None.
Proof.
  eexists. split; [vm_compute; reflexivity|]. split; [exists ex_ui_ctrl; vm_compute; reflexivity|]. repeat (split; [reflexivity|]). split; [|split; [vm_compute; reflexivity|discriminate]].
  unfold ex_ui_ctrl. repeat (apply Forall_cons; [exact Logic.I || reflexivity|]). apply Forall_nil.
Qed.
