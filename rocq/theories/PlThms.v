(** * PlThms: reordering and the pipeline, C36-C40. *)
From Verif Require Import Base PbSpec TModel HLModel FrModel ZlModel TfModel IoModel NiModel RwModel WiModel RiModel PlModel PlSpec.
From Verif Require Import BaseLemmas FrSpec PlProofs PlProofs2.
From Verif Require FrThms FrProofs TfThms.

(** ** C36 *)
Lemma indexed_nodup {A} (idx : A -> Z) bs : indexed idx bs -> NoDup (map idx bs).
Proof. intros (E & _). rewrite E. apply zseq_nodup. Qed.
Lemma indexed_in {A} (idx : A -> Z) bs b : indexed idx bs -> In b bs -> 0 <= idx b < 2^64 - 1.
Proof. intros (E & L) I. apply (in_map idx) in I. rewrite E in I. apply zseq_in in I. unfold zlen in L. lia. Qed.
Lemma firstn_zseq m n : firstn m (zseq 0 n) = zseq 0 (Nat.min m n).
Proof.
  destruct (Nat.le_ge_cases m n) as [L|L].
  - rewrite Nat.min_l by exact L. replace n with (m + (n - m))%nat at 1 by lia. rewrite zseq_app. rewrite firstn_app, zseq_len, Nat.sub_diag, firstn_all2 by (rewrite zseq_len; lia). apply app_nil_r.
  - rewrite Nat.min_r by exact L. apply firstn_all2. rewrite zseq_len. exact L.
Qed.
Lemma nth_zseq n m z : nth_error (zseq 0 n) m = Some z -> z = Z.of_nat m.
Proof.
  unfold zseq. rewrite nth_error_map. destruct (nth_error (seq 0 n) m) as [k|] eqn:E; [|discriminate]. intros X. injection X as <-.
  assert (Hm : (m < List.length (seq 0 n))%nat) by (apply nth_error_Some; congruence). rewrite seq_length in Hm.
  apply (nth_error_nth _ _ 0%nat) in E. rewrite seq_nth in E by exact Hm. lia.
Qed.

(** C36.  After any part of the blocks has arrived, exactly the longest possible start of the
    sequence has been forwarded: all its blocks have arrived and the next one has not. *)
Lemma pC36_prompt : forall (B : Type) (idx : B -> Z) blocks arrived coming,
  indexed idx blocks -> Permutation (arrived ++ coming) blocks ->
  exists waiting next m, reorder_some idx arrived = Ok (waiting, next, firstn m blocks) /\
    (forall b, In b (firstn m blocks) -> In b arrived) /\
    (forall b, nth_error blocks m = Some b -> ~ In b arrived).
Proof.
  intros B idx blocks p q IX PP. pose proof (indexed_nodup _ _ IX) as ND.
  assert (NDp : NoDup (map idx p)) by (apply (app_nodup_l _ (map idx q)); rewrite <- map_app; eapply Permutation_NoDup; [apply Permutation_map; symmetry; exact PP|exact ND]).
  assert (INp : forall b, In b p -> In b blocks) by (intros b I; eapply Permutation_in; [exact PP|]; apply in_or_app; left; exact I).
  destruct (reorder_some_ok idx p NDp) as (rb & next & sent & E & Hn & S & P & Q); [intros b I; apply (indexed_in _ _ _ IX), INp, I|].
  assert (SI : forall b, In b sent -> In b p) by (intros b I; eapply Permutation_in; [exact P|]; apply in_or_app; left; exact I).
  assert (NL : (next <= List.length blocks)%nat).
  { pose proof (f_equal (@List.length Z) S) as X. rewrite map_length, zseq_len in X. apply Permutation_length in P. apply Permutation_length in PP. rewrite app_length in P, PP. lia. }
  assert (F : sent = firstn next blocks).
  { apply (same_by_index idx); [exact ND|intros b I; apply INp, SI, I|]. rewrite S. destruct IX as (-> & _). fold (zseq 0 (List.length blocks)). rewrite firstn_zseq, Nat.min_l by exact NL. reflexivity. }
  exists rb, (Z.of_nat next), next. rewrite E, F. split; [reflexivity|]. rewrite F in SI. split; [exact SI|]. intros b Eb I.
  assert (Ib : idx b = Z.of_nat next) by (apply (map_nth_error idx) in Eb; destruct IX as (E' & _); rewrite E' in Eb; eapply nth_zseq; exact Eb).
  assert (I' : In (idx b) (map idx (sent ++ rb))) by (apply in_map; eapply Permutation_in; [symmetry; exact P|exact I]).
  rewrite map_app, S in I'. apply in_app_or in I'. rewrite Ib in I'. destruct I' as [I'|I']; [apply zseq_in in I'; lia|exact (Q I')].
Qed.
(** C36.  Whatever the order in which the blocks arrive, each is forwarded once, in index
    order, and the check at the end passes. *)
Lemma pC36_in_order : forall (B : Type) (idx : B -> Z) blocks arrivals,
  indexed idx blocks -> Permutation arrivals blocks -> reorder idx arrivals = Ok blocks.
Proof.
  intros B idx blocks p IX PP.
  destruct (pC36_prompt B idx blocks p [] IX ltac:(rewrite app_nil_r; exact PP)) as (rb & next & m & E & H1 & H2).
  assert (Hm : (List.length blocks <= m)%nat).
  { destruct (Nat.le_gt_cases (List.length blocks) m) as [L|L]; [exact L|]. destruct (nth_error blocks m) as [b|] eqn:Eb; [|apply nth_error_None in Eb; exact Eb].
    exfalso. apply (H2 b eq_refl). eapply Permutation_in; [symmetry; exact PP|]. eapply nth_error_In. exact Eb. }
  rewrite firstn_all2 in E by exact Hm. pose proof (indexed_nodup _ _ IX) as ND.
  destruct (reorder_some_ok idx p) as (rb2 & next2 & sent2 & E2 & _ & _ & P & _).
  { eapply Permutation_NoDup; [apply Permutation_map; symmetry; exact PP|exact ND]. }
  { intros b I. apply (indexed_in _ _ _ IX). eapply Permutation_in; [exact PP|exact I]. }
  rewrite E in E2. injection E2 as E2 _ E3. rewrite <- E2, <- E3 in P. apply Permutation_length in P. apply Permutation_length in PP. rewrite app_length in P.
  unfold reorder. rewrite E. cbn [bind]. unfold zlen. destruct rb; [reflexivity|]. cbn [List.length] in P. lia.
Qed.
(** C36.  If the blocks received have different indexes and one is missing below some block
    received, the check at the end aborts. *)
Lemma pC36_missing : forall (B : Type) (idx : B -> Z) arrivals b k,
  NoDup (map idx arrivals) -> (forall b, In b arrivals -> 0 <= idx b < 2^64 - 1) ->
  In b arrivals -> 0 <= k < idx b -> ~ In k (map idx arrivals) ->
  reorder idx arrivals = Panic (PanicMsg "channel closed without all blocks processed").
Proof.
  intros B idx p b k ND R I K NK. destruct (reorder_some_ok idx p ND R) as (rb & next & sent & E & _ & S & P & _).
  unfold reorder. rewrite E. cbn [bind]. destruct rb as [|x rb]; [|unfold zlen; cbn [List.length]; destruct (Z.eqb_spec (Z.of_nat (Datatypes.S (List.length rb))) 0); [lia|reflexivity]].
  exfalso. apply NK. rewrite app_nil_r in P. eapply Permutation_in; [apply Permutation_map; exact P|]. rewrite S. apply zseq_in.
  assert (I' : In (idx b) (map idx sent)) by (apply in_map; eapply Permutation_in; [symmetry; exact P|exact I]). rewrite S in I'. apply zseq_in in I'. lia.
Qed.
Lemma pC36_ex :
  let blocks := [(0, 10); (1, 11); (2, 12)] in
  indexed fst blocks /\ Permutation [(2, 12); (0, 10); (1, 11)] blocks /\
  reorder fst [(2, 12); (0, 10); (1, 11)] = Ok blocks /\
  reorder fst [(2, 12); (0, 10)] = Panic (PanicMsg "channel closed without all blocks processed").
Proof.
  cbn zeta. split; [split; reflexivity|]. split; [|split; reflexivity]. apply (Permutation_cons_append [(0, 10); (1, 11)] (2, 12)).
Qed.

(** ** C37 *)
Lemma mapm_snoc {A B} (f : A -> res B) l a bs b : mapm f l = Ok bs -> f a = Ok b -> mapm f (l ++ [a]) = Ok (bs ++ [b]).
Proof. intros H1 H2. rewrite mapm_app, H1. cbn [bind mapm]. rewrite H2. reflexivity. Qed.
Lemma nth_indexed {A} (idx : A -> Z) bs a : indexed idx bs -> In a bs -> nth_error bs (Z.to_nat (idx a)) = Some a.
Proof.
  intros (E & _) I. apply In_nth_error in I. destruct I as (k & Ek). pose proof (map_nth_error idx _ _ Ek) as X. rewrite E in X. apply nth_zseq in X. rewrite X, Nat2Z.id. exact Ek.
Qed.
Lemma firstn_S_nth {A} (l : list A) k a : nth_error l k = Some a -> firstn (S k) l = firstn k l ++ [a].
Proof. revert l. induction k as [|k IH]; intros [|x l] E; cbn in *; try discriminate; [injection E as ->; reflexivity|]. f_equal. apply IH. exact E. Qed.
Lemma got_prefix {A B} (c : cfg A B) idx inp l : indexed idx inp -> keeps_index c idx inp -> map (c_index c) l = zseq 0 (List.length l) ->
  (forall b, In b l -> exists a, In a inp /\ c_work c a = Ok b) -> mapm (c_work c) (firstn (List.length l) inp) = Ok l.
Proof.
  intros IX KI. induction l as [|b l IH] using rev_ind; intros E H; [reflexivity|]. rewrite app_length in *. cbn [List.length] in *. replace (List.length l + 1)%nat with (S (List.length l)) in * by lia.
  rewrite zseq_snoc, map_app in E. apply app_inj_1 in E; [|rewrite map_length, zseq_len; reflexivity]. destruct E as (E1 & E2). cbn [map] in E2. injection E2 as E2.
  destruct (H b ltac:(apply in_or_app; right; left; reflexivity)) as (a & Ia & Ea). pose proof (KI a b Ia Ea) as K. pose proof (nth_indexed _ _ _ IX Ia) as N.
  rewrite <- K, E2, Nat2Z.id in N. rewrite (firstn_S_nth _ _ _ N). apply mapm_snoc; [apply IH; [exact E1|]|exact Ea]. intros x Hx. apply H, in_or_app. left. exact Hx.
Qed.

Section Pl.
  Context {A B : Type} (c : cfg A B) (idx : A -> Z) (inp : list A) (n : nat).
  Context (W : c_writer c = true) (IX : indexed idx inp) (KI : keeps_index c idx inp).
  Lemma the_inv s : reachable c inp n s -> inv c inp n s.
  Proof. apply (inv_reach c idx inp n); auto. Qed.
  Lemma out_from s b : inv c inp n s -> In b (sending (s_workers s) ++ s_rb s ++ hold (s_ro s) ++ s_got s) -> exists a, In a inp /\ c_work c a = Ok b.
  Proof.
    intros H I. apply (in_map (@Ok B)) in I. destruct (i_w _ _ _ _ H W) as (P & _). eapply Permutation_in in I; [|symmetry; exact P]. apply in_map_iff in I. destruct I as (a & E & I).
    exists a. split; [eapply mine_in; eassumption|exact E].
  Qed.
  Lemma got_idx s : inv c inp n s -> map (c_index c) (s_got s) = zseq 0 (List.length (s_got s)).
  Proof.
    intros H. destruct (i_w _ _ _ _ H W) as (_ & (m & _ & E & _) & _). rewrite map_app in E. pose proof (f_equal (@List.length Z) E) as L. rewrite app_length, zseq_len, map_length in L.
    assert (X : (List.length (s_got s) <= m)%nat) by lia. replace m with (List.length (s_got s) + (m - List.length (s_got s)))%nat in E by lia. rewrite zseq_app in E.
    apply app_inj_1 in E; [|rewrite map_length, zseq_len; reflexivity]. exact (proj1 E).
  Qed.
  Lemma the_prefix s : inv c inp n s -> mapm (c_work c) (firstn (List.length (s_got s)) inp) = Ok (s_got s).
  Proof.
    intros H. eapply got_prefix; [exact IX|exact KI|exact (got_idx s H)|]. intros b I. apply (out_from s); [exact H|]. rewrite !in_app_iff. tauto.
  Qed.
  (** at completion: what was written is what was sent *)
  Lemma the_end s : inv c inp n s -> s_phase s = PDone -> s_todo s = skipn (List.length (s_got s)) inp.
  Proof.
    intros H D. destruct (i_w _ _ _ _ H W) as (P & _ & _ & W4 & W5 & _). pose proof (i_late _ _ _ _ H) as L. rewrite D in *. cbn [late later] in *. specialize (L I). specialize (W5 I). destruct (W4 W5) as (R & _).
    rewrite R, W5, (done_sending _ L) in P. cbn [hold app] in P. destruct (i_todo _ _ _ _ H) as (pre & E & Q). rewrite (done_busy _ L), app_nil_r in Q.
    apply Permutation_length in P. rewrite !map_length in P. apply Permutation_length in Q. rewrite <- P, Q, E. rewrite skipn_app, skipn_all2 by lia. rewrite Nat.sub_diag. reflexivity.
  Qed.
End Pl.

(** C37.  In every state that any schedule of any number of workers can reach, what the
    writer has received is the sequential result of the first blocks of the file. *)
Lemma pC37_prefix : forall (A B : Type) (c : cfg A B) (idx : A -> Z) inp workers s,
  c_writer c = true -> indexed idx inp -> keeps_index c idx inp -> reachable c inp workers s ->
  exists m, mapm (c_work c) (firstn m inp) = Ok (s_got s).
Proof. intros A B c idx inp n s W IX KI R. eexists. eapply the_prefix; try eassumption. eapply the_inv; eassumption. Qed.
(** C37.  When the run completes without having been cancelled, the writer has received the
    sequential result of the whole file. *)
Lemma pC37_complete : forall (A B : Type) (c : cfg A B) (idx : A -> Z) inp workers s,
  c_writer c = true -> indexed idx inp -> keeps_index c idx inp -> reachable c inp workers s ->
  completed s -> s_cancelled s = false -> mapm (c_work c) inp = Ok (s_got s).
Proof.
  intros A B c idx inp n s W IX KI R (D & _) CN. pose proof (the_inv c idx inp n IX KI s R) as H. pose proof (the_end c inp n W s H D) as E. pose proof (the_prefix c idx inp n W IX KI s H) as P.
  destruct (i_read _ _ _ _ H ltac:(rewrite D; discriminate)) as [X|X]; [congruence|]. rewrite X in E. rewrite firstn_all2 in P; [exact P|]. apply (f_equal (@List.length A)) in E. rewrite skipn_length in E. cbn in E. lia.
Qed.
(** C37.  The reorderer never aborts; a run aborts only where sequential processing would:
    reading, working or writing panics. *)
Lemma pC37_no_abort : forall (A B : Type) (c : cfg A B) (idx : A -> Z) inp workers s,
  indexed idx inp -> keeps_index c idx inp -> reachable c inp workers s ->
  match s_crash s with
  | None => True
  | Some CrashRead => c_read_panics c = true
  | Some CrashWork => exists a p, In a inp /\ c_work c a = Panic p
  | Some CrashReorder => False
  | Some CrashWrite => c_write_panics c (s_got s) = true
  end.
Proof. intros A B c idx inp n s IX KI R. exact (i_crash _ _ _ _ (the_inv c idx inp n IX KI s R)). Qed.

(** ** C38 *)
Definition wt_w {A B} (w : worker A B) : nat := match w_pos w with WRecv => 1 | WBusy _ => 7 | WSend _ => 6 | WDone => 0 end.
Definition wt_ph (p : phase) : nat := match p with PRead => 4 | PWaitWorkers => 3 | PWaitReorder => 2 | PWaitWriter => 1 | PDone => 0 end.
Definition wt_ro {B} (r : rpos B) : nat := match r with ORecv => 1 | OFlush => 2 | OSend _ => 4 | ODone => 0 end.
Definition wt_wr (v : vpos) : nat := match v with VRecv => 1 | VBusy => 2 | VDone => 0 end.
Definition wt_ws {A B} (ws : list (worker A B)) : nat := list_sum (map wt_w ws).
Definition weight {A B} (s : st A B) : nat :=
  ((if s_cancelled s then 0 else 1) + (match s_crash s with None => 1 | Some _ => 0 end) + wt_ph (s_phase s) + 8 * List.length (s_todo s) + wt_ws (s_workers s) + wt_ro (s_ro s) +
   3 * List.length (s_rb s) + wt_wr (s_wr s))%nat.
Lemma ws_at {A B} (l : list (worker A B)) w r : wt_ws (l ++ w :: r) = (wt_ws l + wt_w w + wt_ws r)%nat.
Proof. unfold wt_ws. rewrite map_app, list_sum_app. cbn [map list_sum fold_right]. unfold list_sum. cbn [fold_right]. lia. Qed.
Lemma step_weight {A B} (c : cfg A B) s s' : step c s s' -> (weight s' < weight s)%nat.
Proof.
  intros ST. inversion ST; subst; unfold weight; cbn [s_cancelled s_phase s_todo s_workers s_ro s_rb s_next s_wr s_got s_crash wt_ph wt_ro wt_wr List.length]; rewrite ?ws_at; unfold wt_w; cbn [w_pos]; try lia.
  - destruct (c_writer c); lia.
  - pose proof (delete_len (c_index c) rb (c_index c b)) as X. unfold rb_put. cbn [List.length]. lia.
  - match goal with P : rb_pop _ _ _ = _ |- _ => apply pop_some in P; destruct P as (I & E & ->) end. rewrite <- E. pose proof (delete_len_lt (c_index c) rb b I). lia.
  - match goal with P : rb_pop _ _ _ = _ |- _ => apply pop_none in P; destruct P as (_ & ->) end. lia.
  - destruct (c_writer c); cbn [wt_ph]; lia.
Qed.
(** C38.  There is no infinite run: from the start, every schedule has at most this many
    steps, cancelled or not. *)
Lemma pC38_bounded : forall (A B : Type) (c : cfg A B) inp workers k s,
  steps c k (pl_init c inp workers) s -> (k <= 8 * List.length inp + workers + 8)%nat.
Proof.
  intros A B c inp n k s H. assert (X : forall k s s', steps c k s s' -> (k + weight s' <= weight s)%nat).
  { clear. intros k s s' H. induction H as [|k s s' s'' ST _ IH]; [lia|]. apply step_weight in ST. lia. }
  apply X in H. assert (E : wt_ws (repeat (@mkWk A B WRecv []) n) = n) by (clear; induction n as [|k IH]; [reflexivity|]; unfold wt_ws, list_sum in *; cbn [repeat map fold_right]; rewrite IH; reflexivity).
  unfold weight at 2, pl_init in H. cbn [s_cancelled s_phase s_todo s_workers s_ro s_rb s_next s_wr s_got s_crash wt_ph List.length] in H. rewrite E in H.
  destruct (c_writer c); cbn [wt_ro wt_wr] in H; lia.
Qed.
Definition wbusyb {A B} (w : worker A B) : bool := match w_pos w with WBusy _ => true | _ => false end.
Definition wrecvb {A B} (w : worker A B) : bool := match w_pos w with WRecv => true | _ => false end.
Definition wsendb {A B} (w : worker A B) : bool := match w_pos w with WSend _ => true | _ => false end.
Definition wdoneb {A B} (w : worker A B) : bool := match w_pos w with WDone => true | _ => false end.
Lemma exists_at {X} (p : X -> bool) l : (exists l1 x l2, l = l1 ++ x :: l2 /\ p x = true) \/ Forall (fun x => p x = false) l.
Proof.
  induction l as [|x l IH]; [right; constructor|]. destruct (p x) eqn:E; [left; exists [], x, l; auto|]. destruct IH as [(l1 & y & l2 & -> & H)|H]; [left; exists (x :: l1), y, l2; auto|right; constructor; assumption].
Qed.
(** the reorderer or the writer can move *)
Lemma back_moves {A B} (c : cfg A B) cn ph td ws ro rb nx wr gt : wr <> VDone -> ro = OFlush \/ (exists b, ro = OSend b) -> can_move c (mkSt cn ph td ws ro rb nx wr gt None).
Proof.
  intros NV [->|(b & ->)].
  - destruct (rb_pop (c_index c) rb nx) as [[b|] rb'] eqn:P; eexists; (split; [first [eapply step_pop; exact P|eapply step_flushed; exact P]|reflexivity]).
  - destruct wr; [|destruct (c_write_panics c gt) eqn:P|congruence]; eexists; (split; [first [eapply step_deliver|eapply step_write; exact P|eapply step_write_panic; exact P]|reflexivity]).
Qed.
Lemma work_moves {A B} (c : cfg A B) cn ph td l a m r ro rb nx wr gt : c_work c a <> Diverge -> can_move c (mkSt cn ph td (l ++ mkWk (WBusy a) m :: r) ro rb nx wr gt None).
Proof.
  intros D. destruct (c_work c a) as [b|p|] eqn:E; [| |congruence]; eexists; (split; [first [eapply step_work; exact E|eapply step_work_panic; exact E]|reflexivity]).
Qed.
(** C38.  In every state that can come up, with at least one worker, either the run has ended
    or some goroutine can move. *)
Lemma pC38_progress : forall (A B : Type) (c : cfg A B) (idx : A -> Z) inp workers s,
  (c_writer c = true -> indexed idx inp /\ keeps_index c idx inp) -> (forall a, In a inp -> c_work c a <> Diverge) -> (1 <= workers)%nat ->
  reachable c inp workers s -> ended s \/ can_move c s.
Proof.
  intros A B c idx inp n s HI ND N1 R. pose proof (inv_reach c idx inp n (fun W => proj1 (HI W)) (fun W => proj2 (HI W)) s R) as H. pose proof (i_todo _ _ _ _ H) as Ht. pose proof (i_len _ _ _ _ H) as Hl. pose proof (i_live _ _ _ _ H) as Hv.
  pose proof (i_w _ _ _ _ H) as Hw. pose proof (i_nw _ _ _ _ H) as Hn. clear H R.
  destruct s as [cn ph td ws ro rb nx wr gt cr]. cbn [s_cancelled s_phase s_todo s_workers s_ro s_rb s_next s_wr s_got s_crash] in *.
  destruct cr as [x|]; [left; right; discriminate|].
  assert (BUSY : (exists l w r, ws = l ++ w :: r /\ wbusyb w = true) -> can_move c (mkSt cn ph td ws ro rb nx wr gt None)).
  { intros (l & [p m] & r & -> & Bw). destruct p as [|a|b|]; try discriminate Bw. apply work_moves. apply ND. destruct Ht as (pre & -> & P). apply in_or_app. left. eapply Permutation_in; [exact P|].
    rewrite busy_at. unfold busy1. cbn [w_pos]. rewrite !in_app_iff. cbn [In]. tauto. }
  assert (SEND : ph = PRead \/ ph = PWaitWorkers -> (exists l w r, ws = l ++ w :: r /\ wsendb w = true) -> can_move c (mkSt cn ph td ws ro rb nx wr gt None)).
  { intros Hp (l & [p m] & r & -> & Bw). destruct p as [|a|b|]; try discriminate Bw.
    destruct (c_writer c) eqn:W; [|destruct (Hn eq_refl) as (_ & _ & _ & _ & X & _); rewrite sending_at in X; unfold sending1 in X; cbn [w_pos] in X; destruct (sending l); discriminate X].
    destruct (Hw eq_refl) as (_ & _ & _ & W4 & _ & W6 & _).
    destruct ro as [| |b'|].
    - eexists. split; [apply step_arrive|reflexivity].
    - apply back_moves; [|auto]. intros ->. specialize (W6 eq_refl). destruct Hp as [-> | ->]; exact W6.
    - apply back_moves; [|eauto]. intros ->. specialize (W6 eq_refl). destruct Hp as [-> | ->]; exact W6.
    - destruct (W4 eq_refl) as (_ & X). destruct Hp as [-> | ->]; destruct X. }
  destruct ph.
  - destruct td as [|a td]; [right; destruct (c_read_panics c) eqn:P; eexists; (split; [first [eapply step_read_end; exact P|eapply step_read_panic; exact P]|reflexivity])|].
    right. destruct (exists_at wrecvb ws) as [(l & [p m] & r & -> & Bw)|F1]; [destruct p; try discriminate Bw; eexists; split; [apply step_send|reflexivity]|].
    destruct (exists_at wbusyb ws) as [X|F2]; [apply BUSY; exact X|]. destruct (exists_at wsendb ws) as [X|F3]; [apply SEND; auto|].
    exfalso. destruct ws as [|w ws]; [cbn in Hl; lia|]. specialize (Hv eq_refl). inversion Hv; subst. inversion F1; subst. inversion F2; subst. inversion F3; subst. destruct w as [[] m]; unfold wdone in *; cbn in *; congruence.
  - right. destruct (exists_at wrecvb ws) as [(l & [p m] & r & -> & Bw)|F1]; [destruct p; try discriminate Bw; eexists; split; [apply step_work_end; discriminate|reflexivity]|].
    destruct (exists_at wbusyb ws) as [X|F2]; [apply BUSY; exact X|]. destruct (exists_at wsendb ws) as [X|F3]; [apply SEND; auto|].
    eexists. split; [apply step_workers_done|reflexivity]. rewrite Forall_forall in *. intros w I. specialize (F1 w I). specialize (F2 w I). specialize (F3 w I). destruct w as [[] m]; cbn in *; congruence.
  - right. destruct (c_writer c) eqn:W; [|destruct (Hn eq_refl) as (_ & _ & _ & _ & _ & X); specialize (X I); discriminate X].
    destruct (Hw eq_refl) as (_ & _ & _ & W4 & _ & W6 & _). assert (NV : wr <> VDone) by (intros X; exact (W6 X)).
    destruct ro as [| |b'|].
    + destruct rb; eexists; (split; [first [eapply step_reorder_end|eapply step_reorder_panic]|reflexivity]).
    + apply back_moves; auto.
    + apply back_moves; eauto.
    + eexists. split; [apply step_reorder_done|reflexivity].
  - right. destruct wr; [eexists; split; [apply step_write_end|reflexivity]| |eexists; split; [apply step_writer_done|reflexivity]].
    destruct (c_write_panics c gt) eqn:P; eexists; (split; [first [eapply step_write; exact P|eapply step_write_panic; exact P]|reflexivity]).
  - left. left. split; reflexivity.
Qed.
Lemma quiet_crash {A B} (c : cfg A B) idx inp n s : (c_writer c = true -> indexed idx inp /\ keeps_index c idx inp) -> no_panics c inp -> reachable c inp n s -> s_crash s = None.
Proof.
  intros HI (P1 & P2 & P3) R. pose proof (i_crash _ _ _ _ (inv_reach c idx inp n (fun W => proj1 (HI W)) (fun W => proj2 (HI W)) s R)) as X. unfold crash_ok in X.
  destruct (s_crash s) as [[]|]; [congruence| |destruct X|rewrite P2 in X; discriminate X|reflexivity]. destruct X as (a & p & I & E). destruct (P1 a I) as (b & E'). congruence.
Qed.
(** C38.  If nothing panics by itself, a run that cannot go on has completed ... *)
Lemma pC38_maximal : forall (A B : Type) (c : cfg A B) (idx : A -> Z) inp workers s,
  (c_writer c = true -> indexed idx inp /\ keeps_index c idx inp) -> no_panics c inp -> (1 <= workers)%nat ->
  reachable c inp workers s -> ~ can_move c s -> completed s.
Proof.
  intros A B c idx inp n s HI NP N1 R NM. destruct (pC38_progress A B c idx inp n s HI) as [[D|D]|D]; try assumption.
  - intros a I. destruct (proj1 NP a I) as (b & ->). discriminate.
  - exfalso. apply D. eapply quiet_crash; eassumption.
  - contradiction.
Qed.
(** C38.  ... and from every state that can come up, cancelled or not, completion is reached
    by letting the goroutines go on. *)
Lemma pC38_completes : forall (A B : Type) (c : cfg A B) (idx : A -> Z) inp workers s,
  (c_writer c = true -> indexed idx inp /\ keeps_index c idx inp) -> no_panics c inp -> (1 <= workers)%nat ->
  reachable c inp workers s ->
  exists k s', steps c k s s' /\ completed s' /\ s_cancelled s' = s_cancelled s.
Proof.
  intros A B c idx inp n s HI NP N1. remember (weight s) as w eqn:E. assert (L : (weight s <= w)%nat) by lia. clear E. revert s L.
  induction w as [|w IH]; intros s L R; (destruct (pC38_progress A B c idx inp n s HI) as [[D|D]|(s' & ST & CE)]; try assumption;
    [intros a I; destruct (proj1 NP a I) as (b & ->); discriminate|exists 0%nat, s; split; [constructor|]; split; [exact D|reflexivity]|exfalso; apply D; eapply quiet_crash; eassumption|]).
  - apply step_weight in ST. lia.
  - pose proof (step_weight c _ _ ST) as SW. destruct (IH s' ltac:(lia) (reach_step c inp n s s' R ST)) as (k & s2 & S2 & D2 & C2).
    exists (S k), s2. split; [econstructor; eassumption|]. split; [exact D2|congruence].
Qed.
(** C38.  With no worker at all the first block is never received: the run is stuck. *)
Lemma pC38_no_workers : forall (A B : Type) (c : cfg A B) a inp,
  ~ ended (pl_init c (a :: inp) 0) /\ ~ can_move c (pl_init c (a :: inp) 0).
Proof.
  intros A B c a inp. split.
  - intros [(D & _)|D]; [discriminate D|apply D; reflexivity].
  - intros (s' & ST & CE). unfold pl_init in ST. cbn [repeat] in ST. inversion ST; subst; cbn [s_cancelled pl_init] in CE; try discriminate CE;
      match goal with H : _ ++ _ :: _ = [] |- _ => apply app_eq_nil in H; destruct H as (_ & H); discriminate H | H : _ = (if c_writer c then _ else _) |- _ => destruct (c_writer c); discriminate H end.
Qed.

(** ** C39 *)
(** C39.  Whenever and however often the run was cancelled: at completion the writer has
    received, in order, the results of exactly the blocks handed to the workers, and these are
    the first blocks of the file. *)
Lemma pC39_prefix : forall (A B : Type) (c : cfg A B) (idx : A -> Z) inp workers s,
  c_writer c = true -> indexed idx inp -> keeps_index c idx inp -> reachable c inp workers s -> completed s ->
  exists m, mapm (c_work c) (firstn m inp) = Ok (s_got s) /\ s_todo s = skipn m inp.
Proof.
  intros A B c idx inp n s W IX KI R (D & _). pose proof (the_inv c idx inp n IX KI s R) as H. exists (List.length (s_got s)). split; [eapply the_prefix; eassumption|eapply the_end; eassumption].
Qed.
(** C39.  Once cancelled, the run still completes, whatever the state: by every schedule that
    goes on as long as it can (see C38_maximal; C38_bounded), and there is one. *)
Lemma pC39_shutdown : forall (A B : Type) (c : cfg A B) (idx : A -> Z) inp workers s,
  c_writer c = true -> indexed idx inp -> keeps_index c idx inp -> no_panics c inp -> (1 <= workers)%nat ->
  reachable c inp workers s -> s_cancelled s = true ->
  (exists k s', steps c k s s' /\ completed s') /\
  (forall k s', steps c k s s' -> (forall s2, ~ step c s' s2) -> completed s') /\
  (forall k s', steps c k s s' -> (k <= 8 * List.length inp + workers + 8)%nat).
Proof.
  intros A B c idx inp n s W IX KI NP N1 R CN.
  assert (RS : forall k s s', steps c k s s' -> reachable c inp n s -> reachable c inp n s') by (clear; intros k s s' H; induction H as [|k s s' s'' ST _ IH]; intros R; [exact R|apply IH; eapply reach_step; eassumption]).
  split; [|split].
  - destruct (pC38_completes A B c idx inp n s (fun _ => conj IX KI) NP N1 R) as (k & s' & S & D & _). eauto.
  - intros k s' S NS. eapply pC38_maximal; [intros _; split; eassumption|eassumption..|eapply RS; eassumption|]. intros (s2 & ST & _). exact (NS s2 ST).
  - intros k s' S.
    assert (SI : exists j, steps c j (pl_init c inp n) s).
    { clear - R. induction R as [|s s' R (j & IH) ST]; [exists 0%nat; constructor|]. exists (S j). clear R. induction IH as [s|j s0 s1 s2 ST0 _ IH]; [econstructor; [exact ST|constructor]|econstructor; [exact ST0|apply IH; exact ST]]. }
    destruct SI as (j & SI). assert (T : steps c (j + k) (pl_init c inp n) s') by (clear - SI S; induction SI as [|j s0 s1 s2 ST _ IH]; [exact S|cbn [Nat.add]; econstructor; [exact ST|apply IH; exact S]]).
    apply pC38_bounded in T. lia.
Qed.

(** ** C40 *)
(** C40.  Without a writer, when the run completes without having been cancelled, every block
    has been handled exactly once, by one worker. *)
Lemma pC40_once : forall (A B : Type) (c : cfg A B) inp workers s,
  c_writer c = false -> reachable c inp workers s -> completed s -> s_cancelled s = false ->
  Permutation (flat_map w_mine (s_workers s)) inp.
Proof.
  intros A B c inp n s W R (D & _) CN. pose proof (inv_reach c (fun _ => 0) inp n ltac:(congruence) ltac:(congruence) s R) as H.
  pose proof (i_late _ _ _ _ H) as L. rewrite D in L. specialize (L I). destruct (i_todo _ _ _ _ H) as (pre & E & P). rewrite (done_busy _ L), app_nil_r in P.
  destruct (i_read _ _ _ _ H ltac:(rewrite D; discriminate)) as [X|X]; [congruence|]. rewrite X, app_nil_r in E. subst pre. exact P.
Qed.
(** C40.  At every moment, cancelled or not, no block has been handled twice and none that is not
    in the file; those handled or being handled are the first ones of the file. *)
Lemma pC40_always : forall (A B : Type) (c : cfg A B) inp workers s,
  c_writer c = false -> reachable c inp workers s ->
  exists m, Permutation (flat_map w_mine (s_workers s) ++ flat_map (fun w => match w_pos w with WBusy a => [a] | _ => [] end) (s_workers s)) (firstn m inp).
Proof.
  intros A B c inp n s W R. pose proof (inv_reach c (fun _ => 0) inp n ltac:(congruence) ltac:(congruence) s R) as H.
  destruct (i_todo _ _ _ _ H) as (pre & E & P). exists (List.length pre). rewrite E, firstn_app, firstn_all, Nat.sub_diag. cbn [firstn]. rewrite app_nil_r. exact P.
Qed.

(** ** Examples *)
(** a file of three blocks, two workers, results that keep the index *)
Definition pl_ex (writer : bool) : cfg (Z * Z) (Z * Z) :=
  mkCfg (fun a => Ok (fst a, 10 * snd a)) fst writer (fun _ => false) false.
Definition pl_ex_in : list (Z * Z) := [(0, 5); (1, 6); (2, 7)].
Lemma pl_ex_ok writer : indexed fst pl_ex_in /\ keeps_index (pl_ex writer) fst pl_ex_in /\ no_panics (pl_ex writer) pl_ex_in.
Proof.
  split; [split; reflexivity|]. split; [intros a b _ E; injection E as <-; reflexivity|]. split; [intros a _; eexists; reflexivity|]. split; reflexivity.
Qed.
(** The second block can overtake the first; the writer has then received nothing. *)
Lemma pC37_ex :
  indexed fst pl_ex_in /\ keeps_index (pl_ex true) fst pl_ex_in /\ no_panics (pl_ex true) pl_ex_in /\
  (exists s, reachable (pl_ex true) pl_ex_in 2 s /\ s_rb s = [(1, 60)] /\ s_got s = []) /\
  (exists s, reachable (pl_ex true) pl_ex_in 2 s /\ completed s /\ s_cancelled s = false /\ s_got s = [(0, 50); (1, 60); (2, 70)]).
Proof.
  destruct (pl_ex_ok true) as (E1 & E2 & E3). split; [exact E1|]. split; [exact E2|]. split; [exact E3|]. split.
  - eexists. split; [|].
    + eapply reach_step; [eapply reach_step; [eapply reach_step; [eapply reach_step; [eapply reach_step; [apply reach_init|]|]|]|]|].
      * apply (step_send (pl_ex true) false (0, 5) [(1, 6); (2, 7)] [] [] [mkWk WRecv []]).
      * apply (step_send (pl_ex true) false (1, 6) [(2, 7)] [mkWk (WBusy (0, 5)) []] [] []).
      * apply (step_work (pl_ex true) false PRead [(2, 7)] [mkWk (WBusy (0, 5)) []] [] [] ORecv [] 0 VRecv [] (1, 6) (1, 60)). reflexivity.
      * apply (step_arrive (pl_ex true) false PRead [(2, 7)] [mkWk (WBusy (0, 5)) []] [(1, 6)] []).
      * eapply step_flushed. reflexivity.
    + split; reflexivity.
  - destruct (pC38_completes _ _ (pl_ex true) fst pl_ex_in 2 _ (fun _ => conj E1 E2) E3 ltac:(lia) (reach_init _ _ _)) as (k & s & S & D & C).
    assert (R : reachable (pl_ex true) pl_ex_in 2 s).
    { revert S. generalize (reach_init (pl_ex true) pl_ex_in 2). generalize (pl_init (pl_ex true) pl_ex_in 2). clear. intros s0 R S. induction S as [|k s s' s'' ST _ IH]; [exact R|apply IH; eapply reach_step; eassumption]. }
    exists s. split; [exact R|]. split; [exact D|]. split; [exact C|]. pose proof (pC37_complete _ _ (pl_ex true) fst pl_ex_in 2 s eq_refl E1 E2 R D C) as X. change (mapm (c_work (pl_ex true)) pl_ex_in) with (@Ok (list (Z * Z)) [(0, 50); (1, 60); (2, 70)]) in X. injection X as X. symmetry. exact X.
Qed.
(** Without a writer: the same file is handled, one block each by ... some worker. *)
Lemma pC40_ex : exists s, reachable (pl_ex false) pl_ex_in 2 s /\ completed s /\ s_cancelled s = false.
Proof.
  destruct (pl_ex_ok false) as (E1 & E2 & E3).
  destruct (pC38_completes _ _ (pl_ex false) fst pl_ex_in 2 _ (fun _ => conj E1 E2) E3 ltac:(lia) (reach_init _ _ _)) as (k & s & S & D & C). exists s. split; [|split; [exact D|exact C]].
  revert S. generalize (reach_init (pl_ex false) pl_ex_in 2). generalize (pl_init (pl_ex false) pl_ex_in 2). clear. intros s0 R S. induction S as [|k s s' s'' ST _ IH]; [exact R|apply IH; eapply reach_step; eassumption].
Qed.
Lemma todo_kept {A B} (c : cfg A B) k s s' : steps c k s s' -> s_phase s <> PRead -> s_todo s' = s_todo s.
Proof.
  assert (X : forall s s', step c s s' -> s_phase s <> PRead -> s_phase s' <> PRead /\ s_todo s' = s_todo s).
  { clear. intros s s' ST. inversion ST; subst; cbn [s_phase s_todo]; intros HP; split; try assumption; try reflexivity; try congruence. destruct (c_writer c); discriminate. }
  intros H. induction H as [|k s s' s'' ST _ IH]; intros P; [reflexivity|]. destruct (X _ _ ST P) as (P' & E). rewrite (IH P'). exact E.
Qed.
(** A cancelled run: one block of three was sent. *)
Lemma pC39_ex : exists s, reachable (pl_ex true) pl_ex_in 1 s /\ completed s /\ s_cancelled s = true /\ s_got s = [(0, 50)] /\ s_todo s = [(1, 6); (2, 7)].
Proof.
  destruct (pl_ex_ok true) as (E1 & E2 & E3).
  assert (R : reachable (pl_ex true) pl_ex_in 1 (mkSt true PWaitWorkers [(1, 6); (2, 7)] [mkWk (WBusy (0, 5)) []] ORecv [] 0 VRecv [] None)).
  { eapply reach_step; [eapply reach_step; [eapply reach_step; [apply reach_init|]|]|].
    - apply (step_send (pl_ex true) false (0, 5) [(1, 6); (2, 7)] [] [] []).
    - apply step_cancel.
    - apply step_read_cancelled. }
  destruct (pC38_completes _ _ (pl_ex true) fst pl_ex_in 1 _ (fun _ => conj E1 E2) E3 ltac:(lia) R) as (k & s & S & D & C).
  pose proof (todo_kept _ _ _ _ S ltac:(discriminate)) as T. cbn [s_todo] in T. exists s.
  assert (R2 : reachable (pl_ex true) pl_ex_in 1 s) by (revert S; revert R; generalize (mkSt true PWaitWorkers [(1, 6); (2, 7)] [mkWk (@WBusy (Z * Z) (Z * Z) (0, 5)) []] ORecv [] 0 VRecv [] None); clear; intros s0 R S; induction S as [|k s s' s'' ST _ IH]; [exact R|apply IH; eapply reach_step; eassumption]).
  split; [exact R2|]. split; [exact D|]. split; [exact C|]. split; [|exact T].
  destruct (pC39_prefix _ _ (pl_ex true) fst pl_ex_in 1 s eq_refl E1 E2 R2 D) as (m & X & Y). rewrite T in Y.
  destruct m as [|[|m]]; [discriminate Y| |apply (f_equal (@List.length (Z * Z))) in Y; rewrite skipn_length in Y; unfold pl_ex_in in Y; cbn [List.length] in Y; lia].
  change (mapm (c_work (pl_ex true)) (firstn 1 pl_ex_in)) with (@Ok (list (Z * Z)) [(0, 50)]) in X. injection X as X. symmetry. exact X.
Qed.

(** ** The tools

    What each tool's workers do with a block of the file, and where the message has its Index;
    [envs i] is the environment in which block [i] is decompressed. *)
Definition rw_cfg (envs : Z -> zenv) (ix : NodeSubIndex) (fin : bool) wp rp : cfg Block Block :=
  mkCfg (fun b => rw_worker (envs (blk_Index b)) ix fin b) blk_Index true wp rp.
Definition ni_cfg (envs : Z -> zenv) wp rp : cfg Block ni_msg :=
  mkCfg (fun b => ni_worker (envs (blk_Index b)) b) nm_Index true wp rp.
Definition wi_cfg (shift : Z) (envs : Z -> zenv) wp rp : cfg Block wi_msg :=
  mkCfg (fun b => wi_worker shift (envs (blk_Index b)) b) wm_Index true wp rp.
Definition ri_cfg (envs : Z -> zenv) wp rp : cfg Block ri_msg :=
  mkCfg (fun b => ri_worker (envs (blk_Index b)) b) rm_Index true wp rp.
(** The tag filter's worker keeps pendingNodes between blocks, but nodesToBuffer is 0 and it
    stays empty (TfThms.tf_step_pending). *)
Definition tf_cfg (envs : Z -> zenv) wp rp : cfg Block Block :=
  mkCfg (fun b => p <- tf_step (envs (blk_Index b)) [] b ;; Ok (snd p)) blk_Index true wp rp.
(** decompressor_worker.go:47-51: the block sent has the index of the block received *)
Definition dc_cfg (envs : Z -> zenv) wp rp : cfg Block (Z * list Z) :=
  mkCfg (fun b => out <- decompress_block (envs (blk_Index b)) b ;; Ok (blk_Index b, out)) fst true wp rp.
Definition with_env (envs : Z -> zenv) (bs : list Block) : list (zenv * Block) := map (fun b => (envs (blk_Index b), b)) bs.

(** C37.  The blocks of every file have the indexes 0, 1, 2, ... *)
Lemma pC37_file_indexed : forall file bs, bytes file -> zlen file < 2^63 -> read_file file = Ok bs -> indexed blk_Index bs.
Proof.
  intros file bs Hb Hl E. destruct (FrThms.pC35_total_and_exact file Hb Hl) as (_ & H). destruct (H bs E) as (blobs & C & S). pose proof (FrProofs.covers_len _ _ C) as L.
  assert (LE : List.length bs = List.length blobs) by (apply (f_equal (@List.length _)) in S; rewrite map_length, FrProofs.numbered_length in S; exact S).
  split; [|unfold zlen in *; lia]. apply (f_equal (map fst)) in S. rewrite map_map in S. unfold seen in S. cbn [fst] in S. rewrite LE. change (map blk_Index bs) with (map (fun x => blk_Index x) bs). rewrite S. unfold numbered. clear.
  assert (G : forall (X Y : Type) (a : list X) (b : list Y), List.length a = List.length b -> map fst (combine a b) = a) by (clear; intros X Y a; induction a as [|x a IH]; intros [|y b] H; cbn in *; try discriminate; [reflexivity|]; rewrite IH; [reflexivity|congruence]).
  apply G. rewrite map_length, seq_length. reflexivity.
Qed.
Ltac keep := intros a b _ E; cbn [c_work c_index] in *.
(** C37.  In every tool the worker keeps the index. *)
Lemma pC37_keeps : forall (envs : Z -> zenv) ix fin shift wpb wpn wpw wpr wpd rp bs,
  keeps_index (rw_cfg envs ix fin wpb rp) blk_Index bs /\ keeps_index (ni_cfg envs wpn rp) blk_Index bs /\
  keeps_index (wi_cfg shift envs wpw rp) blk_Index bs /\ keeps_index (ri_cfg envs wpr rp) blk_Index bs /\
  keeps_index (tf_cfg envs wpb rp) blk_Index bs /\ keeps_index (dc_cfg envs wpd rp) blk_Index bs.
Proof.
  intros envs ix fin shift wpb wpn wpw wpr wpd rp bs. repeat (split; [|]).
  - intros a b _ E. unfold rw_cfg in *. cbn [c_work c_index] in *. unfold rw_worker in E. destruct (negb _); [injection E as <-; reflexivity|].
    destruct (ReadBlob _ _); cbn [bind] in E; try discriminate E. destruct (GetRawData _ _); cbn [bind] in E; try discriminate E. destruct (ReadPrimitiveBlock _ _ _); cbn [bind] in E; try discriminate E.
    destruct (count_ways _ =? 0); [injection E as <-; reflexivity|]. destruct (rw_groups _ _ _ _) as [[gs z]| |]; cbn [bind] in E; try discriminate E. destruct (Blob_Write _ _); cbn [bind] in E; try discriminate E. injection E as <-. reflexivity.
  - intros a b _ E. unfold ni_cfg in *. cbn [c_work c_index] in *. unfold ni_worker in E. destruct (negb _); [injection E as <-; reflexivity|].
    destruct (ReadBlob _ _); cbn [bind] in E; try discriminate E. destruct (GetRawData _ _); cbn [bind] in E; try discriminate E. destruct (ReadPrimitiveBlock _ _ _); cbn [bind] in E; try discriminate E.
    destruct (ni_batch _); cbn [bind] in E; try discriminate E. injection E as <-. reflexivity.
  - intros a b _ E. unfold wi_cfg in *. cbn [c_work c_index] in *. unfold wi_worker in E. destruct (negb _); [injection E as <-; reflexivity|].
    destruct (ReadBlob _ _); cbn [bind] in E; try discriminate E. destruct (GetRawData _ _); cbn [bind] in E; try discriminate E. destruct (ReadPrimitiveBlock _ _ _); cbn [bind] in E; try discriminate E.
    destruct (wi_batch _ _); cbn [bind] in E; try discriminate E. injection E as <-. reflexivity.
  - intros a b _ E. unfold ri_cfg in *. cbn [c_work c_index] in *. unfold ri_worker in E. destruct (negb _); [injection E as <-; reflexivity|].
    destruct (ReadBlob _ _); cbn [bind] in E; try discriminate E. destruct (GetRawData _ _); cbn [bind] in E; try discriminate E. destruct (ReadPrimitiveBlock _ _ _); cbn [bind] in E; try discriminate E.
    destruct (ri_data _); cbn [bind] in E; try discriminate E. injection E as <-. reflexivity.
  - intros a b _ E. unfold tf_cfg in *. cbn [c_work c_index] in *. destruct (tf_step _ _ _) as [p| |] eqn:T; cbn [bind] in E; try discriminate E. injection E as <-. eapply TfThms.tf_step_index. exact T.
  - intros a b _ E. unfold dc_cfg in *. cbn [c_work c_index] in *. destruct (decompress_block _ _); cbn [bind] in E; try discriminate E. injection E as <-. reflexivity.
Qed.
Lemma mapm_map {A B C} (f : B -> res C) (g : A -> B) l : mapm f (map g l) = mapm (fun a => f (g a)) l.
Proof. induction l as [|a l IH]; [reflexivity|]. cbn [map mapm]. rewrite IH. reflexivity. Qed.
(** C37.  So for each tool, whatever the schedule and the number of workers, an uncancelled
    completed run over a file has the effect of the sequential functions about which the other
    properties are stated. *)
Lemma pC37_tools : forall envs file bs workers wpb wpn wpw wpr wpd rp,
  bytes file -> zlen file < 2^63 -> read_file file = Ok bs ->
  (forall ix fin s, reachable (rw_cfg envs ix fin wpb rp) bs workers s -> completed s -> s_cancelled s = false ->
     rw_pass envs ix fin file = (m <- MMapMap file ;; rewriter_writer (s_got s) [])) /\
  (forall o s, reachable (ni_cfg envs wpn rp) bs workers s -> completed s -> s_cancelled s = false ->
     ni_index o (with_env envs bs) = ni_output o (s_got s) w0) /\
  (forall o shift s, reachable (wi_cfg shift envs wpw rp) bs workers s -> completed s -> s_cancelled s = false ->
     wi_index o shift (with_env envs bs) = wi_output o shift (s_got s) w0) /\
  (forall s, reachable (ri_cfg envs wpr rp) bs workers s -> completed s -> s_cancelled s = false ->
     ri_init (with_env envs bs) = ri_write (s_got s) []) /\
  (forall s, reachable (tf_cfg envs wpb rp) bs workers s -> completed s -> s_cancelled s = false ->
     tf_worker (with_env envs bs) = Ok (s_got s)) /\
  (forall s, reachable (dc_cfg envs wpd rp) bs workers s -> completed s -> s_cancelled s = false ->
     decompress envs file = Ok (concat (map snd (s_got s)))).
Proof.
  intros envs file bs n wpb wpn wpw wpr wpd rp Hb Hl Hf. pose proof (pC37_file_indexed file bs Hb Hl Hf) as IX. unfold with_env.
  repeat (split; [|]).
  - intros ix fin s R D C. pose proof (pC37_complete _ _ (rw_cfg envs ix fin wpb rp) blk_Index bs n s eq_refl IX (proj1 (pC37_keeps envs ix fin 0 wpb wpn wpw wpr wpd rp bs)) R D C) as X. cbn [rw_cfg c_work] in X.
    unfold rw_pass, MMapMap. destruct file as [|f0 file]; [reflexivity|]. cbn [bind]. rewrite Hf. cbn [bind]. rewrite X. reflexivity.
  - intros o s R D C. destruct (pC37_keeps envs (mkNSI [] [] 0) false 0 wpb wpn wpw wpr wpd rp bs) as (_ & K & _). pose proof (pC37_complete _ _ (ni_cfg envs wpn rp) blk_Index bs n s eq_refl IX K R D C) as X. cbn [ni_cfg c_work] in X.
    unfold ni_index. rewrite mapm_map. cbn [fst snd]. rewrite X. reflexivity.
  - intros o shift s R D C. destruct (pC37_keeps envs (mkNSI [] [] 0) false shift wpb wpn wpw wpr wpd rp bs) as (_ & _ & K & _). pose proof (pC37_complete _ _ (wi_cfg shift envs wpw rp) blk_Index bs n s eq_refl IX K R D C) as X. cbn [wi_cfg c_work] in X.
    unfold wi_index. rewrite mapm_map. cbn [fst snd]. rewrite X. reflexivity.
  - intros s R D C. destruct (pC37_keeps envs (mkNSI [] [] 0) false 0 wpb wpn wpw wpr wpd rp bs) as (_ & _ & _ & K & _). pose proof (pC37_complete _ _ (ri_cfg envs wpr rp) blk_Index bs n s eq_refl IX K R D C) as X. cbn [ri_cfg c_work] in X.
    unfold ri_init. rewrite mapm_map. cbn [fst snd]. rewrite X. reflexivity.
  - intros s R D C. destruct (pC37_keeps envs (mkNSI [] [] 0) false 0 wpb wpn wpw wpr wpd rp bs) as (_ & _ & _ & _ & K & _). pose proof (pC37_complete _ _ (tf_cfg envs wpb rp) blk_Index bs n s eq_refl IX K R D C) as X. cbn [tf_cfg c_work] in X.
    unfold tf_worker. rewrite (proj2 (TfThms.tf_loop_ok (map (fun b => (envs (blk_Index b), b)) bs) [] ([], s_got s))); [reflexivity|].
    exists (s_got s). split; [reflexivity|]. revert X. clear. generalize (s_got s). induction bs as [|b bs IH]; intros ms X.
    + injection X as <-. constructor.
    + cbn [mapm map] in *. destruct (tf_step (envs (blk_Index b)) [] b) as [p| |] eqn:T; cbn [bind] in X; try discriminate X. destruct (mapm _ bs) as [ms2| |]; cbn [bind] in X; try discriminate X. injection X as <-.
      constructor; [|apply IH; reflexivity]. cbn [fst snd]. rewrite T. rewrite <- (TfThms.tf_step_pending _ _ _ T). destruct p; reflexivity.
  - intros s R D C. destruct (pC37_keeps envs (mkNSI [] [] 0) false 0 wpb wpn wpw wpr wpd rp bs) as (_ & _ & _ & _ & _ & K). pose proof (pC37_complete _ _ (dc_cfg envs wpd rp) blk_Index bs n s eq_refl IX K R D C) as X. cbn [dc_cfg c_work] in X.
    unfold decompress. rewrite Hf. cbn [bind]. revert X. generalize (s_got s). clear. intros got X.
    assert (Y : mapm (fun b => decompress_block (envs (blk_Index b)) b) bs = Ok (map snd got)).
    { revert got X. induction bs as [|b bs IH]; intros got X; cbn [mapm] in *; [injection X as <-; reflexivity|]. destruct (decompress_block _ _) as [out| |]; cbn [bind] in *; try discriminate X.
      destruct (mapm _ bs) as [ms2| |]; cbn [bind] in X; try discriminate X. injection X as <-. rewrite (IH ms2 eq_refl). reflexivity. }
    rewrite Y. reflexivity.
Qed.
