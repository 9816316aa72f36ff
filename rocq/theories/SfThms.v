(** * SfThms: C104, the status line of the workers of the tag filter. *)
From Verif Require Import Base PbModel TModel HLModel FrModel ZlModel IoModel NiModel WiModel RiModel RwModel TfModel TrModel TmModel PgModel SlModel SlSpec TfThms.
From Verif Require Import BaseLemmas SlProofs SlThms SrProofs SrThms.

Record tst : Type := mkTst { t_rec : status; t_p : nat; t_last : Z }.
Definition is_wait (d : deed) : bool := match d with Doing Waiting => true | _ => false end.
Definition t_next (st : tst) (d : deed) : tst :=
  mkTst (perform (t_rec st) d) (t_p st + (if is_wait d then 1 else 0)) (match d with Doing w => match number w with Some b => b | None => t_last st end | _ => t_last st end).
Section tf.
Context (bs : list (zenv * Block)).
Definition exactly (s : status) (k : nat) : Prop := s CKept = u64 (sum_of kept_in (firstn k bs)) /\ s CDropped = u64 (sum_of dropped_in (firstn k bs)).
Definition t_ok (st : tst) (ds : list deed) : Prop :=
  (t_rec st CBlock = t_last st \/ first_some (told_of number ds) = Some (t_rec st CBlock)) /\
  (exists k, (k = t_p st \/ S k = t_p st) /\ t_rec st CKept = u64 (sum_of kept_in (firstn k bs))) /\
  (exists k, (k = t_p st \/ S k = t_p st) /\ t_rec st CDropped = u64 (sum_of dropped_in (firstn k bs))).
Definition t_doing (st : tst) (w : work) : Prop :=
  t_rec st CBlock = match number w with Some b => b | None => t_last st end /\
  exactly (t_rec st) (counted w (t_p st + (if is_wait (Doing w) then 1 else 0))).
Fixpoint t_all (st : tst) (ds : list deed) : Prop :=
  t_ok st ds /\ match ds with [] => True | d :: r => (forall w, d = Doing w -> t_doing st w) /\ t_all (t_next st d) r end.

Lemma t_all_moment : forall ds st n, t_all st ds -> (n <= List.length ds)%nat -> let st' := fold_left t_next (firstn n ds) st in t_ok st' (skipn n ds).
Proof.
  induction ds as [|d ds IH]; intros st n A L; cbv zeta.
  - replace n with 0%nat by (cbn in L; lia). exact (proj1 A).
  - destruct n as [|n]; [exact (proj1 A)|]. cbn [firstn skipn fold_left]. apply (IH (t_next st d) n (proj2 (proj2 A))). cbn in L. lia.
Qed.
Lemma t_all_doing : forall before st w after, t_all st (before ++ Doing w :: after) -> t_doing (fold_left t_next before st) w.
Proof.
  induction before as [|d before IH]; intros st w after A.
  - exact (proj1 (proj2 A) w eq_refl).
  - apply (IH (t_next st d) w after). exact (proj2 (proj2 A)).
Qed.
Lemma t_rec_fold : forall ds st, t_rec (fold_left t_next ds st) = fold_left perform ds (t_rec st).
Proof. induction ds as [|d ds IH]; intros st; cbn [fold_left]; [reflexivity|]. rewrite IH. reflexivity. Qed.
Lemma t_p_fold : forall ds st, t_p (fold_left t_next ds st) = (t_p st + List.length (filter is_wait ds))%nat.
Proof.
  induction ds as [|d ds IH]; intros st; cbn [fold_left filter]; [cbn; lia|]. rewrite IH. unfold t_next. cbn [t_p]. destruct (is_wait d); cbn [List.length]; lia.
Qed.
Lemma t_last_fold : forall ds st, t_last (fold_left t_next ds st) = match first_some (rev (told_of number ds)) with Some b => b | None => t_last st end.
Proof.
  induction ds as [|d ds IH]; intros st; cbn [fold_left told_of]; [reflexivity|]. rewrite IH. unfold t_next. cbn [t_last]. destruct d as [c v|c v|w]; try reflexivity.
  destruct (number w) as [b|]; [|reflexivity]. cbn [rev]. destruct (rev (told_of number ds)); reflexivity.
Qed.

(** ** the worker *)
Definition t_idle (p : nat) (st : tst) : Prop := t_p st = p /\ exactly (t_rec st) p /\ t_rec st CBlock = t_last st.
Definition t_recv (p : nat) (st : tst) : Prop := t_p st = S p /\ exactly (t_rec st) p /\ t_rec st CBlock = t_last st.
Definition t_blk (p : nat) (b : Z) (st : tst) : Prop := t_recv p st /\ t_rec st CBlock = b.
Definition t_sum (p : nat) (b : Z) (st : tst) : Prop := t_idle (S p) st /\ t_rec st CBlock = b.
Lemma idle_ok : forall p st ds, t_idle p st -> t_ok st ds.
Proof. intros p st ds (P & [K D] & B). split; [left; exact B|]. split; exists p; (split; [left; congruence|assumption]). Qed.
Lemma recv_ok : forall p st ds, t_recv p st -> t_ok st ds.
Proof. intros p st ds (P & [K D] & B). split; [left; exact B|]. split; exists p; (split; [right; congruence|assumption]). Qed.
(** storing the state, and doing something else than waiting *)
Lemma state_keeps : forall st v, t_rec (t_next st (Store CState v)) CBlock = t_rec st CBlock /\ t_last (t_next st (Store CState v)) = t_last st /\
  t_p (t_next st (Store CState v)) = t_p st /\ (forall k, exactly (t_rec st) k -> exactly (t_rec (t_next st (Store CState v))) k).
Proof. intros st v. unfold t_next, exactly. cbn [t_rec t_p t_last perform cell_eqb is_wait]. repeat split; auto; try lia; tauto. Qed.
Lemma recv_state : forall p st v, t_recv p st -> t_recv p (t_next st (Store CState v)).
Proof. intros p st v (P & E & B). destruct (state_keeps st v) as (A1 & A2 & A3 & A4). split; [congruence|]. split; [apply A4, E|congruence]. Qed.
Lemma idle_state : forall p st v, t_idle p st -> t_idle p (t_next st (Store CState v)).
Proof. intros p st v (P & E & B). destruct (state_keeps st v) as (A1 & A2 & A3 & A4). split; [congruence|]. split; [apply A4, E|congruence]. Qed.
Lemma recv_does : forall p st w, t_recv p st -> w <> Waiting -> (number w = None \/ number w = Some (t_rec st CBlock)) -> counted w (S p) = p ->
  t_doing st w /\ t_recv p (t_next st (Doing w)).
Proof.
  intros p st w (P & E & B) W N C. assert (IW : is_wait (Doing w) = false) by (destruct w; try reflexivity; contradiction). split.
  - split; [destruct N as [-> | ->]; [exact B|reflexivity]|]. rewrite IW, Nat.add_0_r, P, C. exact E.
  - unfold t_recv, t_next. cbn [t_rec t_p t_last perform]. rewrite IW, Nat.add_0_r. split; [exact P|]. split; [exact E|]. destruct N as [-> | ->]; [exact B|reflexivity].
Qed.
Lemma sum_does : forall p st w, t_idle (S p) st -> w <> Waiting -> (number w = None \/ number w = Some (t_rec st CBlock)) -> counted w (S p) = S p ->
  t_doing st w /\ t_idle (S p) (t_next st (Doing w)).
Proof.
  intros p st w (P & E & B) W N C. assert (IW : is_wait (Doing w) = false) by (destruct w; try reflexivity; contradiction). split.
  - split; [destruct N as [-> | ->]; [exact B|reflexivity]|]. rewrite IW, Nat.add_0_r, P, C. exact E.
  - unfold t_idle, t_next. cbn [t_rec t_p t_last perform]. rewrite IW, Nat.add_0_r. split; [exact P|]. split; [exact E|]. destruct N as [-> | ->]; [exact B|reflexivity].
Qed.
Lemma sum_of_app : forall f a b, sum_of f (a ++ b) = sum_of f a + sum_of f b.
Proof. intros f a b. induction a as [|x a IH]; [reflexivity|]. cbn [app]. change (f x + sum_of f (a ++ b) = f x + sum_of f a + sum_of f b). lia. Qed.
Lemma count_fold : forall (q : HLNode -> bool) nodes k,
  fold_left (fun k node => if q node then u64 (k + 1) else k) nodes (u64 k) = u64 (k + zlen (filter q nodes)).
Proof.
  intros q nodes. induction nodes as [|x nodes IH]; intros k; cbn [fold_left filter].
  - change (zlen (@nil HLNode)) with 0. rewrite Z.add_0_r. reflexivity.
  - destruct (q x); [|apply IH]. rewrite u64_succ, IH. f_equal. unfold zlen. cbn [List.length]. lia.
Qed.
Lemma keeps_pos : forall node, (0 <? zlen (filter_tags (hn_Tags node))) = keeps_a_tag node.
Proof.
  intros node. unfold keeps_a_tag. pose proof (zlen_nonneg (filter_tags (hn_Tags node))). destruct (Z.ltb_spec 0 (zlen (filter_tags (hn_Tags node)))), (Z.eqb_spec (zlen (filter_tags (hn_Tags node))) 0); cbn; (reflexivity || lia).
Qed.
Lemma localKept_is : forall nodes, localKept nodes = u64 (zlen (filter keeps_a_tag nodes)).
Proof.
  intros nodes. unfold localKept. rewrite <- (Z.add_0_l (zlen _)), <- (count_fold keeps_a_tag nodes 0).
  assert (E : forall k, fold_left (fun k node => if 0 <? zlen (filter_tags (hn_Tags node)) then u64 (k + 1) else k) nodes k = fold_left (fun k node => if keeps_a_tag node then u64 (k + 1) else k) nodes k).
  { induction nodes as [|x nodes IH]; intros k; cbn [fold_left]; [reflexivity|]. rewrite keeps_pos. apply IH. }
  apply E.
Qed.
Lemma localDropped_is : forall nodes, localDropped nodes = u64 (zlen (filter (fun n => negb (keeps_a_tag n)) nodes)).
Proof.
  intros nodes. unfold localDropped. rewrite <- (Z.add_0_l (zlen _)), <- (count_fold (fun n => negb (keeps_a_tag n)) nodes 0).
  assert (E : forall k, fold_left (fun k node => if 0 <? zlen (filter_tags (hn_Tags node)) then k else u64 (k + 1)) nodes k = fold_left (fun k node => if negb (keeps_a_tag node) then u64 (k + 1) else k) nodes k).
  { induction nodes as [|x nodes IH]; intros k; cbn [fold_left]; [reflexivity|]. rewrite keeps_pos. destruct (keeps_a_tag x); cbn [negb]; apply IH. }
  apply E.
Qed.
Lemma u64_sum : forall a b, u64 (u64 a + u64 b) = u64 (a + b).
Proof. intros a b. unfold u64. rewrite <- Zplus_mod. reflexivity. Qed.
Lemma kept_in_is : forall x l, nodes_in x = l -> kept_in x = zlen (filter keeps_a_tag l).
Proof. intros x l <-. reflexivity. Qed.
Lemma dropped_in_is : forall x l, nodes_in x = l -> dropped_in x = zlen (filter (fun n => negb (keeps_a_tag n)) l).
Proof. intros x l <-. reflexivity. Qed.
Lemma firstn_one_more : forall (x : zenv * Block) p f, nth_error bs p = Some x -> sum_of f (firstn (S p) bs) = sum_of f (firstn p bs) + f x.
Proof.
  intros x p f H. apply nth_error_split in H. destruct H as (l1 & l2 & E & L). assert (FA : forall a c : list (zenv * Block), firstn (List.length a) (a ++ c) = a) by (intros a c; rewrite firstn_app, firstn_all, Nat.sub_diag, app_nil_r; reflexivity).
  assert (F1 : firstn p bs = l1) by (rewrite E, <- L; apply FA).
  assert (F2 : firstn (S p) bs = l1 ++ [x]) by (rewrite E; replace (S p) with (List.length (l1 ++ [x])) by (rewrite app_length; cbn; lia); replace (l1 ++ x :: l2) with ((l1 ++ [x]) ++ l2) by (rewrite <- app_assoc; reflexivity); apply FA).
  rewrite F1, F2, sum_of_app. change (sum_of f [x]) with (f x + 0). lia.
Qed.
Ltac t_tell := apply holds_tell; let st := fresh "st" in intros st rest H K;
  unfold sendBlock, tfSetStateDecoding, SetCurrentState, AddKept, AddDropped; cbn [app t_all].
Lemma t_silent : forall A (P : tst -> Prop) (r : res A), (forall st, P st -> t_ok st []) -> holds_in t_all P (silent r) (fun _ => P).
Proof. intros A P r G. apply holds_silent. intros st H. split; [exact (G st H)|exact I]. Qed.
Ltac not_doing := split; [let w := fresh "w" in let E := fresh "E" in intros w E; discriminate E|].
Ltac the_doing D := split; [let w := fresh "w" in let E := fresh "E" in intros w E; injection E as <-; exact D|].
Lemma tf_counts : forall p env pending data, nth_error bs p = Some (env, data) ->
  holds_in t_all (t_recv p) (tf_told env pending data) (fun _ => t_idle (S p)).
Proof.
  intros p env pending data NE. unfold tf_told. cbv zeta.
  pose proof (fun f => firstn_one_more (env, data) p f NE) as More.
  assert (NI : nodes_in (env, data) = nodes_in (env, data)) by reflexivity. unfold nodes_in at 2 in NI.
  destruct (negb (seqb (blk_Type data) tOSMData)) eqn:Ty.
  - refine (holds_bind _ _ _ _ (fun _ => t_idle (S p)) _ _ _ _ _).
    { t_tell. pose proof (recv_state p st tfWriting H) as H1. destruct (recv_does p _ (Passing (blk_Index data)) H1) as [D H2]; [discriminate|left; reflexivity|cbn; lia|].
      split; [exact (recv_ok _ _ _ H)|]. not_doing. split; [exact (recv_ok _ _ _ H1)|]. the_doing D. split; [exact (recv_ok _ _ _ H2)|]. not_doing. apply K.
      pose proof (recv_state p _ tfReading H2) as (P & E & B). split; [exact P|]. split; [|exact B].
      destruct E as [E1 E2]. split; [rewrite E1, More, (kept_in_is _ _ NI)|rewrite E2, More, (dropped_in_is _ _ NI)]; cbn [filter]; change (zlen (@nil HLNode)) with 0; rewrite Z.add_0_r; reflexivity. }
    intros _ _. apply holds_ok. auto.
  - assert (BO : forall st, t_blk p (blk_Index data) st -> t_ok st []) by (intros st H; exact (recv_ok _ _ _ (proj1 H))).
    refine (holds_bind _ _ _ _ (fun _ => t_blk p (blk_Index data)) _ _ _ _ _).
    { t_tell. split; [exact (recv_ok _ _ _ H)|]. not_doing. destruct H as (P & E & B).
      assert (O1 : forall st1, (st1 = t_next st (Store CBlock (blk_Index data)) \/ st1 = t_next (t_next st (Store CBlock (blk_Index data))) (Store CState tfDecoding)) ->
        t_ok st1 (Doing (Decoding (blk_Index data)) :: rest) /\ t_p st1 = S p /\ exactly (t_rec st1) p /\ t_rec st1 CBlock = blk_Index data).
      { intros st1 Q. assert (Q1 : t_p st1 = S p /\ exactly (t_rec st1) p /\ t_rec st1 CBlock = blk_Index data).
        { destruct Q as [-> | ->]; unfold t_next, exactly in *; cbn [t_rec t_p t_last perform cell_eqb is_wait]; rewrite ?Nat.add_0_r; auto. }
        split; [|exact Q1]. destruct Q1 as (Q1 & [Q2 Q3] & Q4). split; [right; cbn [told_of number first_some]; rewrite Q4; reflexivity|]. split; exists p; (split; [right; congruence|assumption]). }
      destruct (O1 _ (or_introl eq_refl)) as (O2 & _). destruct (O1 _ (or_intror eq_refl)) as (O3 & Q1 & Q2 & Q3).
      split; [exact O2|]. not_doing. split; [exact O3|]. set (st2 := t_next (t_next st (Store CBlock (blk_Index data))) (Store CState tfDecoding)) in *. clearbody st2.
      assert (D : t_doing st2 (Decoding (blk_Index data))). { split; [exact Q3|]. cbn [is_wait]. rewrite Nat.add_0_r, Q1. cbn [counted Nat.sub]. rewrite Nat.sub_0_r. exact Q2. }
      the_doing D. apply K. split; [|exact Q3]. split; [unfold t_next; cbn [t_p is_wait]; lia|]. split; [exact Q2|exact Q3]. }
    intros _ _. refine (holds_bind _ _ _ _ _ _ _ _ (t_silent _ _ _ BO) _). intros b Eb. cbn [silent snd] in Eb.
    refine (holds_bind _ _ _ _ _ _ _ _ (t_silent _ _ _ BO) _). intros raw Er. cbn [silent snd] in Er.
    refine (holds_bind _ _ _ _ _ _ _ _ (t_silent _ _ _ BO) _). intros pb Ep. cbn [silent snd] in Ep.
    refine (holds_bind _ _ _ _ (fun _ => t_blk p (blk_Index data)) _ _ _ _ _).
    { t_tell. destruct H as [H B]. pose proof (recv_state p st tfWorking H) as H1.
      destruct (recv_does p _ (Processing (blk_Index data)) H1) as [D H2]; [discriminate|right; cbn [number]; rewrite <- B; reflexivity|cbn; lia|].
      split; [exact (recv_ok _ _ _ H)|]. not_doing. split; [exact (recv_ok _ _ _ H1)|]. the_doing D. apply K. split; [exact H2|exact B]. }
    intros _ _. refine (holds_bind _ _ _ _ _ _ _ _ (t_silent _ _ _ BO) _). intros nodes En. cbn [silent snd] in En.
    rewrite Eb in NI. cbn [bind] in NI. rewrite Er in NI. cbn [bind] in NI. rewrite Ep in NI. cbn [bind] in NI. rewrite En in NI.
    refine (holds_bind _ _ _ _ _ _ _ _ (t_silent _ _ _ BO) _). intros ws _.
    refine (holds_bind _ _ _ _ _ _ _ _ (t_silent _ _ _ BO) _). intros rs _.
    refine (holds_bind _ _ _ _ (fun _ => t_sum p (blk_Index data)) _ _ _ _ _).
    { t_tell. destruct H as [H B]. split; [exact (recv_ok _ _ _ H)|]. not_doing. destruct H as (P & [E1 E2] & L).
      assert (K1 : u64 (t_rec st CKept + localKept nodes) = u64 (sum_of kept_in (firstn (S p) bs))).
      { rewrite E1, localKept_is, u64_sum, More, (kept_in_is _ _ NI). reflexivity. }
      assert (K2 : u64 (t_rec st CDropped + localDropped nodes) = u64 (sum_of dropped_in (firstn (S p) bs))).
      { rewrite E2, localDropped_is, u64_sum, More, (dropped_in_is _ _ NI). reflexivity. }
      split.
      - unfold t_next. cbn [t_rec t_p t_last perform cell_eqb is_wait]. split; [left; exact L|]. cbn [t_rec t_p t_last perform cell_eqb]. rewrite Nat.add_0_r.
        split; [exists (S p); split; [left; congruence|exact K1]|exists p; split; [right; congruence|exact E2]].
      - not_doing. apply K. unfold t_next. cbn [t_rec t_p t_last perform cell_eqb is_wait]. split; [|exact B]. split; [cbn [t_p]; lia|]. split; [split; [exact K1|exact K2]|exact L]. }
    intros _ _. assert (SO : forall st, t_sum p (blk_Index data) st -> t_ok st []) by (intros st H; exact (idle_ok _ _ _ (proj1 H))).
    assert (SendD : holds_in t_all (t_sum p (blk_Index data)) (tell (sendBlock (Sending (blk_Index data)))) (fun _ => t_idle (S p))).
    { t_tell. destruct H as [H B]. pose proof (idle_state (S p) st tfWriting H) as H1.
      destruct (sum_does p _ (Sending (blk_Index data)) H1) as [D H2]; [discriminate|right; cbn [number]; rewrite <- B; reflexivity|reflexivity|].
      split; [exact (idle_ok _ _ _ H)|]. not_doing. split; [exact (idle_ok _ _ _ H1)|]. the_doing D. split; [exact (idle_ok _ _ _ H2)|]. not_doing. apply K. apply idle_state. exact H2. }
    destruct (_ || _ || _).
    + refine (holds_bind _ _ _ _ _ _ _ _ (t_silent _ _ _ SO) _). intros pbOut _.
      refine (holds_bind _ _ _ _ (fun _ => t_sum p (blk_Index data)) _ _ _ _ _).
      { t_tell. destruct H as [H B]. pose proof (idle_state (S p) st tfEncoding H) as H1.
        destruct (sum_does p _ (Encoding (blk_Index data)) H1) as [D H2]; [discriminate|right; cbn [number]; rewrite <- B; reflexivity|reflexivity|].
        split; [exact (idle_ok _ _ _ H)|]. not_doing. split; [exact (idle_ok _ _ _ H1)|]. the_doing D. apply K. split; [exact H2|exact B]. }
      intros _ _. refine (holds_bind _ _ _ _ _ _ _ _ (t_silent _ _ _ SO) _). intros out _.
      refine (holds_bind _ _ _ _ _ _ _ _ SendD _). intros _ _. apply holds_ok. auto.
    + refine (holds_bind _ _ _ _ _ _ _ _ SendD _). intros _ _. apply holds_ok. auto.
Qed.
Lemma tf_serve_counts : forall l done pending sent, bs = done ++ l ->
  holds_in t_all (t_idle (List.length done)) (tf_serve pending l sent) (fun _ st => exists p, t_recv p st).
Proof.
  induction l as [|[env data] l IH]; intros done pending sent E; cbn [tf_serve].
  - refine (holds_bind _ _ _ _ (fun _ => t_recv (List.length done)) _ _ _ _ _).
    { t_tell. split; [exact (idle_ok _ _ _ H)|]. destruct H as (P & X & B). split.
      - intros w Q. injection Q as <-. split; [exact B|]. cbn [is_wait counted]. rewrite P. replace (List.length done + 1 - 1)%nat with (List.length done) by lia. exact X.
      - apply K. unfold t_next. cbn [t_rec t_p t_last perform is_wait]. split; [cbn [t_p]; lia|]. split; [exact X|exact B]. }
    intros _ _. apply holds_ok. intros st H. exists (List.length done). exact H.
  - refine (holds_bind _ _ _ _ (fun _ => t_recv (List.length done)) _ _ _ _ _).
    { t_tell. split; [exact (idle_ok _ _ _ H)|]. destruct H as (P & X & B). split.
      - intros w Q. injection Q as <-. split; [exact B|]. cbn [is_wait counted]. rewrite P. replace (List.length done + 1 - 1)%nat with (List.length done) by lia. exact X.
      - apply K. unfold t_next. cbn [t_rec t_p t_last perform is_wait]. split; [cbn [t_p]; lia|]. split; [exact X|exact B]. }
    intros _ _. refine (holds_bind _ _ _ _ _ _ _ _ (tf_counts (List.length done) env pending data _) _).
    { rewrite E, nth_error_app2 by lia. rewrite Nat.sub_diag. reflexivity. }
    intros [p msg] _. replace (S (List.length done)) with (List.length (done ++ [(env, data)])) by (rewrite app_length; cbn; lia).
    apply IH. rewrite <- app_assoc. exact E.
Qed.
Lemma tf_all : t_all (mkTst status0 0 0) (fst (tf_worker_told bs)).
Proof.
  apply (holds_deeds t_all _ (t_idle 0) (fun st => exists p, t_recv p st)).
  - unfold tf_worker_told. refine (holds_bind _ _ _ _ _ _ _ _ (tf_serve_counts bs [] [] [] eq_refl) _). intros [p s] _.
    apply t_silent. intros st [q H]. exact (recv_ok _ _ _ H).
  - split; [reflexivity|]. split; [split; reflexivity|reflexivity].
  - intros st [p H]. split; [exact (recv_ok _ _ _ H)|exact I].
Qed.
End tf.

(** ** the lines *)
Lemma tf_words : forall inBlocks, tracks (f_word tf_word) tf_phase on_always false status0 None (fst (tf_worker_told inBlocks)).
Proof.
  intros inBlocks.
  assert (W : keeps (f_word tf_word) tf_phase on_always idle_phase (tell [Doing Waiting]) (fun _ => at_phase 0 waiting_word)).
  { apply wait_phase; [reflexivity|]. intros s H. unfold tf_phase. rewrite H. reflexivity. }
  assert (G : forall l pending sent, keeps (f_word tf_word) tf_phase on_always idle_phase (tf_serve pending l sent) (fun _ => at_phase 0 waiting_word)).
  { induction l as [|[env data] l IH]; intros pending sent; cbn [tf_serve].
    - refine (keeps_bind _ _ _ _ _ _ _ _ _ _ W _). intros _ _. apply keeps_ok. auto.
    - refine (keeps_bind _ _ _ _ _ _ _ _ _ _ W _). intros _ _. refine (keeps_bind _ _ _ _ _ _ _ _ _ _ (tf_phases env pending data) _). intros [p msg] _. apply IH. }
  apply (keeps_tracks _ _ _ _ idle_phase (at_phase 0 waiting_word)).
  - unfold tf_worker_told. refine (keeps_bind _ _ _ _ _ _ _ _ _ _ (G inBlocks [] []) _). intros [p s] _. apply keeps_silent; [|auto].
    intros b st l [H ->] _. unfold tf_phase. rewrite H. reflexivity.
  - reflexivity.
  - intros b st l [H ->] _. unfold tf_phase. rewrite H. reflexivity.
Qed.
Lemma tf_widget_states : forall s, tf_phase (fun _ => s) <> ""%string ->
  exists k, tf_worker_widget = Load CState k /\
  (s = 0 /\ tf_phase (fun _ => s) = waiting_word /\ k s = Show (Text (bytes_of waiting_word)) \/
   s <> 0 /\ tf_phase (fun _ => s) <> waiting_word /\
     k s = Load CBlock (fun b => Load CKept (fun a => Load CDropped (fun d => Show (Text (tf_text (tf_phase (fun _ => s)) b a d)))))).
Proof.
  intros s H. eexists. split; [reflexivity|]. cbv beta. unfold tf_phase, tfReading, tfDecoding, tfWorking, tfEncoding, tfWriting in *.
  destruct (Z.eqb_spec s 0) as [E0|N0]; [left; repeat split; exact E0|]. right. split; [exact N0|].
  destruct (Z.eqb_spec s 1) as [E1|N1]; [split; [discriminate|reflexivity]|].
  destruct (Z.eqb_spec s 2) as [E2|N2]; [split; [discriminate|reflexivity]|].
  destruct (Z.eqb_spec s 3) as [E3|N3]; [split; [discriminate|reflexivity]|].
  destruct (Z.eqb_spec s 4) as [E4|N4]; [split; [discriminate|reflexivity]|]. exfalso. apply H. reflexivity.
Qed.
Lemma tf_word_ok : forall w, tf_word w <> ""%string. Proof. destruct w; discriminate. Qed.
Lemma t_at : forall ds n, let st := fold_left t_next (firstn n ds) (mkTst status0 0 0) in
  t_rec st = status_at ds n /\ t_p st = waits ds n /\ t_last st = last_number ds n.
Proof.
  intros ds n st. unfold st. rewrite t_rec_fold, t_p_fold, t_last_fold. split; [reflexivity|]. split; [|reflexivity]. cbn [t_p]. reflexivity.
Qed.
(** C104, partial.  The line about a worker of the tag filter, for all blocks.  If it is made while the worker is doing something (and does not get on with it), it
    says what the worker is doing, and unless it waits the number of the block that was begun last, and how many nodes were kept (for a tag) and
    dropped, of the blocks that have been processed.  In any case the words are right for some moment while the line was made, and each of the numbers
    for some later moment: a block that was begun last or is begun next; the nodes of all blocks before the one at work, with or without those of the latter.
    Missing: a block that is not OSMData is shown with the number of the block begun before it (see C104_passing_refuted). *)
Lemma pC104_tagfilter_partial : forall inBlocks, let ds := fst (tf_worker_told inBlocks) in
  let kept k := u64 (sum_of kept_in (firstn k inBlocks)) in
  let dropped k := u64 (sum_of dropped_in (firstn k inBlocks)) in
  (forall n w l, doing ds n w -> (look ds n tf_worker_widget n l <->
     l = Text (tf_text (tf_word w) (last_number ds n) (kept (counted w (waits ds n))) (dropped (counted w (waits ds n)))))) /\
  (forall m m' l, look ds m tf_worker_widget m' l -> exists i v, (m <= i <= m')%nat /\ about (f_word tf_word) ds i v /\
    (v = waiting_word /\ l = Text (bytes_of v) \/
     exists jb jk jd b k d, (i <= jb <= jk)%nat /\ (jk <= jd <= m')%nat /\ v <> waiting_word /\
       (b = last_number ds jb \/ first_some (told_of number (skipn jb ds)) = Some b) /\
       (k = waits ds jk \/ S k = waits ds jk) /\ (d = waits ds jd \/ S d = waits ds jd) /\ l = Text (tf_text v b (kept k) (dropped d)))).
Proof.
  intros inBlocks ds kept dropped. pose proof (tf_words inBlocks) as TP. pose proof (tf_all inBlocks) as TA.
  change (fst (tf_worker_told inBlocks)) with ds in TP, TA. split.
  - intros n w l D. pose proof (doing_le _ _ _ D) as Ln.
    pose proof (tracks_doing _ _ _ ds n w (tf_word w) TP D eq_refl) as P. cbv beta in P.
    assert (Ok_ : tf_phase (fun _ => status_at ds n CState) <> ""%string) by (change (tf_phase (status_at ds n) <> ""%string); rewrite P; apply tf_word_ok).
    destruct (tf_widget_states (status_at ds n CState) Ok_) as (k & K & C). rewrite K.
    change (tf_phase (fun _ => status_at ds n CState)) with (tf_phase (status_at ds n)) in C. rewrite P in C.
    assert (Down : forall c (k' : Z -> update) x, (look ds n (k' (status_at ds n c)) n l <-> l = x) -> (look ds n (Load c k') n l <-> l = x)).
    { intros c k' x U. rewrite <- U. split.
      - intros L. apply look_load_inv in L. destruct L as (n' & Ln' & L). assert (n' = n) as -> by (pose proof (look_le _ _ _ _ _ L); lia). exact L.
      - intros L. apply (look_load ds n n n c k'); [lia|exact L]. }
    assert (Leaf : forall x, look ds n (Show x) n l <-> l = x).
    { intros x. split; [intros L; apply look_show_inv in L; exact (proj2 L)|intros ->; apply look_show]. }
    apply Down. destruct C as [(S0 & W & ->)|(N0 & W0 & ->)].
    + rewrite Leaf. unfold tf_text. rewrite W, String.eqb_refl, app_nil_r. reflexivity.
    + apply Down, Down, Down. rewrite Leaf.
      assert (Q : status_at ds n CBlock = last_number ds n /\ exactly inBlocks (status_at ds n) (counted w (waits ds n))).
      { destruct (t_at ds n) as (A1 & A2 & A3). rewrite <- A2, <- A3. destruct D as (before & after & E & Nn).
        assert (F : firstn n ds = before ++ [Doing w]).
        { rewrite E, Nn. replace (before ++ Doing w :: after) with ((before ++ [Doing w]) ++ after) by (rewrite <- app_assoc; reflexivity).
          replace (S (List.length before)) with (List.length (before ++ [Doing w])) by (rewrite app_length; cbn; lia).
          rewrite firstn_app, firstn_all, Nat.sub_diag, app_nil_r. reflexivity. }
        unfold status_at. rewrite F in *. rewrite E in TA. pose proof (t_all_doing inBlocks before _ w after TA) as [B X].
        rewrite fold_left_app. cbn [fold_left t_next t_last t_p]. rewrite fold_left_app. cbn [fold_left perform].
        rewrite t_rec_fold in B, X. cbn [t_rec] in B, X. split; [exact B|exact X]. }
      destruct Q as (Q1 & Q2 & Q3). rewrite Q1, Q2, Q3. reflexivity.
  - intros m m' l L. assert (exists k, tf_worker_widget = Load CState k) as [k0 K0] by (eexists; reflexivity). rewrite K0 in L.
    apply look_load_inv in L. destruct L as (i & Li & L).
    assert (A : about (f_word tf_word) ds i (tf_phase (status_at ds i))).
    { apply (tracks_about _ _ _ ds i TP); [lia|]. exists i. split; [lia|reflexivity]. }
    pose proof (about_word_ok _ _ _ _ tf_word_ok A) as Ok_. destruct (tf_widget_states (status_at ds i CState) Ok_) as (k & K & C). rewrite K0 in K. injection K as <-.
    change (tf_phase (fun _ => status_at ds i CState)) with (tf_phase (status_at ds i)) in C. pose proof (look_le _ _ _ _ _ L) as Le.
    exists i, (tf_phase (status_at ds i)). split; [lia|]. split; [exact A|].
    assert (M : forall j, (j <= List.length ds)%nat -> (status_at ds j CBlock = last_number ds j \/ first_some (told_of number (skipn j ds)) = Some (status_at ds j CBlock)) /\
      (exists k, (k = waits ds j \/ S k = waits ds j) /\ status_at ds j CKept = kept k) /\ (exists k, (k = waits ds j \/ S k = waits ds j) /\ status_at ds j CDropped = dropped k)).
    { intros j Lj. pose proof (t_all_moment inBlocks ds _ j TA Lj) as T. cbv zeta in T. destruct (t_at ds j) as (A1 & A2 & A3). unfold t_ok in T. rewrite A1, A2, A3 in T. exact T. }
    destruct C as [(S0 & W & C)|(N0 & W0 & C)]; rewrite C in L.
    + left. apply look_show_inv in L. rewrite W. split; [reflexivity|exact (proj2 L)].
    + right. apply look_load_inv in L. destruct L as (jb & La & L). apply look_load_inv in L. destruct L as (jk & Lx & L). apply look_load_inv in L. destruct L as (jd & Lb & L).
      apply look_show_inv in L. destruct L as [-> ->].
      destruct (M jb ltac:(lia)) as (M1 & _). destruct (M jk ltac:(lia)) as (_ & (k & M2 & M3) & _). destruct (M jd ltac:(lia)) as (_ & _ & (d & M4 & M5)).
      exists jb, jk, jd, (status_at ds jb CBlock), k, d. split; [lia|]. split; [lia|]. split; [exact W0|]. split; [exact M1|]. split; [exact M2|]. split; [exact M4|].
      rewrite M3, M5. reflexivity.
Qed.
(** C104.  The two counts: every node is in one of them, and those kept are those that the block that is sent is made from. *)
Lemma pC104_counts : forall x, kept_in x + dropped_in x = zlen (nodes_in x) /\ kept_in x = zlen (filter_nodes (nodes_in x)).
Proof.
  intros x. unfold kept_in, dropped_in. generalize (nodes_in x). clear x. induction l as [|n l [IH1 IH2]]; [split; reflexivity|]. cbn [filter filter_nodes].
  assert (C : forall A (a : A) r, zlen (a :: r) = 1 + zlen r) by (intros A a r; unfold zlen; cbn [List.length]; lia).
  cbv zeta. rewrite keeps_pos. destruct (keeps_a_tag n); cbn [negb]; rewrite !C; split; lia.
Qed.

Definition ex_tf_blocks : list (zenv * Block) := [(ex_env, ex_tf_block); (ex_env, mkBlk 8 (exact [1]) (bytes_of "OSMHeader"))].
Lemma ex_tf_deeds : fst (tf_worker_told ex_tf_blocks) =
  [Doing Waiting; Store CBlock 7; Store CState 1; Doing (Decoding 7); Store CState 2; Doing (Processing 7); AddTo CKept 2; AddTo CDropped 2;
   Store CState 3; Doing (Encoding 7); Store CState 4; Doing (Sending 7); Store CState 0; Doing Waiting;
   Store CState 4; Doing (Passing 8); Store CState 0; Doing Waiting].
Proof. vm_compute. reflexivity. Qed.
(** C104 is false of the code for other blocks: the header, block 8, is sent after block 7 and shown as 7. *)
Lemma pC104_passing_refuted : let ds := fst (tf_worker_told ex_tf_blocks) in
  doing ds 16 (Passing 8) /\ look ds 16 tf_worker_widget 16 (Text (bytes_of "Worker: sending block 7, 2 kept, 2 dropped")).
Proof.
  cbv zeta. rewrite ex_tf_deeds. split; [apply doing_nth; reflexivity|]. do 4 at_load 16%nat 16%nat. apply look_show.
Qed.
(** An example. *)
Lemma pC104_ex : let ds := fst (tf_worker_told ex_tf_blocks) in
  kept_in (ex_env, ex_tf_block) = 2 /\ dropped_in (ex_env, ex_tf_block) = 2 /\
  doing ds 4 (Decoding 7) /\ look ds 4 tf_worker_widget 4 (Text (bytes_of "Worker: decoding block 7, 0 kept, 0 dropped")) /\
  doing ds 10 (Encoding 7) /\ look ds 10 tf_worker_widget 10 (Text (bytes_of "Worker: encoding block 7, 2 kept, 2 dropped")) /\
  look ds 4 tf_worker_widget 8 (Text (bytes_of "Worker: processing block 7, 2 kept, 2 dropped")).
Proof.
  cbv zeta. rewrite ex_tf_deeds. split; [vm_compute; reflexivity|]. split; [vm_compute; reflexivity|]. split; [apply doing_nth; reflexivity|].
  split; [do 4 at_load 4%nat 4%nat; apply look_show|]. split; [apply doing_nth; reflexivity|]. split; [do 4 at_load 10%nat 10%nat; apply look_show|].
  at_load 4%nat 6%nat. at_load 6%nat 6%nat. at_load 6%nat 7%nat. at_load 7%nat 8%nat. apply look_show.
Qed.
