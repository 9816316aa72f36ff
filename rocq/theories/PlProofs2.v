(** * PlProofs2: the invariant of the pipeline. *)
From Verif Require Import Base BaseLemmas PlModel PlSpec PlProofs.

Lemma perm_rot {X} (L y R : list X) : Permutation L (R ++ (y ++ [])) -> Permutation L (y ++ R).
Proof. intros H. rewrite H, app_nil_r. apply Permutation_app_comm. Qed.
Lemma perm_end {X} (L R : list X) : Permutation (L ++ []) (R ++ []) -> Permutation L R.
Proof. rewrite !app_nil_r. auto. Qed.
Lemma cons_sing {X} (x y : X) l : x :: y :: l = [x] ++ (y :: l). Proof. reflexivity. Qed.
Ltac perm_norm := repeat rewrite <- app_assoc; repeat rewrite app_nil_l.
Ltac perm_one :=
  match goal with
  | |- Permutation ?x ?x => reflexivity
  | |- Permutation (?x ++ _) (?x ++ _) => apply Permutation_app_head
  | |- Permutation _ (?y ++ ?r) => apply perm_rot; perm_norm
  end.
Ltac perm := apply perm_end; perm_norm; do 100 (try perm_one).

Section Inv.
  Context {A B : Type}.
  Definition busy1 (w : worker A B) : list A := match w_pos w with WBusy a => [a] | _ => [] end.
  Definition sending1 (w : worker A B) : list B := match w_pos w with WSend b => [b] | _ => [] end.
  Definition mine (ws : list (worker A B)) : list A := flat_map w_mine ws.
  Definition busy (ws : list (worker A B)) : list A := flat_map busy1 ws.
  Definition sending (ws : list (worker A B)) : list B := flat_map sending1 ws.
  Definition hold (ro : rpos B) : list B := match ro with OSend b => [b] | _ => [] end.
  Definition wdone (w : worker A B) : Prop := w_pos w = WDone.

  Lemma mine_at l w r : mine (l ++ w :: r) = mine l ++ w_mine w ++ mine r.
  Proof. unfold mine. rewrite flat_map_app. reflexivity. Qed.
  Lemma busy_at l w r : busy (l ++ w :: r) = busy l ++ busy1 w ++ busy r.
  Proof. unfold busy. rewrite flat_map_app. reflexivity. Qed.
  Lemma sending_at l w r : sending (l ++ w :: r) = sending l ++ sending1 w ++ sending r.
  Proof. unfold sending. rewrite flat_map_app. reflexivity. Qed.
  Lemma done_busy ws : Forall wdone ws -> busy ws = [].
  Proof. induction 1 as [|w ws H _ IH]; [reflexivity|]. unfold busy in *. cbn [flat_map]. rewrite IH. unfold busy1. rewrite H. reflexivity. Qed.
  Lemma done_sending ws : Forall wdone ws -> sending ws = [].
  Proof. induction 1 as [|w ws H _ IH]; [reflexivity|]. unfold sending in *. cbn [flat_map]. rewrite IH. unfold sending1. rewrite H. reflexivity. Qed.

  Lemma app_inj_1 {X} (a b u v : list X) : List.length a = List.length b -> a ++ u = b ++ v -> a = b /\ u = v.
  Proof.
    revert b. induction a as [|x a IH]; intros [|y b] L E; cbn in *; try discriminate; [auto|]. injection E as -> E. destruct (IH b ltac:(lia) E) as (-> & ->). auto.
  Qed.

  Context (c : cfg A B) (idxA : A -> Z) (inp : list A) (n : nat).
  Context (IX : c_writer c = true -> indexed idxA inp) (KI : c_writer c = true -> keeps_index c idxA inp).

  Definition crash_ok (cr : option crash) (gt : list B) : Prop :=
    match cr with
    | None => True
    | Some CrashRead => c_read_panics c = true
    | Some CrashWork => exists a p, In a inp /\ c_work c a = Panic p
    | Some CrashReorder => False
    | Some CrashWrite => c_write_panics c gt = true
    end.
  Definition late (ph : phase) : Prop := match ph with PRead | PWaitWorkers => False | _ => True end.
  Definition later (ph : phase) : Prop := match ph with PWaitWriter | PDone => True | _ => False end.

  Record inv (s : st A B) : Prop := mkInv
    { i_len : List.length (s_workers s) = n;
      i_todo : exists pre, inp = pre ++ s_todo s /\ Permutation (mine (s_workers s) ++ busy (s_workers s)) pre;
      i_read : s_phase s <> PRead -> s_cancelled s = true \/ s_todo s = [];
      i_live : s_phase s = PRead -> Forall (fun w => ~ wdone w) (s_workers s);
      i_late : late (s_phase s) -> Forall wdone (s_workers s);
      i_crash : crash_ok (s_crash s) (s_got s);
      i_w : c_writer c = true ->
        Permutation (map (c_work c) (mine (s_workers s))) (map Ok (sending (s_workers s) ++ s_rb s ++ hold (s_ro s) ++ s_got s)) /\
        (exists m, s_next s = Z.of_nat m /\ map (c_index c) (s_got s ++ hold (s_ro s)) = zseq 0 m /\ Z.of_nat m <= zlen inp) /\
        (s_ro s = ORecv \/ s_ro s = ODone -> ~ In (s_next s) (map (c_index c) (s_rb s))) /\
        (s_ro s = ODone -> s_rb s = [] /\ late (s_phase s)) /\
        (later (s_phase s) -> s_ro s = ODone) /\
        (s_wr s = VDone -> later (s_phase s)) /\
        (s_phase s = PDone -> s_wr s = VDone);
      i_nw : c_writer c = false ->
        s_ro s = ODone /\ s_rb s = [] /\ s_got s = [] /\ s_wr s = VDone /\ sending (s_workers s) = [] /\ (late (s_phase s) -> s_phase s = PDone);
      i_ok : forall a, In a (mine (s_workers s)) -> exists b, c_work c a = Ok b }.

  Lemma idx_nodup : c_writer c = true -> NoDup (map idxA inp).
  Proof. intros W. destruct (IX W) as (E & _). rewrite E. apply zseq_nodup. Qed.
  Lemma idx_lt a : c_writer c = true -> In a inp -> 0 <= idxA a < zlen inp.
  Proof. intros W I. apply (in_map idxA) in I. destruct (IX W) as (E & _). rewrite E in I. apply zseq_in in I. unfold zlen. lia. Qed.

  Lemma mine_in s a : inv s -> In a (mine (s_workers s)) -> In a inp.
  Proof.
    intros H I. destruct (i_todo _ H) as (pre & E & P). rewrite E. apply in_or_app. left. eapply Permutation_in; [exact P|]. apply in_or_app. left. exact I.
  Qed.
  (** everything finished or under way, by index *)
  Definition idxR (r : res B) : Z := match r with Ok b => c_index c b | _ => 0 end.
  Lemma idx_perm s : c_writer c = true -> inv s ->
    Permutation (map idxA (mine (s_workers s))) (map (c_index c) (sending (s_workers s) ++ s_rb s ++ hold (s_ro s) ++ s_got s)).
  Proof.
    intros W H. destruct (i_w _ H W) as (P & _). apply (Permutation_map idxR) in P. rewrite !map_map in P. cbn [idxR] in P. rewrite <- P.
    erewrite map_ext_in; [reflexivity|]. intros a I. cbn beta. destruct (i_ok _ H a I) as (b & E). rewrite E. cbn [idxR]. symmetry. apply KI; [exact W|eapply mine_in; eassumption|exact E].
  Qed.
  Lemma mine_nodup s : c_writer c = true -> inv s -> NoDup (map idxA (mine (s_workers s) ++ busy (s_workers s) ++ s_todo s)).
  Proof.
    intros W H. destruct (i_todo _ H) as (pre & E & P). eapply Permutation_NoDup; [|exact (idx_nodup W)]. apply Permutation_map. rewrite E, app_assoc. apply Permutation_app_tail. symmetry. exact P.
  Qed.
  Lemma app_nodup_l {X} (l r : list X) : NoDup (l ++ r) -> NoDup l.
  Proof. induction l as [|x l IH]; intros H; [constructor|]. inversion H as [|? ? H1 H2]; subst. constructor; [|apply IH; exact H2]. intros I. apply H1, in_or_app. left. exact I. Qed.
  Lemma app_nodup_r {X} (l r : list X) : NoDup (l ++ r) -> NoDup r.
  Proof. induction l as [|x l IH]; intros H; [exact H|]. inversion H as [|? ? H1 H2]; subst. auto. Qed.
  Lemma app_nodup_dis {X} (l r : list X) x : NoDup (l ++ r) -> In x l -> In x r -> False.
  Proof. induction l as [|y l IH]; intros H I J; [destruct I|]. inversion H as [|? ? H1 H2]; subst. destruct I as [->|I]; [apply H1, in_or_app; right; exact J|auto]. Qed.
  Lemma out_nodup s : c_writer c = true -> inv s -> NoDup (map (c_index c) (sending (s_workers s) ++ s_rb s ++ hold (s_ro s) ++ s_got s)).
  Proof.
    intros W H. eapply Permutation_NoDup; [apply idx_perm; assumption|]. pose proof (mine_nodup s W H) as N. rewrite map_app in N. eapply app_nodup_l. exact N.
  Qed.
  Lemma out_lt s b : c_writer c = true -> inv s -> In b (sending (s_workers s) ++ s_rb s ++ hold (s_ro s) ++ s_got s) -> 0 <= c_index c b < zlen inp.
  Proof.
    intros W H I. apply (in_map (c_index c)) in I. eapply Permutation_in in I; [|symmetry; apply idx_perm; assumption]. apply in_map_iff in I. destruct I as (a & E & I). rewrite <- E. apply idx_lt; [exact W|]. eapply mine_in; eassumption.
  Qed.

  Lemma inv_init : inv (pl_init c inp n).
  Proof.
    assert (M : mine (repeat (mkWk WRecv []) n) = []) by (clear; induction n as [|k IH]; [reflexivity|exact IH]).
    assert (U : busy (repeat (mkWk WRecv []) n) = []) by (clear; induction n as [|k IH]; [reflexivity|exact IH]).
    assert (S : sending (repeat (mkWk WRecv []) n) = []) by (clear; induction n as [|k IH]; [reflexivity|exact IH]).
    unfold pl_init. constructor; cbn [s_cancelled s_phase s_todo s_workers s_ro s_rb s_next s_wr s_got s_crash].
    - apply repeat_length.
    - exists []. rewrite M, U. split; reflexivity.
    - congruence.
    - intros _. apply Forall_forall. intros w I. apply repeat_spec in I. subst w. unfold wdone. cbn. discriminate.
    - intros [].
    - exact I.
    - intros W. rewrite M, S, W. cbn. split; [reflexivity|]. split.
      { exists 0%nat. split; [reflexivity|]. split; [reflexivity|]. unfold zlen. lia. }
      repeat split; try discriminate; try tauto.
    - intros W. rewrite S, W. cbn. repeat split; tauto.
    - rewrite M. intros a [].
  Qed.

  Lemma inv_step s s' : inv s -> step c s s' -> inv s'.
  Proof.
    intros H ST. pose proof H as H0. inversion ST; subst; destruct H0 as [Hl Ht Hr Hv Hd Hc Hw Hn Ho]; cbn [s_cancelled s_phase s_todo s_workers s_ro s_rb s_next s_wr s_got s_crash] in *;
      constructor; cbn [s_cancelled s_phase s_todo s_workers s_ro s_rb s_next s_wr s_got s_crash]; try assumption; try (rewrite app_length in *; cbn [List.length] in *; lia).
    all: try (rewrite mine_at in *). all: try (rewrite busy_at in *). all: try (rewrite sending_at in *).
    all: unfold busy1, sending1 in *; cbn [w_pos w_mine hold] in *.
    all: try solve [intros; try discriminate; try congruence; auto].
    all: try solve [intros X; try discriminate X; specialize (Hv X); rewrite Forall_app in *; rewrite Forall_cons_iff in *; unfold wdone in *; cbn [w_pos] in *; destruct (c_writer c); intuition congruence].
    all: try solve [intros X; specialize (Hd X); rewrite Forall_app in *; rewrite Forall_cons_iff in *; unfold wdone in *; cbn [w_pos] in *; intuition congruence].
    all: try solve [intros W; specialize (Hn W); intuition congruence].
    all: try solve [intros X; apply Hr; destruct (c_writer c); discriminate].
    all: try solve [intros W; destruct (Hw W) as (W1 & W2 & W3 & W4 & W5 & W6 & W7); cbn [late later] in *;
      split; [exact W1|]; split; [exact W2|]; split; [exact W3|]; split; [intros X; destruct (W4 X); auto|]; split; [intuition congruence|]; split; [intuition congruence|intuition congruence]].
    all: try solve [destruct (c_writer c); intros; try discriminate; auto].
    - (* send *)
      destruct Ht as (pre & E & P). exists (pre ++ [a]). split; [rewrite <- app_assoc; exact E|]. rewrite <- P. perm.
    - (* work *)
      destruct Ht as (pre & E & P). exists pre. split; [exact E|]. rewrite <- P. destruct (c_writer c); perm.
    - intros W. destruct (Hw W) as (W1 & W2). split; [|exact W2]. rewrite W. cbv beta iota.
      transitivity (map (c_work c) ([a] ++ (mine l ++ m ++ mine r))); [apply Permutation_map; perm|]. rewrite map_app. change (map (c_work c) [a]) with [c_work c a]. rewrite H1.
      transitivity (map Ok (b :: (sending l ++ [] ++ sending r) ++ rb ++ hold ro ++ gt)); [cbn [map app] in *; constructor; exact W1|]. apply Permutation_map.
      change (b :: (sending l ++ [] ++ sending r) ++ rb ++ hold ro ++ gt) with ([b] ++ (sending l ++ [] ++ sending r) ++ rb ++ hold ro ++ gt). perm.
    - intros x I. assert (I' : In x (mine l ++ m ++ mine r) \/ x = a) by (rewrite !in_app_iff in *; cbn [In] in I; intuition congruence).
      destruct I' as [I'|E]; [apply Ho; exact I'|]. subst x. exists b. exact H1.
    - (* work panic *)
      destruct Ht as (pre & E & P). exists a, p. split; [|assumption]. rewrite E. apply in_or_app. left. eapply Permutation_in; [exact P|]. rewrite !in_app_iff. cbn [In]. tauto.
    - (* arrive *)
      intros W. pose proof (out_nodup _ W H) as ND. cbn [s_workers s_rb s_ro s_got hold] in ND. rewrite sending_at in ND. unfold sending1 in ND. cbn [w_pos] in ND.
      rewrite put_perm.
      2: { intros X. rewrite !map_app in ND. eapply (app_nodup_dis _ _ (c_index c b)); [rewrite <- !app_assoc in ND|..].
           - rewrite !app_assoc in ND. rewrite <- !app_assoc in ND. rewrite (app_assoc (map (c_index c) (sending l))) in ND. exact ND.
           - rewrite in_app_iff. cbn [map In]. tauto.
           - rewrite !in_app_iff. tauto. }
      destruct (Hw W) as (W1 & W2 & W3 & W4 & W5 & W6 & W7). split; [|split; [exact W2|]].
      + rewrite W1. apply Permutation_map. change (b :: rb) with ([b] ++ rb). perm.
      + split; [intros [X|X]; discriminate X|]. split; [discriminate|]. split; [|split; [exact W6|exact W7]]. intros X. specialize (W5 X). discriminate W5.
    - (* pop *)
      intros W. pose proof (out_nodup _ W H) as ND. pose proof (fun b => out_lt _ b W H) as LT. cbn [s_workers s_rb s_ro s_got hold] in ND, LT.
      match goal with P : rb_pop _ _ _ = _ |- _ => apply pop_some in P; destruct P as (I & E & ->) end.
      assert (NR : NoDup (map (c_index c) rb)) by (rewrite map_app in ND; apply app_nodup_r in ND; rewrite map_app in ND; apply app_nodup_l in ND; exact ND).
      pose proof (delete_perm (c_index c) rb b NR I) as D. rewrite E in D.
      destruct (Hw W) as (W1 & (k & W2 & W2' & W2'') & W3 & W4 & W5 & W6 & W7). split; [|split].
      + rewrite W1. apply Permutation_map. transitivity (sending ws ++ ([b] ++ rb_delete (c_index c) rb nx) ++ [] ++ gt); [|perm].
        apply Permutation_app_head, Permutation_app_tail. exact D.
      + exists (S k). pose proof (LT b ltac:(rewrite !in_app_iff; tauto)) as Lb. destruct (IX W) as (_ & IXl). split; [|split].
        * rewrite u64_id; [lia|]. unfold is_u64. lia.
        * rewrite zseq_snoc, <- W2', app_nil_r, map_app. cbn [map]. rewrite E, W2. reflexivity.
        * lia.
      + split; [intros [X|X]; discriminate X|]. split; [discriminate|]. split; [|split; [exact W6|exact W7]]. intros X. specialize (W5 X). discriminate W5.
    - (* flushed *)
      intros W. match goal with P : rb_pop _ _ _ = _ |- _ => apply pop_none in P; destruct P as (I & ->) end.
      destruct (Hw W) as (W1 & W2 & W3 & W4 & W5 & W6 & W7). split; [exact W1|]. split; [exact W2|]. split; [intros _; exact I|]. split; [discriminate|]. split; [|split; [exact W6|exact W7]]. intros X. specialize (W5 X). discriminate W5.
    - (* deliver *)
      intros W. destruct (Hw W) as (W1 & W2 & W3 & W4 & W5 & W6 & W7). split; [|split].
      + rewrite W1. apply Permutation_map. perm.
      + rewrite app_nil_r. exact W2.
      + split; [intros [X|X]; discriminate X|]. split; [discriminate|]. split; [intros X; specialize (W5 X); discriminate W5|]. split; [discriminate|]. intros X. specialize (W7 X). discriminate W7.
    - (* workers done *)
      intros W. rewrite W. destruct (Hw W) as (W1 & W2 & W3 & W4 & W5 & W6 & W7). cbn [late later] in *. split; [exact W1|]. split; [exact W2|]. split; [exact W3|].
      split; [intros X; destruct (W4 X) as (_ & []) |]. split; [intros [] |]. split; [exact W6|discriminate].
    - intros W. rewrite W. destruct (Hn W) as (N1 & N2 & N3 & N4 & N5 & N6). repeat split; assumption.
    - (* reorder end *)
      intros W. destruct (Hw W) as (W1 & W2 & W3 & W4 & W5 & W6 & W7). split; [exact W1|]. split; [exact W2|]. split; [intros _ []|]. split; [intros _; split; [reflexivity|exact I]|]. split; [reflexivity|]. split; [exact W6|exact W7].
    - (* the reorderer does not panic *)
      assert (WD : c_writer c = true \/ c_writer c = false) by (destruct (c_writer c); auto).
      destruct WD as [W|W]; [|destruct (Hn W) as (X & _); discriminate X]. destruct (Hw W) as (W1 & (k & W2 & W2' & W2'') & W3 & W4 & W5 & W6 & W7). cbn [late later] in *. specialize (Hd I). rewrite app_nil_r in W2'.
      pose proof (out_nodup _ W H) as ND. pose proof (idx_perm _ W H) as IP. cbn [s_workers s_rb s_ro s_got hold] in ND, IP. rewrite (done_sending ws Hd) in ND, IP. cbn [app] in ND, IP.
      apply (W3 (or_introl eq_refl)). destruct Ht as (pre & E & P). rewrite (done_busy ws Hd), app_nil_r in P.
      assert (Q : In nx (map idxA pre)).
      { destruct (IX W) as (E' & _). assert (E2 : map idxA pre = zseq 0 (List.length pre)).
        { rewrite E in E'. rewrite map_app, app_length, seq_app, map_app in E'. apply app_inj_1 in E'; [|rewrite !map_length, seq_length; reflexivity]. destruct E' as (E' & _). exact E'. }
        rewrite E2. apply zseq_in.
        assert (Ib : In (c_index c b) (map idxA pre)) by (eapply Permutation_in; [apply Permutation_map; exact P|]; eapply Permutation_in; [symmetry; exact IP|]; left; reflexivity).
        rewrite E2 in Ib. apply zseq_in in Ib. destruct (Z.lt_ge_cases (c_index c b) nx) as [C|C]; [|lia]. exfalso.
        change (b :: rb ++ gt) with ((b :: rb) ++ gt) in ND. rewrite map_app, W2' in ND. eapply (app_nodup_dis _ _ (c_index c b)); [exact ND|left; reflexivity|apply zseq_in; lia]. }
      eapply Permutation_in in Q; [|symmetry; apply Permutation_map; exact P]. eapply Permutation_in in Q; [|exact IP]. change (b :: rb ++ gt) with ((b :: rb) ++ gt) in Q. rewrite map_app in Q.
      apply in_app_or in Q. destruct Q as [Q|Q]; [exact Q|]. rewrite W2' in Q. apply zseq_in in Q. lia.
  Qed.

  Lemma inv_reach s : reachable c inp n s -> inv s.
  Proof. induction 1 as [|s s' _ IH ST]; [exact inv_init|eapply inv_step; eassumption]. Qed.
End Inv.
