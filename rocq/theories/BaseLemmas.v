(** * BaseLemmas: facts about machine integers, slices and loops. *)
From Verif Require Import Base.

Lemma u8_id x : is_u8 x -> u8 x = x.
Proof. unfold is_u8, u8; intros; apply Z.mod_small; lia. Qed.
Lemma u32_id x : is_u32 x -> u32 x = x.
Proof. unfold is_u32, u32; intros; apply Z.mod_small; lia. Qed.
Lemma u64_id x : is_u64 x -> u64 x = x.
Proof. unfold is_u64, u64; intros; apply Z.mod_small; lia. Qed.
Lemma s32_id x : is_s32 x -> s32 x = x.
Proof. unfold is_s32, s32; intros; rewrite Z.mod_small; lia. Qed.
Lemma s64_id x : is_s64 x -> s64 x = x.
Proof. unfold is_s64, s64; intros; rewrite Z.mod_small; lia. Qed.

Lemma u8_range x : is_u8 (u8 x).
Proof. unfold is_u8, u8; apply Z.mod_pos_bound; lia. Qed.
Lemma u32_range x : is_u32 (u32 x).
Proof. unfold is_u32, u32; apply Z.mod_pos_bound; lia. Qed.
Lemma u64_range x : is_u64 (u64 x).
Proof. unfold is_u64, u64; apply Z.mod_pos_bound; lia. Qed.
Lemma s32_range x : is_s32 (s32 x).
Proof. unfold is_s32, s32; pose proof (Z.mod_pos_bound (x + 2^31) (2^32)); lia. Qed.
Lemma s64_range x : is_s64 (s64 x).
Proof. unfold is_s64, s64; pose proof (Z.mod_pos_bound (x + 2^63) (2^64)); lia. Qed.

(** Two's complement reinterpretation. *)
Lemma s64_alt x : is_u64 x -> s64 x = if x <? 2^63 then x else x - 2^64.
Proof.
  unfold is_u64, s64; intros H. destruct (Z.ltb_spec x (2^63)).
  - rewrite Z.mod_small; lia.
  - replace (x + 2^63) with ((x - 2^63) + 1 * 2^64) by lia.
    rewrite Z.mod_add by lia. rewrite Z.mod_small; lia.
Qed.
Lemma u64_alt x : is_s64 x -> u64 x = if x <? 0 then x + 2^64 else x.
Proof.
  unfold is_s64, u64; intros H. destruct (Z.ltb_spec x 0).
  - replace x with ((x + 2^64) + (-1) * 2^64) at 1 by lia.
    rewrite Z.mod_add by lia. rewrite Z.mod_small; lia.
  - rewrite Z.mod_small; lia.
Qed.

Lemma s64_cong x : exists k, s64 x = x + k * 2^64.
Proof.
  unfold s64. exists (- ((x + 2^63) / 2^64)).
  pose proof (Z.div_mod (x + 2^63) (2^64) ltac:(lia)). lia.
Qed.
Lemma u64_cong x : exists k, u64 x = x + k * 2^64.
Proof.
  unfold u64. exists (- (x / 2^64)).
  pose proof (Z.div_mod x (2^64) ltac:(lia)). lia.
Qed.
Lemma s32_cong x : exists k, s32 x = x + k * 2^32.
Proof.
  unfold s32. exists (- ((x + 2^31) / 2^32)).
  pose proof (Z.div_mod (x + 2^31) (2^32) ltac:(lia)). lia.
Qed.
Lemma u32_cong x : exists k, u32 x = x + k * 2^32.
Proof.
  unfold u32. exists (- (x / 2^32)).
  pose proof (Z.div_mod x (2^32) ltac:(lia)). lia.
Qed.
Lemma s64_add_k x k : s64 (x + k * 2^64) = s64 x.
Proof.
  unfold s64. replace (x + k * 2^64 + 2^63) with (x + 2^63 + k * 2^64) by lia.
  rewrite Z.mod_add by lia; reflexivity.
Qed.
Lemma u64_add_k x k : u64 (x + k * 2^64) = u64 x.
Proof. unfold u64. rewrite Z.mod_add by lia; reflexivity. Qed.
Lemma s32_add_k x k : s32 (x + k * 2^32) = s32 x.
Proof.
  unfold s32. replace (x + k * 2^32 + 2^31) with (x + 2^31 + k * 2^32) by lia.
  rewrite Z.mod_add by lia; reflexivity.
Qed.
Lemma u32_add_k x k : u32 (x + k * 2^32) = u32 x.
Proof. unfold u32. rewrite Z.mod_add by lia; reflexivity. Qed.

Lemma s64_u64 x : s64 (u64 x) = s64 x.
Proof. destruct (u64_cong x) as [k ->]. apply s64_add_k. Qed.
Lemma u64_s64 x : u64 (s64 x) = u64 x.
Proof. destruct (s64_cong x) as [k ->]. apply u64_add_k. Qed.
Lemma s32_u64 x : s32 (u64 x) = s32 x.
Proof.
  destruct (u64_cong x) as [k ->].
  replace (x + k * 2^64) with (x + (k * 2^32) * 2^32) by lia. apply s32_add_k.
Qed.
Lemma u32_u64 x : u32 (u64 x) = u32 x.
Proof.
  destruct (u64_cong x) as [k ->].
  replace (x + k * 2^64) with (x + (k * 2^32) * 2^32) by lia. apply u32_add_k.
Qed.
Lemma s32_s64 x : s32 (s64 x) = s32 x.
Proof.
  destruct (s64_cong x) as [k ->].
  replace (x + k * 2^64) with (x + (k * 2^32) * 2^32) by lia. apply s32_add_k.
Qed.
Lemma s32_u32 x : s32 (u32 x) = s32 x.
Proof. destruct (u32_cong x) as [k ->]. apply s32_add_k. Qed.
Lemma u32_s32 x : u32 (s32 x) = u32 x.
Proof. destruct (s32_cong x) as [k ->]. apply u32_add_k. Qed.
Lemma s64_add_l x y : s64 (s64 x + y) = s64 (x + y).
Proof.
  destruct (s64_cong x) as [k ->].
  replace (x + k * 2^64 + y) with (x + y + k * 2^64) by lia. apply s64_add_k.
Qed.
Lemma s64_add_r x y : s64 (x + s64 y) = s64 (x + y).
Proof. rewrite Z.add_comm, s64_add_l. f_equal; lia. Qed.
Lemma s64_s64 x : s64 (s64 x) = s64 x.
Proof. apply s64_id, s64_range. Qed.
Lemma u64_u64 x : u64 (u64 x) = u64 x.
Proof. apply u64_id, u64_range. Qed.

Lemma is_s32_s64 x : is_s32 x -> is_s64 x.
Proof. unfold is_s32, is_s64; lia. Qed.
Lemma is_u32_u64 x : is_u32 x -> is_u64 x.
Proof. unfold is_u32, is_u64; lia. Qed.

(** ** bind *)
Lemma bind_ok {A B} (m : res A) (k : A -> res B) b :
  bind m k = Ok b <-> exists a, m = Ok a /\ k a = Ok b.
Proof.
  destruct m; simpl; split; intros H; try discriminate; eauto;
    destruct H as (a' & H1 & H2); congruence.
Qed.

(** ** lists *)
Lemma zlen_app {A} (l1 l2 : list A) : zlen (l1 ++ l2) = zlen l1 + zlen l2.
Proof. unfold zlen; rewrite app_length; lia. Qed.
Lemma zlen_cons {A} (a : A) l : zlen (a :: l) = 1 + zlen l.
Proof. unfold zlen; simpl; lia. Qed.
Lemma zlen_nil {A} : zlen (@nil A) = 0.
Proof. reflexivity. Qed.
Lemma zlen_nonneg {A} (l : list A) : 0 <= zlen l.
Proof. unfold zlen; lia. Qed.
Lemma zlen_map {A B} (f : A -> B) l : zlen (map f l) = zlen l.
Proof. unfold zlen; rewrite map_length; lia. Qed.
Lemma zlen_repeat {A} (x : A) n : zlen (repeat x n) = Z.of_nat n.
Proof. unfold zlen; rewrite repeat_length; lia. Qed.
Lemma zlen_rev {A} (l : list A) : zlen (rev l) = zlen l.
Proof. unfold zlen; rewrite rev_length; lia. Qed.
Lemma slen_zlen b : slen b = zlen (vis b).
Proof. reflexivity. Qed.
Lemma zlen_0 {A} (l : list A) : zlen l = 0 -> l = [].
Proof. destruct l; intros H; [reflexivity|unfold zlen in H; simpl in H; lia]. Qed.

Lemma nth_app_pre (pre l : list Z) (i : Z) :
  0 <= i -> nth (Z.to_nat (zlen pre + i)) (pre ++ l) 0 = nth (Z.to_nat i) l 0.
Proof.
  intros Hi. unfold zlen.
  rewrite app_nth2 by lia. f_equal. lia.
Qed.

Lemma lidx_spec {A} (l : list A) i a :
  lidx l i = Ok a <-> 0 <= i /\ nth_error l (Z.to_nat i) = Some a.
Proof.
  unfold lidx. destruct (0 <=? i) eqn:E1; destruct (i <? zlen l) eqn:E2; simpl.
  - destruct (nth_error l (Z.to_nat i)) eqn:E; split; intros H.
    + injection H as <-. split; [lia|reflexivity].
    + destruct H as [_ H]; congruence.
    + discriminate.
    + destruct H; discriminate.
  - split; [discriminate|]. intros [H1 H2].
    assert (Z.to_nat i < List.length l)%nat by (apply nth_error_Some; congruence).
    unfold zlen in E2; lia.
  - split; [discriminate|intros [? _]; lia].
  - split; [discriminate|intros [? _]; lia].
Qed.

Lemma lidx_app_mid {A} (l1 l2 : list A) a : lidx (l1 ++ a :: l2) (zlen l1) = Ok a.
Proof.
  apply lidx_spec. split; [apply zlen_nonneg|].
  unfold zlen. rewrite Nat2Z.id, nth_error_app2, Nat.sub_diag by lia. reflexivity.
Qed.

Lemma lidx_ok {A} (l : list A) i : 0 <= i < zlen l -> exists a, lidx l i = Ok a.
Proof.
  intros H. destruct (nth_error l (Z.to_nat i)) as [a|] eqn:E.
  - exists a. apply lidx_spec. split; [lia|exact E].
  - apply nth_error_None in E. unfold zlen in H. lia.
Qed.

Lemma lidx_panic {A} (l : list A) i :
  ~ (0 <= i < zlen l) -> lidx l i = Panic IndexOutOfRange.
Proof. intros H. unfold lidx. destruct (0 <=? i) eqn:E1, (i <? zlen l) eqn:E2; simpl; try reflexivity; lia. Qed.

(** ** slices *)
Lemma sidx_pre b pre l i :
  vis b = pre ++ l -> 0 <= i < zlen l ->
  sidx b (zlen pre + i) = Ok (nth (Z.to_nat i) l 0).
Proof.
  intros Hv Hi. unfold sidx. rewrite slen_zlen, Hv, zlen_app.
  pose proof (zlen_nonneg pre).
  destruct (0 <=? zlen pre + i) eqn:E1; [|lia].
  destruct (zlen pre + i <? zlen pre + zlen l) eqn:E2; [|lia].
  simpl. rewrite nth_app_pre by lia. reflexivity.
Qed.

Lemma sidx_oob b i : ~ (0 <= i < slen b) -> sidx b i = Panic IndexOutOfRange.
Proof.
  intros H. unfold sidx.
  destruct (0 <=? i) eqn:E1; destruct (i <? slen b) eqn:E2; simpl; try reflexivity; lia.
Qed.

Lemma sslice_mid b pre mid post :
  vis b = pre ++ mid ++ post ->
  sslice b (zlen pre) (zlen pre + zlen mid) = Ok (mkslice mid (post ++ ext b)).
Proof.
  intros Hv. unfold sslice, scap. rewrite slen_zlen, Hv, !zlen_app.
  pose proof (zlen_nonneg pre); pose proof (zlen_nonneg mid); pose proof (zlen_nonneg post).
  destruct (0 <=? zlen pre) eqn:E1; [|lia].
  destruct (zlen pre <=? zlen pre + zlen mid) eqn:E2; [|lia].
  destruct (zlen pre + zlen mid <=? _) eqn:E3; [|lia].
  simpl. f_equal. f_equal.
  - replace (Z.to_nat (zlen pre + zlen mid - zlen pre)) with (List.length mid)
      by (unfold zlen; lia).
    replace (Z.to_nat (zlen pre)) with (List.length pre) by (unfold zlen; lia).
    rewrite <- !app_assoc, skipn_app, skipn_all, Nat.sub_diag. simpl.
    rewrite firstn_app, Nat.sub_diag, firstn_O, app_nil_r, firstn_all. reflexivity.
  - replace (Z.to_nat (zlen pre + zlen mid)) with (List.length (pre ++ mid))
      by (rewrite app_length; unfold zlen; lia).
    rewrite <- !app_assoc. rewrite (app_assoc pre mid).
    rewrite skipn_app, skipn_all, Nat.sub_diag. reflexivity.
Qed.

Lemma sslice_ok b i j out :
  sslice b i j = Ok out ->
  0 <= i <= j /\ j <= scap b /\ zlen (vis out) = j - i.
Proof.
  unfold sslice. destruct ((0 <=? i) && (i <=? j) && (j <=? scap b)) eqn:E; [|discriminate].
  intros H; injection H as <-. simpl. rewrite !andb_true_iff in E.
  split; [lia|]. split; [lia|].
  unfold zlen. rewrite firstn_length, skipn_length, app_length.
  unfold scap, slen in E. lia.
Qed.

(** ** upd / lset *)
Lemma upd_app_mid {A} (l1 l2 : list A) a x :
  upd (l1 ++ a :: l2) (List.length l1) x = l1 ++ x :: l2.
Proof. induction l1; simpl; congruence. Qed.

Lemma lset_app_mid l1 l2 a x : lset (l1 ++ a :: l2) (zlen l1) x = Ok (l1 ++ x :: l2).
Proof.
  unfold lset. rewrite zlen_app, zlen_cons.
  pose proof (zlen_nonneg l1); pose proof (zlen_nonneg l2).
  destruct (0 <=? zlen l1) eqn:E1; [|lia].
  destruct (zlen l1 <? zlen l1 + (1 + zlen l2)) eqn:E2; [|lia].
  simpl. unfold zlen. rewrite Nat2Z.id. f_equal. apply upd_app_mid.
Qed.

(** ** loop *)
Lemma loop_more {St} (cond : St -> bool) body n m s r :
  loop n cond body s = r -> r <> Diverge -> (n <= m)%nat -> loop m cond body s = r.
Proof.
  revert m s. induction n as [|n IH]; intros m s H Hr Hm.
  - simpl in H. destruct m; simpl; destruct (cond s); congruence.
  - destruct m as [|m]; [lia|]. simpl in *. destruct (cond s); [|assumption].
    destruct (body s) as [s'|p|] eqn:Eb; simpl in *; try assumption.
    apply IH; [assumption|assumption|lia].
Qed.

(** A loop whose measure decreases on every iteration never runs out of fuel. *)
Lemma loop_total {St} (cond : St -> bool) body (mu : St -> nat) n s :
  (forall s, cond s = true -> body s <> Diverge) ->
  (forall s s', cond s = true -> body s = Ok s' -> (mu s' < mu s)%nat) ->
  (mu s < n)%nat -> loop n cond body s <> Diverge.
Proof.
  intros Hnd Hdec. revert s. induction n as [|n IH]; intros s Hn; [lia|]. simpl.
  destruct (cond s) eqn:Ec; [|discriminate].
  destruct (body s) as [s'|p|] eqn:Eb; simpl; [|discriminate|exfalso; eapply Hnd; eauto].
  apply IH. specialize (Hdec _ _ Ec Eb). lia.
Qed.

(** Hoare rule for loops. *)
Lemma loop_inv {St} (I : St -> Prop) cond (body : St -> res St) n s s' :
  (forall s s', I s -> cond s = true -> body s = Ok s' -> I s') ->
  I s -> loop n cond body s = Ok s' -> I s' /\ cond s' = false.
Proof.
  intros Hstep. revert s. induction n as [|n IH]; intros s Hs H; simpl in H;
    destruct (cond s) eqn:Ec; try discriminate.
  - injection H as <-; auto.
  - destruct (body s) as [s1|p|] eqn:Eb; simpl in H; try discriminate.
    eapply IH; [|exact H]. eapply Hstep; eauto.
  - injection H as <-; auto.
Qed.

Lemma foldm_app {A St} (f : St -> A -> res St) l1 l2 s :
  foldm f (l1 ++ l2) s = (s' <- foldm f l1 s ;; foldm f l2 s').
Proof.
  revert s; induction l1 as [|a l1 IH]; intros s; simpl; [reflexivity|].
  destruct (f s a); simpl; auto.
Qed.

Lemma mapm_ok_map {A B} (f : A -> res B) (g : A -> B) l :
  (forall a, In a l -> f a = Ok (g a)) -> mapm f l = Ok (map g l).
Proof.
  induction l as [|a l IH]; intros H; simpl; [reflexivity|].
  rewrite H by (left; reflexivity). simpl. rewrite IH; [reflexivity|].
  intros; apply H; right; assumption.
Qed.

Lemma mapm_app {A B} (f : A -> res B) l1 l2 :
  mapm f (l1 ++ l2) = (b1 <- mapm f l1 ;; b2 <- mapm f l2 ;; Ok (b1 ++ b2)).
Proof.
  induction l1 as [|a l1 IH]; simpl.
  - destruct (mapm f l2); reflexivity.
  - destruct (f a); simpl; try reflexivity. rewrite IH.
    destruct (mapm f l1); simpl; try reflexivity.
    destruct (mapm f l2); reflexivity.
Qed.
