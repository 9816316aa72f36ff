(** * PlProofs: reordering. *)
From Verif Require Import Base BaseLemmas PlModel PlSpec.

Section Rb.
  Context {B : Type} (idx : B -> Z).
  Lemma delete_in rb b k : In b (rb_delete idx rb k) <-> In b rb /\ idx b <> k.
  Proof. unfold rb_delete. rewrite filter_In. destruct (Z.eqb_spec (idx b) k); cbn; intuition congruence. Qed.
  Lemma delete_none rb k : ~ In k (map idx rb) -> rb_delete idx rb k = rb.
  Proof.
    induction rb as [|b rb IH]; intros H; [reflexivity|]. unfold rb_delete in *. cbn [filter map] in *. destruct (Z.eqb_spec (idx b) k) as [E|N]; [exfalso; apply H; left; exact E|].
    cbn [negb]. rewrite IH; [reflexivity|]. intros X. apply H. right. exact X.
  Qed.
  Lemma delete_perm rb b : NoDup (map idx rb) -> In b rb -> Permutation rb (b :: rb_delete idx rb (idx b)).
  Proof.
    induction rb as [|x rb IH]; intros N I; [destruct I|]. cbn [map] in N. inversion N as [|? ? N1 N2]; subst. unfold rb_delete. cbn [filter].
    destruct (Z.eqb_spec (idx x) (idx b)) as [E|Ne]; cbn [negb].
    - fold (rb_delete idx rb (idx b)). destruct I as [->|I].
      + rewrite delete_none by exact N1. reflexivity.
      + exfalso. apply N1. rewrite E. apply in_map. exact I.
    - destruct I as [->|I]; [congruence|]. fold (rb_delete idx rb (idx b)). rewrite (IH N2 I) at 1. apply perm_swap.
  Qed.
  Lemma put_perm rb b : ~ In (idx b) (map idx rb) -> rb_put idx rb b = b :: rb.
  Proof. intros H. unfold rb_put. rewrite delete_none by exact H. reflexivity. Qed.
  Lemma pop_some rb k b rb' : rb_pop idx rb k = (Some b, rb') -> In b rb /\ idx b = k /\ rb' = rb_delete idx rb k.
  Proof.
    unfold rb_pop. destruct (find _ rb) as [x|] eqn:F; [|discriminate]. intros E. injection E as <- <-. apply find_some in F. destruct F as (I & E). split; [exact I|]. split; [lia|reflexivity].
  Qed.
  Lemma pop_none rb k rb' : rb_pop idx rb k = (None, rb') -> ~ In k (map idx rb) /\ rb' = rb.
  Proof.
    unfold rb_pop. destruct (find _ rb) as [x|] eqn:F; [discriminate|]. intros E. injection E as <-. split; [|reflexivity]. intros I. apply in_map_iff in I. destruct I as (b & E & I).
    pose proof (find_none _ _ F b I) as X. cbn beta in X. lia.
  Qed.
  Lemma delete_len rb k : (List.length (rb_delete idx rb k) <= List.length rb)%nat.
  Proof. unfold rb_delete. induction rb as [|b rb IH]; [reflexivity|]. cbn [filter]. destruct (negb _); cbn [List.length]; lia. Qed.
  Lemma delete_len_lt rb b : In b rb -> (List.length (rb_delete idx rb (idx b)) < List.length rb)%nat.
  Proof.
    induction rb as [|x rb IH]; intros I; [destruct I|]. unfold rb_delete. cbn [filter List.length]. fold (rb_delete idx rb (idx b)). pose proof (delete_len rb (idx b)).
    destruct (Z.eqb_spec (idx x) (idx b)) as [E|Ne]; cbn [negb]; [lia|]. cbn [List.length]. destruct I as [->|I]; [congruence|]. specialize (IH I). lia.
  Qed.
  Definition zseq (a n : nat) : list Z := map Z.of_nat (seq a n).
  Lemma zseq_snoc a n : zseq a (S n) = zseq a n ++ [Z.of_nat (a + n)].
  Proof. unfold zseq. rewrite seq_S, map_app. reflexivity. Qed.
  Lemma zseq_app a n m : zseq a (n + m) = zseq a n ++ zseq (a + n) m.
  Proof. unfold zseq. rewrite seq_app, map_app. reflexivity. Qed.
  Lemma zseq_in a n z : In z (zseq a n) <-> Z.of_nat a <= z < Z.of_nat a + Z.of_nat n.
  Proof.
    unfold zseq. rewrite in_map_iff. split.
    - intros (k & <- & H). apply in_seq in H. lia.
    - intros H. exists (Z.to_nat z). split; [lia|]. apply in_seq. lia.
  Qed.
  Lemma zseq_nodup a n : NoDup (zseq a n).
  Proof. unfold zseq. apply FinFun.Injective_map_NoDup; [intros x y; lia|apply seq_NoDup]. Qed.
  Lemma zseq_len a n : List.length (zseq a n) = n.
  Proof. unfold zseq. rewrite map_length. apply seq_length. Qed.

  Lemma flush_ok fuel : forall rb next, (List.length rb <= fuel)%nat -> NoDup (map idx rb) -> (forall b, In b rb -> Z.of_nat next <= idx b < 2^64 - 1) -> Z.of_nat next < 2^64 ->
    exists rb' m out, rb_flush idx fuel rb (Z.of_nat next) = Ok (rb', Z.of_nat (next + m), out) /\ Z.of_nat (next + m) < 2^64 /\ map idx out = zseq next m /\
      Permutation (out ++ rb') rb /\ ~ In (Z.of_nat (next + m)) (map idx rb').
  Proof.
    induction fuel as [|fuel IH]; intros rb next L N R Hn; cbn [rb_flush]; destruct (rb_pop idx rb (Z.of_nat next)) as [[b|] rb1] eqn:P.
    - apply pop_some in P. destruct P as (I & _). destruct rb; [destruct I|cbn [List.length] in L; lia].
    - apply pop_none in P. destruct P as (P & ->). exists rb, 0%nat, []. rewrite Nat.add_0_r. split; [reflexivity|]. split; [exact Hn|]. split; [reflexivity|]. split; [reflexivity|exact P].
    - apply pop_some in P. destruct P as (I & E & ->). rewrite <- E in *. pose proof (delete_perm rb b N I) as D. pose proof (delete_len_lt rb b I) as DL.
      pose proof (R b I) as Rb. rewrite u64_id by (unfold is_u64; lia). replace (idx b + 1) with (Z.of_nat (S next)) by lia.
      destruct (IH (rb_delete idx rb (idx b)) (S next)) as (rb' & m & out & E1 & E2 & E3 & E4 & E5).
      + lia.
      + assert (X : NoDup (map idx (b :: rb_delete idx rb (idx b)))) by (eapply Permutation_NoDup; [apply Permutation_map; exact D|exact N]). cbn [map] in X. inversion X; assumption.
      + intros x Hx. apply delete_in in Hx. destruct Hx as (Hx & Ne). specialize (R x Hx). lia.
      + lia.
      + rewrite E1. cbn [bind]. exists rb', (S m), (b :: out). replace (next + S m)%nat with (S next + m)%nat by lia. split; [reflexivity|]. split; [exact E2|]. split; [|split; [|exact E5]].
        * cbn [map]. rewrite E3, E. reflexivity.
        * cbn [app]. rewrite D. constructor. exact E4.
    - apply pop_none in P. destruct P as (P & ->). exists rb, 0%nat, []. rewrite Nat.add_0_r. split; [reflexivity|]. split; [exact Hn|]. split; [reflexivity|]. split; [reflexivity|exact P].
  Qed.
  Lemma reorder_some_ok p : NoDup (map idx p) -> (forall b, In b p -> 0 <= idx b < 2^64 - 1) ->
    exists rb next sent, reorder_some idx p = Ok (rb, Z.of_nat next, sent) /\ Z.of_nat next < 2^64 /\ map idx sent = zseq 0 next /\ Permutation (sent ++ rb) p /\ ~ In (Z.of_nat next) (map idx rb).
  Proof.
    induction p as [|b p IH] using rev_ind; intros N R.
    - exists [], 0%nat, []. split; [reflexivity|]. split; [reflexivity|]. split; [reflexivity|]. split; [reflexivity|]. intros [].
    - rewrite map_app in N. cbn [map] in N. apply NoDup_remove in N. rewrite app_nil_r in N. destruct N as (N & Nb).
      destruct (IH N ltac:(intros x Hx; apply R, in_or_app; left; exact Hx)) as (rb & next & sent & E & Hn & S1 & P & Q).
      unfold reorder_some in *. rewrite foldm_app, E. cbn [bind foldm]. unfold reorder_one.
      assert (Nrb : ~ In (idx b) (map idx rb)).
      { intros X. apply Nb. eapply Permutation_in; [apply Permutation_map; exact P|]. rewrite map_app. apply in_or_app. right. exact X. }
      assert (NDs : NoDup (map idx sent ++ map idx rb)) by (rewrite <- map_app; eapply Permutation_NoDup; [apply Permutation_map, Permutation_sym; exact P|exact N]).
      assert (NDr : NoDup (map idx rb)) by (clear - NDs; induction (map idx sent); [exact NDs|inversion NDs; auto]).
      assert (DIS : forall x, In x (map idx sent) -> ~ In x (map idx rb)).
      { clear - NDs. induction (map idx sent) as [|y l IH]; intros x []; cbn [app] in NDs; inversion NDs as [|? ? Hn Hd]; subst; [intros X; apply Hn, in_or_app; right; exact X|apply IH; assumption]. }
      assert (NS : ~ In (idx b) (map idx sent)).
      { intros X. apply Nb. eapply Permutation_in; [apply Permutation_map; exact P|]. rewrite map_app. apply in_or_app. left. exact X. }
      assert (GE : forall x, In x p \/ x = b -> ~ In (idx x) (map idx sent) -> Z.of_nat next <= idx x < 2^64 - 1).
      { intros x Hx Hs. assert (Rx : 0 <= idx x < 2^64 - 1) by (apply R, in_or_app; destruct Hx as [Hx|Hx]; [left; exact Hx|right; left; symmetry; exact Hx]).
        split; [|lia]. destruct (Z.lt_ge_cases (idx x) (Z.of_nat next)) as [C|C]; [|exact C]. exfalso. apply Hs. rewrite S1. apply zseq_in. lia. }
      rewrite put_perm by exact Nrb.
      destruct (flush_ok (List.length (b :: rb)) (b :: rb) next) as (rb' & m & out & E1 & E2 & E3 & E4 & E5).
      + lia.
      + cbn [map]. constructor; assumption.
      + intros x [<-|Hx]; [apply GE; [right; reflexivity|exact NS]|]. apply GE; [|intros X; apply (DIS _ X), in_map; exact Hx].
        left. eapply Permutation_in; [exact P|]. apply in_or_app. right. exact Hx.
      + exact Hn.
      + rewrite E1. cbn [bind]. exists rb', (next + m)%nat, (sent ++ out). split; [reflexivity|]. split; [exact E2|]. split; [|split; [|exact E5]].
        * rewrite map_app, S1, E3, zseq_app. reflexivity.
        * rewrite <- app_assoc, E4. transitivity (b :: sent ++ rb); [symmetry; apply Permutation_middle|]. rewrite P. apply Permutation_cons_append.
  Qed.
  Lemma same_by_index bs : NoDup (map idx bs) -> forall l k, (forall b, In b l -> In b bs) -> map idx l = firstn k (map idx bs) -> l = firstn k bs.
  Proof.
    intros N l. revert bs N. induction l as [|b l IH]; intros bs N k I E; destruct k as [|k]; destruct bs as [|c bs]; cbn [firstn map] in *; try reflexivity; try discriminate.
    injection E as E1 E2. assert (b = c).
    { specialize (I b (or_introl eq_refl)). destruct I as [I|I]; [congruence|]. exfalso. inversion N as [|? ? N1 _]; subst. apply N1. rewrite <- E1. apply in_map. exact I. }
    subst c. f_equal. inversion N as [|? ? N1 N2]; subst. apply IH; [exact N2| |exact E2]. intros x Hx. specialize (I x (or_intror Hx)). destruct I as [->|I]; [|exact I].
    exfalso. apply N1. apply (in_map idx) in Hx. rewrite E2 in Hx. rewrite <- (firstn_skipn k (map idx bs)). apply in_or_app. left. exact Hx.
  Qed.
End Rb.
