(** * XwThms: C53 exactly. *)
From Verif Require Import Base PbSpec TModel HLModel FrModel FrSpec ZlModel IoModel TfSpec NiModel NiSpec NiThms RwModel RwSpec RwThms.
From Verif Require Import BaseLemmas PbModel PbProofs PbProofs2 TProofs TMsg TMsg2 TThms T2Thms HLProofs FrProofs FrThms ZlThms TTyped TfThms NiProofs NiProofs2 NiThms.
From Verif Require Import NiSpec RwSpec.

(** a ref of a way of the block *)
Definition has_ref (p : PrimitiveBlock) (x : Z) : Prop :=
  exists g ws w, In g (pblk_PrimitiveGroup p) /\ pg_Ways g = Some ws /\ In w ws /\ In x (way_Refs w).
Lemma map_same {A B} (f g : A -> B) l : map f l = map g l <-> forall x, In x l -> f x = g x.
Proof.
  split; [|intros H; apply map_ext_in; exact H]. induction l as [|a l IH]; intros E x Hx; [destruct Hx|]. cbn [map] in E. injection E as E1 E2.
  destruct Hx as [<-|Hx]; [exact E1|apply IH; assumption].
Qed.
Lemma refs_same f g p : block_with f p = block_with g p <-> forall x, has_ref p x -> f x = g x.
Proof.
  split.
  - intros E x (gr & ws & w & Hg & Ew & Hw & Hx). unfold block_with in E. injection E as E.
    pose proof (proj1 (map_same _ _ _) E gr Hg) as E1. unfold group_with in E1. injection E1 as E1. rewrite Ew in E1. cbn [option_map] in E1. injection E1 as E1.
    pose proof (proj1 (map_same _ _ _) E1 w Hw) as E2. unfold refs_with in E2. injection E2 as E2. exact (proj1 (map_same _ _ _) E2 x Hx).
  - intros H. unfold block_with. f_equal. apply map_same. intros gr Hg. unfold group_with. f_equal. destruct (pg_Ways gr) as [ws|] eqn:Ew; [|reflexivity]. cbn [option_map]. f_equal.
    apply map_same. intros w Hw. unfold refs_with. f_equal. apply map_same. intros x Hx. apply H. exists gr, ws, w. auto.
Qed.
Lemma ref_way p x : has_ref p x -> has_way p.
Proof. intros (g & ws & w & Hg & Ew & Hw & _). exists g, w, ws. auto. Qed.
Lemma way_count p : has_way p -> (count_ways (pblk_PrimitiveGroup p) =? 0) = false.
Proof. intros H. destruct (_ =? 0) eqn:E; [|reflexivity]. apply count_zero in E. contradiction. Qed.
Lemma alone_same env data p q : holds_alone env data p -> holds_alone env data q -> p = q.
Proof.
  intros (bl & raw & E1 & E2 & E3) (bl' & raw' & E1' & E2' & E3'). rewrite E1 in E1'. injection E1' as <-. rewrite E2 in E2'. injection E2' as <-. rewrite E3 in E3'. injection E3' as <-. reflexivity.
Qed.
(** two steps on one blob *)
Lemma step_same f g env i ty data q y : s64_fun f -> s64_fun g -> ready env i (ty, data, q) -> step f (ty, data, q) = Ok y ->
  (step g (ty, data, q) = Ok y <-> (ty = tOSMData -> forall x, has_ref q x -> f x = g x)).
Proof.
  intros Sf Sg (K & Bd & Ld & H) E. unfold step in *. destruct (seqb_spec ty tOSMData) as [T|T]; cbn [negb] in *.
  2:{ split; [intros _ X; contradiction|intros _; exact E]. }
  destruct (H T) as (_ & Ht & Hf). destruct (count_ways (pblk_PrimitiveGroup q) =? 0) eqn:Ec.
  - split; [|intros _; exact E]. intros _ _ x Hx. apply ref_way, way_count in Hx. congruence.
  - assert (HW : has_way q).
    { destruct (count_ways_spec (pblk_PrimitiveGroup q) 0 ltac:(lia)) as [(A & _)|(_ & C)]; [unfold count_ways in Ec; rewrite A in Ec; discriminate|].
      destruct C as (gr & w & ws & C). exists gr, w, ws. exact C. }
    destruct (rw_out (block_with f q)) as [o1|m|] eqn:O1; cbn [bind] in E; try discriminate. injection E as <-. split.
    + destruct (rw_out (block_with g q)) as [o2|m|] eqn:O2; cbn [bind]; try discriminate. intros X _. injection X as ->. apply refs_same.
      destruct (rw_trip _ o1 (typed_with f q Sf Ht) (rw_form_with f q Hf) (proj2 (has_way_with f q) HW) O1) as (_ & H1).
      destruct (rw_trip _ o1 (typed_with g q Sg Ht) (rw_form_with g q Hf) (proj2 (has_way_with g q) HW) O2) as (_ & H2).
      apply (alone_same (env i) o1); [apply H1|apply H2].
    + intros X. rewrite <- (proj2 (refs_same f g q) (X T)), O1. reflexivity.
Qed.
Lemma steps_same f g env : s64_fun f -> s64_fun g -> forall l k bl, ready_all env k l -> mapm (step f) l = Ok bl ->
  (mapm (step g) l = Ok bl <-> forall i ty data q x, nth_error l i = Some (ty, data, q) -> ty = tOSMData -> has_ref q x -> f x = g x).
Proof.
  intros Sf Sg. induction l as [|[[ty data] q] l IH]; intros k bl R E.
  - split; [intros _ [|i] ty data q x H; discriminate|intros _; exact E].
  - pose proof (R 0%nat _ eq_refl) as R0. rewrite Nat.add_0_r in R0.
    assert (R' : ready_all env (S k) l) by (intros i x H; specialize (R (S i) x H); replace (S k + i)%nat with (k + S i)%nat by lia; exact R).
    apply mapm_Forall2 in E. inversion E as [|? y ? r Hy Hr]; subst. apply mapm_Forall2 in Hr.
    pose proof (step_same f g env _ ty data q y Sf Sg R0 Hy) as S0. pose proof (IH (S k) r R' Hr) as S1. split.
    + intros E2. apply mapm_Forall2 in E2. inversion E2 as [|? y' ? r' Hy' Hr']; subst. apply mapm_Forall2 in Hr'.
      intros [|i] ty' data' q' x Hi Ty Hx; cbn [nth_error] in Hi.
      * injection Hi as -> -> ->. exact (proj1 S0 Hy' Ty x Hx).
      * exact (proj1 S1 Hr' i ty' data' q' x Hi Ty Hx).
    + intros H. cbn [mapm]. rewrite (proj2 S0 (fun Ty x Hx => H 0%nat ty data q x eq_refl Ty Hx)). cbn [bind].
      rewrite (proj2 S1 (fun i ty' data' q' x Hi => H (S i) ty' data' q' x Hi)). reflexivity.
Qed.
Lemma enc_same b1 b2 f : zlen f < 2^63 -> enc_file b1 = Ok f -> enc_file b2 = Ok f ->
  Forall (fun b => known_type (fst b) /\ bytes (snd b) /\ zlen (snd b) < 2^31) b1 -> Forall (fun b => known_type (fst b) /\ bytes (snd b) /\ zlen (snd b) < 2^31) b2 -> b1 = b2.
Proof.
  intros L E1 E2 F1 F2. destruct (enc_file_is b1 f E1 F1) as (I1 & B). destruct (enc_file_is b2 f E2 F2) as (I2 & _).
  assert (K : forall b, Forall (fun b : list Z * list Z => known_type (fst b) /\ bytes (snd b) /\ zlen (snd b) < 2^31) b -> Forall (fun b => known_type (fst b)) b) by (intros b; apply Forall_impl; tauto).
  destruct (pC34_split f b1 B L I1 (K _ F1)) as (bs & R1 & M1). destruct (pC34_split f b2 B L I2 (K _ F2)) as (bs' & R2 & M2).
  rewrite R1 in R2. injection R2 as <-. rewrite M1 in M2. unfold numbered in M2.
  assert (X : forall (l m : list (list Z * list Z)) s, combine (map Z.of_nat (seq s (List.length l))) l = combine (map Z.of_nat (seq s (List.length m))) m -> l = m).
  { clear. induction l as [|a l IH]; intros [|b m] s H; cbn [List.length seq map combine] in H; try discriminate; [reflexivity|]. injection H as H1 H2. f_equal; [exact H1|exact (IH m _ H2)]. }
  exact (X _ _ _ M2).
Qed.
(** which ranges the passes reach *)
Lemma cut_reached locs t : forall rs tot k, Forall (range_ok locs) rs -> (k < List.length rs)%nat ->
  ((k < cut t tot rs)%nat <-> tot + total (firstn k rs) < t).
Proof.
  induction rs as [|r rs IH]; intros tot k H Hk; cbn [List.length] in Hk; [lia|]. pose proof (Forall_inv H) as (C1 & C2 & _). cbn [cut].
  destruct k as [|k]; cbn [firstn total].
  - destruct (Z.leb_spec t tot); lia.
  - destruct (Z.leb_spec t tot) as [L|L].
    + split; [lia|]. pose proof (total_nonneg locs (firstn k rs)) as T. assert (0 <= total (firstn k rs)); [|lia]. apply T.
      apply Forall_forall. intros y Hy. apply (proj1 (Forall_forall _ _) (Forall_inv_tail H)). rewrite <- (firstn_skipn k rs). apply in_or_app. left. exact Hy.
    + specialize (IH (tot + r_count r) k (Forall_inv_tail H) ltac:(lia)). lia.
Qed.
Lemma part_same rs locs c x : Forall (range_ok locs) rs -> ascending_ranges rs -> Forall (fun l => l <= 0) locs ->
  (new_ref (firstn c rs) locs x = new_ref rs locs x <->
   (new_ref rs locs x <> x -> exists k r, (k < c)%nat /\ nth_error rs k = Some r /\ in_range r x)).
Proof.
  intros Hok Asc Neg.
  assert (LA : forall A B i, match linear_search A locs x i with Some (loc, h) => linear_search (A ++ B) locs x i = Some (loc, h) | None => True end).
  { clear. induction A as [|a A IH]; intros B i; cbn [linear_search app]; [exact I|]. destruct (_ && _); [reflexivity|apply IH]. }
  specialize (LA (firstn c rs) (skipn c rs) 0). rewrite firstn_skipn in LA.
  destruct (linear_search_spec locs x (firstn c rs) 0) as [(k & r & Hk & Hr & Es)|(No & Es)].
  - rewrite Es in LA. split; [|intros _; unfold new_ref; rewrite Es, LA; reflexivity]. intros _ _.
    assert (Kc : (k < c)%nat) by (assert (X : nth_error (firstn c rs) k <> None) by (rewrite Hk; discriminate); apply nth_error_Some in X; rewrite firstn_length in X; lia).
    exists k, r. split; [exact Kc|]. split; [|exact Hr]. rewrite <- (firstn_skipn c rs). rewrite nth_error_app1; [exact Hk|apply nth_error_Some; rewrite Hk; discriminate].
  - assert (N : new_ref (firstn c rs) locs x = x) by (unfold new_ref; rewrite Es; destruct (x <? 0); reflexivity). rewrite N. split; [intros E Ne; congruence|].
    intros H. destruct (Z.eq_dec (new_ref rs locs x) x) as [E|Ne]; [symmetry; exact E|]. exfalso. destruct (H Ne) as (k & r & Kc & Hk & Hr).
    assert (Hk' : nth_error (firstn c rs) k = Some r).
    { assert (Kl : (k < List.length rs)%nat) by (apply nth_error_Some; rewrite Hk; discriminate).
      rewrite <- (firstn_skipn c rs) in Hk. rewrite nth_error_app1 in Hk; [exact Hk|]. rewrite firstn_length. lia. }
    apply nth_error_In in Hk'. exact (No r Hk' Hr).
Qed.

(** C53, exactly (all locations negative or absent, as the indexer stores them, and every block
    decodable): if [n] passes succeed, and one pass succeeds, their files are the same if and only if every
    ref of a way that one pass replaces is in a range of the index that begins before location
    n * (number of locations / n). *)
Lemma pC53_exact : forall envs file blobs rs locs n out out1,
  bytes file -> zlen file < 2^63 -> is_file file blobs -> Forall (fun b => known_type (fst b)) blobs ->
  (forall i data, nth_error blobs i = Some (bytes_of "OSMData", data) -> exists p, forall pass, holds_alone (envs pass (Z.of_nat i)) data p) ->
  (forall pass i, env_ok (envs pass i)) ->
  index_ok rs locs -> Forall (fun loc => is_s64 loc /\ loc <= 0) locs -> 1 <= n ->
  (forall k f, Z.of_nat k < n -> after_passes envs (index_of rs locs) n k file = Ok f -> zlen f < 2^63) ->
  after_passes envs (index_of rs locs) n (Z.to_nat n) file = Ok out -> zlen out < 2^63 ->
  after_passes envs (index_of rs locs) 1 1 file = Ok out1 ->
  (out = out1 <->
   forall i data p g ws w x, nth_error blobs i = Some (bytes_of "OSMData", data) -> holds_alone (envs 0 (Z.of_nat i)) data p ->
     In g (pblk_PrimitiveGroup p) -> pg_Ways g = Some ws -> In w ws -> In x (way_Refs w) -> new_ref rs locs x <> x ->
     exists k r, nth_error rs k = Some r /\ in_range r x /\ total (firstn k rs) < zlen locs / n * n).
Proof.
  intros envs file blobs rs locs n out out1 Bf Lf Ff Kf Hd He Hi Hl Hn Sz E Lo E1'.
  pose proof (file_blobs blobs file Bf Ff) as Bd.
  destruct (choose_list (fun i tb p => forall pass, ready (envs pass) (Z.of_nat i) (tb, p)) blobs 0) as (l & Hl1 & Hl2).
  { intros i [ty data] Hin. cbn [Nat.add]. pose proof (nth_error_In _ _ Hin) as Hin'. pose proof (proj1 (Forall_forall _ _) Bd _ Hin') as (D1 & D2). pose proof (proj1 (Forall_forall _ _) Kf _ Hin') as K.
    cbn [fst snd] in *. destruct (seqb_spec ty tOSMData) as [T|T].
    - rewrite T in Hin. destruct (Hd i data Hin) as (p & Hp). exists p. intros pass. split; [exact K|]. split; [exact D1|]. split; [exact D2|]. intros _. split; [apply Hp|].
      pose proof (alone_holds _ _ [] _ (Hp pass)) as Hh. split.
      + eapply holds_typed; [|apply He|exact Hh]. split; [exact D1|]. split; [constructor|]. unfold scap, slen, zlen in *. cbn in *. lia.
      + destruct Hh as (bl & raw & _ & _ & E3). exact (ReadBlock_rw _ _ E3).
    - exists PrimitiveBlock0. intros pass. split; [exact K|]. split; [exact D1|]. split; [exact D2|]. intros; contradiction. }
  assert (R : forall pass, ready_all (envs pass) 0 l) by (intros pass i x Hx; specialize (Hl2 i x Hx pass); destruct x; exact Hl2).
  subst blobs. pose proof Hi as (Hok & Ha & Ht & _).
  assert (Hs64 : Forall is_s64 locs) by (revert Hl; apply Forall_impl; tauto). assert (Hneg : Forall (fun x => x <= 0) locs) by (revert Hl; apply Forall_impl; tauto).
  destruct (Z.to_nat n) as [|k] eqn:En; [lia|].
  cbn [after_passes] in E. destruct (after_passes envs (index_of rs locs) n k file) as [f0|p|] eqn:E0; cbn [bind] in E; try discriminate.
  destruct (passes_stage envs file l rs locs n Hi Hl Hn Bf Ff R Sz k f0 ltac:(lia) E0) as (l' & F' & B' & R' & C').
  destruct (SubIndex (index_of rs locs) (Z.of_nat k) n) as [sub|p|] eqn:Es; cbn [bind] in E; try discriminate.
  destruct (sub_good rs locs n (Z.of_nat k) sub Hi Hn ltac:(lia) Es) as (top & -> & G).
  assert (N0 : f0 <> []) by (intros ->; unfold rw_pass in E; cbn in E; discriminate).
  rewrite (rw_pass_is _ _ locs top _ f0 l' G B' (Sz k f0 ltac:(lia) E0) F' (R' _) N0) in E.
  destruct (mapm _ l') as [bl|p|] eqn:Em; cbn [bind] in E; try discriminate.
  set (t := slice_size locs n * Z.of_nat (S k)).
  assert (Et : t = zlen locs / n * n) by (unfold t, slice_size; replace (Z.of_nat (S k)) with n by lia; reflexivity).
  apply C' in Em. rewrite (step_ext _ (new_ref (firstn (cut t 0 rs) rs) locs)) in Em.
  2:{ intros x. unfold t. rewrite (firstn_pass rs locs n k Hi Hn ltac:(lia)). apply new_ref_comp; [|rewrite <- firstn_pass by (assumption || lia)|exact Hneg].
      - rewrite <- firstn_pass by (assumption || lia). apply asc_firstn. exact Ha.
      - apply Forall_forall. intros y Hy. apply (proj1 (Forall_forall _ _) Hok). rewrite <- (firstn_skipn (cut (slice_size locs n * Z.of_nat (S k)) 0 rs) rs). apply in_or_app. left. exact Hy. }
  assert (Nr : rs <> []).
  { intros ->. cbn [after_passes bind] in E1'. change (Z.of_nat 0) with 0 in E1'. destruct (SubIndex (index_of [] locs) 0 1) as [s|p|] eqn:E3; cbn [bind] in E1'; try discriminate. }
  cbn [after_passes bind] in E1'. destruct (pC48_single_pass rs locs Hi Nr) as (top1 & Es1 & Ht1). change (Z.of_nat 0) with 0 in E1'. rewrite Es1 in E1'. cbn [bind] in E1'.
  assert (Nf : file <> []) by (intros ->; unfold rw_pass in E1'; cbn in E1'; discriminate E1').
  rewrite (rw_pass_is _ rs locs top1 _ file l (conj Hok (conj Ha Ht1)) Bf Lf Ff (R _) Nf) in E1'.
  destruct (mapm (step (new_ref rs locs)) l) as [bl1|p|] eqn:Em1; cbn [bind] in E1'; try discriminate.
  set (fn := new_ref (firstn (cut t 0 rs) rs) locs) in *. set (f1 := new_ref rs locs) in *.
  assert (Sn : s64_fun fn) by (apply new_ref_s64; exact Hs64). assert (S1 : s64_fun f1) by (apply new_ref_s64; exact Hs64).
  assert (Good : forall f b, s64_fun f -> mapm (step f) l = Ok b -> Forall (fun b => known_type (fst b) /\ bytes (snd b) /\ zlen (snd b) < 2^31) b).
  { intros f b Sf Eb. destruct (step_all f l b Eb) as (M1 & _ & M3). cbn zeta in M1, M3. rewrite <- M1. apply Forall_map, Forall_forall. intros x Hx. apply In_nth_error in Hx. destruct Hx as (i & Hx).
    destruct (M3 i x Hx) as (y & Hy & Hs & Hq). destruct x as [z q']. cbn [fst snd] in *. destruct y as [[ty d] q].
    pose proof (R 0 i _ Hy) as Rx. destruct z as [zt zd].
    pose proof (step_ready f (envs 0) (envs 0) _ ty d q (zt, zd) Sf Rx ltac:(intros T; apply Rx; exact T) Hs) as (K1 & K2 & K3 & _). cbn. auto. }
  assert (Iff : bl = bl1 <-> forall i ty data q x, nth_error l i = Some (ty, data, q) -> ty = tOSMData -> has_ref q x -> fn x = f1 x).
  { pose proof (steps_same fn f1 (envs 0) Sn S1 l 0 bl (R 0) Em) as X. rewrite Em1 in X. rewrite <- X. split; [intros ->; reflexivity|intros Y; injection Y as <-; reflexivity]. }
  assert (Eq : out = out1 <-> bl = bl1).
  { split; [|intros ->; congruence]. intros <-. exact (enc_same bl bl1 out Lo E E1' (Good _ _ Sn Em) (Good _ _ S1 Em1)). }
  rewrite Eq, Iff. clear Eq Iff.
  assert (Part : forall x, fn x = f1 x <-> (f1 x <> x -> exists k0 r, nth_error rs k0 = Some r /\ in_range r x /\ total (firstn k0 rs) < zlen locs / n * n)).
  { intros x. unfold fn, f1. rewrite (part_same rs locs _ x Hok Ha Hneg). rewrite <- Et. split.
    - intros H Ne. destruct (H Ne) as (k0 & r & Hk & Hr & Ir). exists k0, r. split; [exact Hr|]. split; [exact Ir|].
      apply (cut_reached locs t rs 0 k0 Hok) in Hk; [lia|]. apply nth_error_Some. rewrite Hr. discriminate.
    - intros H Ne. destruct (H Ne) as (k0 & r & Hr & Ir & Hk). exists k0, r. split; [|auto]. apply (cut_reached locs t rs 0 k0 Hok); [apply nth_error_Some; rewrite Hr; discriminate|lia]. }
  split.
  - intros H i data p g ws w x Hi' Hp Hg Ew Hw Hx Ne. rewrite nth_error_map in Hi'. destruct (nth_error l i) as [[[ty d] q]|] eqn:El; [|discriminate]. cbn [option_map fst] in Hi'. injection Hi' as -> ->.
    pose proof (R 0 i _ El) as (_ & _ & _ & Rx). destruct (Rx eq_refl) as (Hq & _). cbn [Nat.add] in Hq. assert (Pq : p = q) by exact (alone_same _ _ _ _ Hp Hq). subst q.
    apply (proj1 (Part x)); [|exact Ne]. apply (H i _ data p x El eq_refl). exists g, ws, w. auto.
  - intros H i ty data q x El Ty (g & ws & w & Hg & Ew & Hw & Hx). subst ty. apply Part. intros Ne.
    pose proof (R 0 i _ El) as (_ & _ & _ & Rx). destruct (Rx eq_refl) as (Hq & _). cbn [Nat.add] in Hq.
    apply (H i data q g ws w x); try assumption. rewrite nth_error_map, El. reflexivity.
Qed.
(** Both sides: C53_ex (five passes) and C53_lost_ref_refuted (three) on the same file; ref 90 is in the last range, which
    begins at location 9: not before 3 * (10 / 3). *)
Lemma pC53_exact_ex : index_ok ex_ten ex_rw_locs /\ Forall (fun loc => is_s64 loc /\ loc <= 0) ex_rw_locs /\ new_ref ex_ten ex_rw_locs 90 <> 90 /\
  (exists r, nth_error ex_ten 9 = Some r /\ in_range r 90) /\ total (firstn 9 ex_ten) = 9 /\ zlen ex_rw_locs / 3 * 3 = 9 /\ zlen ex_rw_locs / 5 * 5 = 10.
Proof.
  split; [exact (proj1 ex_rw_ok)|]. split; [exact (proj2 ex_rw_ok)|]. split; [vm_compute; discriminate|]. split; [eexists; split; [reflexivity|unfold in_range; cbn; lia]|].
  split; [reflexivity|]. split; reflexivity.
Qed.
