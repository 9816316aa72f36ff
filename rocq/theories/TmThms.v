(** * TmThms: C93 (timing the lookups). *)
From Verif Require Import Base TModel NiModel NiSpec WiModel WiSpec TmModel TmSpec NiThms.
From Coq Require Import Reals Lra.
From Flocq Require Import Core BinarySingleNaN.
From Verif Require Import BaseLemmas StThms.
Local Open Scope Z_scope.

Notation fe := (SpecFloat.fexp 53 1024).
Lemma gt_real x y : is_finite x = true -> is_finite y = true -> f64_gt x y = true <-> (B2R y < B2R x)%R.
Proof.
  intros Hx Hy. unfold f64_gt. rewrite Bcompare_correct by assumption. destruct (Rcompare_spec (B2R x) (B2R y)); split; try discriminate; try reflexivity; intros; lra.
Qed.
Lemma ge_real x y : is_finite x = true -> is_finite y = true -> f64_ge x y = true <-> (B2R y <= B2R x)%R.
Proof.
  intros Hx Hy. unfold f64_ge. rewrite Bcompare_correct by assumption. destruct (Rcompare_spec (B2R x) (B2R y)); split; try discriminate; try reflexivity; intros; lra.
Qed.
Lemma of_Z_round n : (Rabs (round radix2 fe ZnearestE (IZR n)) < bpow radix2 1024)%R ->
  is_finite (f64_of_Z n) = true /\ B2R (f64_of_Z n) = round radix2 fe ZnearestE (IZR n).
Proof.
  intros H. unfold f64_of_Z. pose proof (binary_normalize_correct 53 1024 f64_prec f64_emax mode_NE n 0 false) as X. cbv zeta in X.
  assert (E : @F2R radix2 {| Fnum := n; Fexp := 0 |} = IZR n) by (unfold F2R; cbn; lra). rewrite E in X.
  cbn [round_mode] in X. rewrite (Rlt_bool_true _ _ H) in X. destruct X as (X1 & X2 & _). split; [exact X2|exact X1].
Qed.

Lemma representable m e : Z.abs m < 2^53 -> -1074 <= e -> generic_format radix2 fe (IZR m * bpow radix2 e).
Proof.
  intros Hm He. change fe with (FLT_exp (3 - 1024 - 53) 53). apply generic_format_FLT. exists (Float radix2 m e); [reflexivity| |]; cbn [Fnum Fexp]; [exact Hm|lia].
Qed.
#[local] Instance fe_valid : Valid_exp fe. Proof. change fe with (FLT_exp (3 - 1024 - 53) 53). apply FLT_exp_valid. exact f64_prec. Qed.
Lemma of_Z_small n : Z.abs n < 2^53 -> is_finite (f64_of_Z n) = true /\ B2R (f64_of_Z n) = IZR n.
Proof.
  intros H. assert (G : generic_format radix2 fe (IZR n)).
  { pose proof (representable n 0 H ltac:(lia)) as X. replace (IZR n * bpow radix2 0)%R with (IZR n) in X by (cbn; lra). exact X. }
  assert (R : round radix2 fe ZnearestE (IZR n) = IZR n) by (apply round_generic; [typeclasses eauto|exact G]).
  destruct (of_Z_round n) as (A & B).
  - rewrite R, <- abs_IZR. apply Rlt_trans with (bpow radix2 53); [|apply bpow_lt; lia]. change (bpow radix2 53) with (IZR (2^53)). apply IZR_lt. exact H.
  - split; [exact A|rewrite B; exact R].
Qed.
Lemma of_Z_finite n : Z.abs n <= 2^64 -> is_finite (f64_of_Z n) = true.
Proof.
  intros H. apply of_Z_round. apply Rle_lt_trans with (bpow radix2 64); [|apply bpow_lt; lia].
  apply abs_round_le_generic; [typeclasses eauto|typeclasses eauto| |].
  - replace (bpow radix2 64) with (IZR 1 * bpow radix2 64)%R by lra. apply representable; lia.
  - rewrite <- abs_IZR. change (bpow radix2 64) with (IZR (2^64)). apply IZR_le. exact H.
Qed.
Lemma nine_eighths_val : is_finite nine_eighths = true /\ B2R nine_eighths = (9 / 8)%R.
Proof.
  unfold nine_eighths, f64_div. destruct (of_Z_small 9 ltac:(lia)) as (A & B), (of_Z_small 8 ltac:(lia)) as (C & D).
  assert (R : round radix2 fe ZnearestE (B2R (f64_of_Z 9) / B2R (f64_of_Z 8)) = (9/8)%R).
  { rewrite B, D. apply round_generic; [typeclasses eauto|]. replace (9/8)%R with (IZR 9 * bpow radix2 (-3))%R by (change (bpow radix2 (-3)) with (/ 8)%R; lra). apply representable; lia. }
  pose proof (Bdiv_correct 53 1024 f64_prec f64_emax mode_NE (f64_of_Z 9) (f64_of_Z 8)) as X.
  specialize (X ltac:(rewrite D; apply Rgt_not_eq; lra)).
  cbn [round_mode] in X. rewrite R in X. rewrite Rlt_bool_true in X.
  - destruct X as (X1 & X2 & _). split; [rewrite X2; exact A|exact X1].
  - rewrite Rabs_pos_eq by lra. apply Rlt_trans with (bpow radix2 2); [change (bpow radix2 2) with 4%R; lra|apply bpow_lt; lia].
Qed.
(** bounds for what is left after some divisions by 1.125 or more *)
Definition bd_m (r : Z) : Z := if r =? 0 then 512 else if r =? 1 then 569 else if r =? 2 then 640 else if r =? 3 then 720 else if r =? 4 then 810 else 911.
Definition bd (n : nat) : R := (IZR (bd_m (Z.of_nat n mod 6)) * bpow radix2 (Z.of_nat n / 6 - 9))%R.
Lemma bd_pos n : (0 < bd n)%R.
Proof. unfold bd. apply Rmult_lt_0_compat; [apply IZR_lt; unfold bd_m; repeat destruct (_ =? _); lia|apply bpow_gt_0]. Qed.
Lemma bd_step n : (bd (S n) * (8 / 9) <= bd n)%R.
Proof.
  unfold bd. set (q := Z.of_nat n / 6). set (r := Z.of_nat n mod 6). assert (E : Z.of_nat n = 6 * q + r) by (apply Z.div_mod; lia). assert (Hr : 0 <= r < 6) by (apply Z.mod_pos_bound; lia). clearbody q r.
  pose proof (bpow_gt_0 radix2 (q - 9)) as P.
  destruct (Z.eq_dec r 5) as [E5|N5].
  - replace (Z.of_nat (S n) / 6) with (q + 1) by (apply (Z.div_unique _ _ _ 0); lia). replace (Z.of_nat (S n) mod 6) with 0 by (apply (Z.mod_unique _ _ (q + 1)); lia).
    rewrite E5. replace (q + 1 - 9) with (q - 9 + 1) by lia. rewrite bpow_plus. change (bd_m 0) with 512. change (bd_m 5) with 911. change (bpow radix2 1) with 2%R. lra.
  - replace (Z.of_nat (S n) / 6) with q by (apply (Z.div_unique _ _ _ (r + 1)); lia). replace (Z.of_nat (S n) mod 6) with (r + 1) by (apply (Z.mod_unique _ _ q); lia).
    assert (C : r = 0 \/ r = 1 \/ r = 2 \/ r = 3 \/ r = 4) by lia.
    destruct C as [->|[->|[->|[->| ->]]]]; repeat match goal with |- context [bd_m ?a] => let v := eval vm_compute in (bd_m a) in change (bd_m a) with v end; lra.
Qed.
Lemma bd_format n : generic_format radix2 fe (bd n).
Proof. apply representable; [unfold bd_m; repeat destruct (_ =? _); lia|]. assert (0 <= Z.of_nat n / 6) by (apply Z.div_pos; lia). lia. Qed.
Lemma bd_small n : (n <= 200)%nat -> (bd n < bpow radix2 1024)%R.
Proof.
  intros H. unfold bd. apply Rle_lt_trans with (bpow radix2 10 * bpow radix2 (Z.of_nat n / 6 - 9))%R.
  - apply Rmult_le_compat_r; [apply bpow_ge_0|]. change (bpow radix2 10) with (IZR 1024). apply IZR_le. unfold bd_m. repeat destruct (_ =? _); lia.
  - rewrite <- bpow_plus. apply bpow_lt. assert (Z.of_nat n / 6 <= 200 / 6) by (apply Z.div_le_mono; lia). change (200 / 6) with 33 in *. lia.
Qed.
Lemma one_val : is_finite (f64_of_Z 1) = true /\ B2R (f64_of_Z 1) = 1%R. Proof. exact (of_Z_small 1 ltac:(lia)). Qed.
Lemma loop_ends f : is_finite f = true -> (9 / 8 <= B2R f)%R -> forall n fuel x i, (n <= fuel)%nat -> (n <= 200)%nat ->
  is_finite x = true -> (0 <= B2R x <= bd n)%R -> exists j, timing_loop fuel f x i = Ok j /\ i <= j <= i + Z.of_nat n.
Proof.
  intros Ff Hf. destruct one_val as (O1 & O2). induction n as [|n IH]; intros fuel x i Hn Hn2 Fx Hx.
  - exists i. split; [|lia]. destruct fuel; cbn [timing_loop]; (replace (f64_gt x (f64_of_Z 1)) with false; [reflexivity|]; symmetry; apply not_true_iff_false; rewrite gt_real by assumption; rewrite O2;
      unfold bd in Hx; change (Z.of_nat 0 mod 6) with 0 in Hx; change (Z.of_nat 0 / 6) with 0 in Hx; change (bpow radix2 (0 - 9)) with (/ 512)%R in Hx; change (bd_m 0) with 512 in Hx; lra).
  - destruct fuel as [|fuel]; [lia|]. cbn [timing_loop]. destruct (f64_gt x (f64_of_Z 1)) eqn:G; [|exists i; split; [reflexivity|lia]].
    assert (Fnz : B2R f <> 0%R) by (apply Rgt_not_eq; lra).
    assert (Q : (0 <= B2R x / B2R f <= bd n)%R).
    { split; [apply Rmult_le_pos; [lra|]; left; apply Rinv_0_lt_compat; lra|]. apply Rle_trans with (B2R x * (8 / 9))%R.
      - apply Rmult_le_compat_l; [lra|]. replace (8/9)%R with (/ (9/8))%R by lra. apply Rinv_le; lra.
      - pose proof (bd_step n). lra. }
    assert (RQ : (0 <= round radix2 fe ZnearestE (B2R x / B2R f) <= bd n)%R).
    { split; [apply round_ge_generic; [typeclasses eauto|typeclasses eauto|apply generic_format_0|lra]|apply round_le_generic; [typeclasses eauto|typeclasses eauto|apply bd_format|lra]]. }
    pose proof (Bdiv_correct 53 1024 f64_prec f64_emax mode_NE x f Fnz) as X. cbn [round_mode] in X. rewrite Rlt_bool_true in X.
    + destruct X as (X1 & X2 & _). destruct (IH fuel (f64_div x f) (i + 1) ltac:(lia) ltac:(lia)) as (j & E & L).
      * unfold f64_div. rewrite X2. exact Fx.
      * unfold f64_div. rewrite X1. exact RQ.
      * exists j. split; [exact E|lia].
    + rewrite Rabs_pos_eq by lra. pose proof (bd_small n ltac:(lia)). lra.
Qed.

Lemma loop_never f : small_factor f -> forall fuel x i, f64_gt x (f64_of_Z 1) = true -> timing_loop fuel f x i = Diverge.
Proof.
  intros Hf. destruct one_val as (O1 & O2). destruct (of_Z_small 0 ltac:(lia)) as (Z1 & Z2).
  assert (St : forall x, f64_gt x (f64_of_Z 1) = true -> f64_gt (f64_div x f) (f64_of_Z 1) = true).
  { intros x G.
    assert (INF : f64_gt (B754_infinity false) (f64_of_Z 1) = true) by reflexivity.
    assert (Hx : x = B754_infinity false \/ is_finite x = true /\ (1 < B2R x)%R).
    { destruct x as [sx|sx| |sx mx ex ex0]; [right|destruct sx; [discriminate G|left; reflexivity]|discriminate G|right]; (split; [reflexivity|]); apply gt_real in G; auto; rewrite O2 in G; exact G. }
    destruct Hf as [->|(Hf0 & Hf1)].
    - destruct Hx as [->|(Fx & Hx)]; [reflexivity|]. destruct x as [sx|sx| |sx mx ex ex0]; try discriminate Fx; [cbn in Hx; lra|].
      destruct sx; [|reflexivity]. exfalso. apply (Rlt_irrefl 1). apply Rlt_trans with (1 := Hx). apply Rlt_trans with 0%R; [|lra]. cbn [B2R]. apply F2R_lt_0. reflexivity.
    - assert (Ff : is_finite f = true).
      { destruct f as [sf|sf| |sf mf ef ef0]; try reflexivity; [destruct sf; [discriminate Hf0|discriminate Hf1]|discriminate Hf0]. }
      apply gt_real in Hf0; [|exact Ff|exact Z1]. rewrite Z2 in Hf0.
      assert (Hf1' : (B2R f <= 1)%R). { apply Rnot_lt_le. intros L. assert (T : f64_gt f (f64_of_Z 1) = true) by (apply gt_real; [exact Ff|exact O1|rewrite O2; exact L]). congruence. }
      destruct Hx as [->|(Fx & Hx)].
      + destruct f as [sf|sf| |sf mf ef ef0]; try discriminate Ff; [cbn in Hf0; lra|]. destruct sf; [|reflexivity].
        exfalso. apply (Rlt_irrefl 0). apply Rlt_trans with (1 := Hf0). cbn [B2R]. apply F2R_lt_0. reflexivity.
      + assert (Q : (B2R x <= B2R x / B2R f)%R).
        { rewrite <- (Rmult_1_r (B2R x)) at 1. apply Rmult_le_compat_l; [lra|]. rewrite <- Rinv_1 at 1. apply Rinv_le; lra. }
        assert (RQ : (B2R x <= round radix2 fe ZnearestE (B2R x / B2R f))%R) by (apply round_ge_generic; [typeclasses eauto|typeclasses eauto|apply generic_format_B2R|exact Q]).
        pose proof (Bdiv_correct 53 1024 f64_prec f64_emax mode_NE x f ltac:(apply Rgt_not_eq; lra)) as X. cbn [round_mode] in X.
        destruct (Rlt_bool _ _).
        * destruct X as (X1 & X2 & _). apply gt_real; [unfold f64_div; rewrite X2; exact Fx|exact O1|]. unfold f64_div. rewrite X1, O2. lra.
        * assert (S1 : Bsign x = false). { destruct x as [sx|sx| |sx mx ex ex0]; try discriminate Fx; [cbn in Hx; lra|]. destruct sx; [|reflexivity]. exfalso. apply (Rlt_irrefl 0). apply Rlt_trans with (B2R (B754_finite true mx ex ex0)); [lra|]. cbn [B2R]. apply F2R_lt_0. reflexivity. }
          assert (S2 : Bsign f = false). { destruct f as [sf|sf| |sf mf ef ef0]; try discriminate Ff; [cbn in Hf0; lra|]. destruct sf; [|reflexivity]. exfalso. apply (Rlt_irrefl 0). apply Rlt_trans with (1 := Hf0). cbn [B2R]. apply F2R_lt_0. reflexivity. }
          rewrite S1, S2 in X. cbn in X. unfold f64_div. destruct (Bdiv mode_NE x f); cbn in X; try discriminate X. injection X as ->. reflexivity. }
  induction fuel as [|fuel IH]; intros x i G; cbn [timing_loop]; rewrite G; [reflexivity|]. apply IH. apply St. exact G.
Qed.
Lemma cycles_finite start end_ overhead : is_finite (f64_of_Z (cycles start end_ overhead)) = true.
Proof. apply of_Z_finite. unfold cycles. pose proof (s64_range (u64 (u64 (end_ - start) - overhead))). unfold is_s64 in *. lia. Qed.
(** the time as a number, where it is counted *)
Lemma counted_time start end_ overhead : let delta := f64_of_Z (cycles start end_ overhead) in
  f64_gt delta (f64_of_Z 1) && f64_gt (f64_of_Z (2 * cpuFreq)) delta = true <-> 1 < cycles start end_ overhead < 2 * cpuFreq.
Proof.
  set (d := cycles start end_ overhead). pose proof (cycles_finite start end_ overhead) as Fd. fold d in Fd. intros delta. unfold delta. destruct one_val as (O1 & O2).
  destruct (of_Z_small (2 * cpuFreq) ltac:(unfold cpuFreq; lia)) as (C1 & C2). rewrite andb_true_iff, !gt_real by assumption. rewrite O2, C2.
  destruct (Z_lt_ge_dec (Z.abs d) (2^53)) as [L|L].
  - rewrite (proj2 (of_Z_small d L)). split; intros (A & B); split; try (apply lt_IZR; assumption); apply IZR_lt; assumption.
  - assert (Bd : Z.abs d <= 2^64). { unfold d, cycles. pose proof (s64_range (u64 (u64 (end_ - start) - overhead))). unfold is_s64 in *. lia. }
    destruct (of_Z_round d) as (_ & Rd).
    { apply Rle_lt_trans with (bpow radix2 64); [|apply bpow_lt; lia]. apply abs_round_le_generic; [typeclasses eauto|typeclasses eauto| |].
      - replace (bpow radix2 64) with (IZR 1 * bpow radix2 64)%R by lra. apply representable; lia.
      - rewrite <- abs_IZR. change (bpow radix2 64) with (IZR (2^64)). apply IZR_le. exact Bd. }
    rewrite Rd. split; [|intros; unfold cpuFreq in *; lia]. intros (A & B). exfalso. destruct (Z.le_ge_cases 0 d) as [P|P].
    + assert (T : (IZR 1 * bpow radix2 53 <= round radix2 fe ZnearestE (IZR d))%R).
      { apply round_ge_generic; [typeclasses eauto|typeclasses eauto|apply representable; lia|]. change (bpow radix2 53) with (IZR (2^53)). rewrite <- mult_IZR. apply IZR_le. lia. }
      change (bpow radix2 53) with (IZR (2^53)) in T. rewrite <- mult_IZR in T. assert (T2 : (IZR (2 * cpuFreq) < IZR (1 * 2^53))%R) by (apply IZR_lt; unfold cpuFreq; lia). lra.
    + assert (T : (round radix2 fe ZnearestE (IZR d) <= 0)%R) by (apply round_le_generic; [typeclasses eauto|typeclasses eauto|apply generic_format_0|apply IZR_le; lia]). lra.
Qed.
Lemma slot_good f start end_ overhead fuel : good_factor f -> (200 <= fuel)%nat -> exists slot, timing_slot fuel f start end_ overhead = Ok slot /\
  (slot <> None <-> 1 < cycles start end_ overhead < 2 * cpuFreq).
Proof.
  intros Hf Hn. unfold timing_slot. fold (cycles start end_ overhead). cbv zeta.
  pose proof (counted_time start end_ overhead) as CT. cbv zeta in CT. pose proof (cycles_finite start end_ overhead) as Fd. set (d := f64_of_Z (cycles start end_ overhead)) in *. destruct (_ && _) eqn:G.
  2:{ exists None. split; [reflexivity|]. rewrite <- CT. split; [congruence|discriminate]. }
  pose proof (proj1 CT eq_refl) as CT1. clear CT. apply andb_true_iff in G. destruct G as (G1 & G2).
  enough (E : exists j, timing_loop fuel f d 0 = Ok j /\ 1 <= j <= 200).
  { destruct E as (j & -> & L). cbn [bind]. replace ((0 <=? j - 1) && (j - 1 <? 200)) with true by lia. exists (Some (j - 1)). split; [reflexivity|]. split; [intros _; exact CT1|discriminate]. }
  destruct fuel as [|fuel]; [lia|]. cbn [timing_loop]. rewrite G1. destruct one_val as (O1 & O2).
  assert (ONE : f64_gt (f64_div d f) (f64_of_Z 1) = false -> exists j, timing_loop fuel f (f64_div d f) (0 + 1) = Ok j /\ 1 <= j <= 200).
  { intros E. exists 1. split; [|lia]. destruct fuel; cbn [timing_loop]; rewrite E; reflexivity. }
  assert (Gd : (1 < B2R d)%R) by (apply gt_real in G1; [rewrite O2 in G1; exact G1|exact Fd|exact O1]).
  destruct Hf as [Hf|[Hf| ->]].
  - destruct (is_finite f) eqn:Ff.
    + destruct nine_eighths_val as (N1 & N2). apply ge_real in Hf; [|exact Ff|exact N1]. rewrite N2 in Hf.
      destruct (loop_ends f Ff Hf 198 (S fuel) d 0 ltac:(lia) ltac:(lia) Fd) as (j & E & L).
      * split; [lra|]. apply gt_real in G2; [|apply (of_Z_small (2 * cpuFreq)); unfold cpuFreq; lia|exact Fd].
        rewrite (proj2 (of_Z_small (2 * cpuFreq) ltac:(unfold cpuFreq; lia))) in G2. unfold bd. change (Z.of_nat 198 mod 6) with 0. change (Z.of_nat 198 / 6 - 9) with 24. change (bd_m 0) with 512. change (bpow radix2 24) with (IZR 16777216).
        unfold cpuFreq in G2. assert (T : (IZR (2 * 3300000000) <= IZR 512 * IZR 16777216)%R) by (rewrite <- mult_IZR; apply IZR_le; lia). lra.
      * cbn [timing_loop] in E. rewrite G1 in E. exists j. split; [exact E|]. split; [|lia]. destruct (Z_lt_ge_dec j 1) as [Lj|Lj]; [|lia].
        exfalso. assert (M : forall n x i j, timing_loop n f x i = Ok j -> i <= j). { induction n as [|n IH]; intros x i k; cbn [timing_loop]; destruct (f64_gt x (f64_of_Z 1)); intros H; try discriminate; try (injection H; lia). apply IH in H. lia. }
        apply M in E. lia.
    + apply ONE. destruct f as [sf|sf| |sf mf ef ef0]; try discriminate Ff; [|discriminate Hf]. destruct sf; [discriminate Hf|]. destruct d as [sd|sd| |sd md ed ed0]; try discriminate Fd; reflexivity.
  - apply ONE. destruct (of_Z_small 0 ltac:(lia)) as (Z1 & Z2). destruct (is_finite f) eqn:Ff.
    + apply gt_real in Hf; [|exact Z1|exact Ff]. rewrite Z2 in Hf.
      assert (Q : (B2R d / B2R f <= 0)%R). { assert (/ B2R f < 0)%R by (apply Rinv_lt_0_compat; exact Hf). unfold Rdiv. rewrite <- (Rmult_0_r (B2R d)). apply Rmult_le_compat_l; lra. }
      assert (RQ : (round radix2 fe ZnearestE (B2R d / B2R f) <= 0)%R) by (apply round_le_generic; [typeclasses eauto|typeclasses eauto|apply generic_format_0|exact Q]).
      pose proof (Bdiv_correct 53 1024 f64_prec f64_emax mode_NE d f ltac:(apply Rlt_not_eq; exact Hf)) as X. cbn [round_mode] in X. destruct (Rlt_bool _ _).
      * destruct X as (X1 & X2 & _). apply not_true_iff_false. rewrite gt_real; [|unfold f64_div; rewrite X2; exact Fd|exact O1]. unfold f64_div. rewrite X1, O2. lra.
      * assert (S1 : Bsign d = false). { destruct d as [sx|sx| |sx mx ex ex0]; try discriminate Fd; [cbn in Gd; lra|]. destruct sx; [|reflexivity]. exfalso. apply (Rlt_irrefl 0). apply Rlt_trans with (B2R (B754_finite true mx ex ex0)); [lra|]. cbn [B2R]. apply F2R_lt_0. reflexivity. }
        assert (S2 : Bsign f = true). { destruct f as [sf|sf| |sf mf ef ef0]; try discriminate Ff; [cbn in Hf; lra|]. destruct sf; [reflexivity|]. exfalso. apply (Rlt_irrefl 0). apply Rlt_trans with (2 := Hf). cbn [B2R]. apply F2R_gt_0. reflexivity. }
        rewrite S1, S2 in X. cbn in X. unfold f64_div. destruct (Bdiv mode_NE d f); cbn in X; try discriminate X. injection X as ->. reflexivity.
    + destruct f as [sf|sf| |sf mf ef ef0]; try discriminate Ff; [|discriminate Hf]. destruct sf; [|discriminate Hf]. destruct d as [sd|sd| |sd md ed ed0]; try discriminate Fd; reflexivity.
  - apply ONE. destruct d as [sd|sd| |sd md ed ed0]; reflexivity.
Qed.

(** C93.  Timing the lookups with a factor of 1.125 or more (or a senseless one) changes no result: whatever the time stamps read before and after, a lookup
    returns what it returns without timing, panics only if that one does, and is counted in the table once if its time
    is more than one cycle and less than two seconds.  (Partial: not for factors between 0 and 1.125, below.) *)
Lemma pC93_same_partial : forall factor start end_ overhead fuel, good_factor factor -> (200 <= fuel)%nat ->
  exists slot, (slot <> None <-> 1 < cycles start end_ overhead < 2 * cpuFreq) /\ (forall i, slot = Some i -> 0 <= i < 200) /\
  (forall si id hint, (x <- FindNode_timed fuel (Some factor) start end_ overhead si id hint ;; Ok (fst (fst x), snd x)) = (r <- FindNode si id hint ;; Ok (r, slot))) /\
  (forall si id hint, (x <- FindLocations_timed fuel (Some factor) start end_ overhead si id hint ;; Ok (fst (fst x), snd x)) = (r <- FindLocations si id hint ;; Ok (r, slot))).
Proof.
  intros f st en ov fuel Hf Hn. destruct (slot_good f st en ov fuel Hf Hn) as (slot & E & H). exists slot. split; [exact H|]. split.
  - intros i ->. unfold timing_slot in E. destruct (_ && _); [|discriminate E]. destruct (timing_loop _ _ _ _) as [j| |]; try discriminate E. cbn [bind] in E. destruct (_ && _) eqn:B; [|discriminate E]. injection E as <-. lia.
  - unfold FindNode_timed, FindLocations_timed, timed. rewrite E. split; intros si id hint.
    + rewrite <- node_result. destruct (findNodeActual si id hint) as [[r c]| |]; reflexivity.
    + rewrite <- way_result. destruct (findLocationsActual si id hint) as [[r c]| |]; reflexivity.
Qed.
(** C93.  Timing with a factor from 0 to 1: no lookup that takes more than a cycle (and less than two seconds) ever returns. *)
Lemma pC93_never_returns_refuted : forall factor start end_ overhead, small_factor factor -> 1 < cycles start end_ overhead < 2 * cpuFreq ->
  (forall si id hint r, FindNode si id hint = Ok r -> forall fuel, FindNode_timed fuel (Some factor) start end_ overhead si id hint = Diverge) /\
  (forall si id hint r, FindLocations si id hint = Ok r -> forall fuel, FindLocations_timed fuel (Some factor) start end_ overhead si id hint = Diverge).
Proof.
  intros f st en ov Hf H. pose proof (proj2 (counted_time st en ov) H) as G. cbv zeta in G.
  assert (S : forall fuel, timing_slot fuel f st en ov = Diverge).
  { intros fuel. unfold timing_slot. fold (cycles st en ov). cbv zeta. rewrite G. apply andb_true_iff in G. rewrite (loop_never f Hf fuel _ 0 (proj1 G)). reflexivity. }
  unfold FindNode_timed, FindLocations_timed, timed. split; intros si id hint r E fuel.
  - rewrite <- node_result in E. destruct (findNodeActual si id hint) as [[r' c]| |]; try discriminate E. cbn [bind]. rewrite S. reflexivity.
  - rewrite <- way_result in E. destruct (findLocationsActual si id hint) as [[r' c]| |]; try discriminate E. cbn [bind]. rewrite S. reflexivity.
Qed.
(** C93.  Timing with the factor 17/16: a lookup that takes a second (3300000000 cycles) panics. *)
Lemma pC93_out_of_range_refuted : forall si id hint r, FindNode si id hint = Ok r ->
  FindNode_timed 400 (Some (f64_div (f64_of_Z 17) (f64_of_Z 16))) 1000 (3300000000 + 1000 + 20) 20 si id hint = Panic IndexOutOfRange.
Proof.
  intros si id hint r E. unfold FindNode_timed, timed. rewrite <- node_result in E. destruct (findNodeActual si id hint) as [[r' c]| |]; try discriminate E. cbn [bind].
  replace (timing_slot 400 (f64_div (f64_of_Z 17) (f64_of_Z 16)) 1000 (3300000000 + 1000 + 20) 20) with (@Panic (option Z) IndexOutOfRange) by (vm_compute; reflexivity). reflexivity.
Qed.
(** with the factor 2, a lookup of 1000 cycles is counted in slot 9 (2^9 < 1000 <= 2^10) *)
Lemma pC93_ex : good_factor (f64_of_Z 2) /\ small_factor (f64_div (f64_of_Z 1) (f64_of_Z 2)) /\ cycles 5000 6030 30 = 1000 /\
  FindNode_timed 200 (Some (f64_of_Z 2)) 5000 6030 30 (sub_index_of ex_ranges ex_locations 22) 12 1 = Ok (-7, 0, true, HitDefault, Some 9) /\
  FindNode (sub_index_of ex_ranges ex_locations 22) 12 1 = Ok (-7, 0, true) /\
  FindNode_timed 200 (Some (f64_of_Z 2)) 5000 5000 30 (sub_index_of ex_ranges ex_locations 22) 12 1 = Ok (-7, 0, true, HitDefault, None).
Proof. split; [left; vm_compute; reflexivity|]. split; [right; split; vm_compute; reflexivity|]. repeat split; vm_compute; reflexivity. Qed.

(** dividing by 2 is exact *)
Lemma two_div x : is_finite x = true -> (1 < B2R x)%R -> generic_format radix2 fe (B2R x / 2) -> is_finite (f64_div x (f64_of_Z 2)) = true /\ B2R (f64_div x (f64_of_Z 2)) = (B2R x / 2)%R.
Proof.
  intros Fx Hx G. destruct (of_Z_small 2 ltac:(lia)) as (T1 & T2).
  pose proof (Bdiv_correct 53 1024 f64_prec f64_emax mode_NE x (f64_of_Z 2) ltac:(rewrite T2; apply Rgt_not_eq; lra)) as X. cbn [round_mode] in X. rewrite T2 in X.
  rewrite (round_generic radix2 fe ZnearestE _ G) in X. rewrite Rlt_bool_true in X.
  - destruct X as (X1 & X2 & _). unfold f64_div. rewrite X1, X2. split; [exact Fx|reflexivity].
  - rewrite Rabs_pos_eq by lra. pose proof (abs_B2R_lt_emax 53 1024 x) as L. rewrite Rabs_pos_eq in L by lra. lra.
Qed.
Lemma loop_two d : 1 < d < 2^53 -> forall n fuel x k, (n <= fuel)%nat -> 0 <= k -> k + Z.of_nat n = Z.log2_up d -> is_finite x = true ->
  B2R x = (IZR d * bpow radix2 (- k))%R -> timing_loop fuel (f64_of_Z 2) x k = Ok (Z.log2_up d).
Proof.
  intros Hd. destruct one_val as (O1 & O2). pose proof (Z.log2_up_spec d ltac:(lia)) as (Lo & Hi).
  assert (GT : forall k, 0 <= k -> 2^k < d -> (1 < IZR d * bpow radix2 (- k))%R).
  { intros k Hk L. replace 1%R with (bpow radix2 k * bpow radix2 (- k))%R by (rewrite <- bpow_plus; replace (k + - k) with 0 by lia; reflexivity).
    apply Rmult_lt_compat_r; [apply bpow_gt_0|]. rewrite <- IZR_Zpower by lia. apply IZR_lt. exact L. }
  assert (LE : forall k, 0 <= k -> d <= 2^k -> (IZR d * bpow radix2 (- k) <= 1)%R).
  { intros k Hk L. replace 1%R with (bpow radix2 k * bpow radix2 (- k))%R by (rewrite <- bpow_plus; replace (k + - k) with 0 by lia; reflexivity).
    apply Rmult_le_compat_r; [apply bpow_ge_0|]. rewrite <- IZR_Zpower by lia. apply IZR_le. exact L. }
  assert (U : Z.log2_up d <= 53) by (rewrite <- (Z.log2_up_pow2 53) by lia; apply Z.log2_up_le_mono; lia).
  induction n as [|n IH]; intros fuel x k Hn Hk E Fx Hx.
  - assert (Ek : Z.log2_up d = k) by lia. rewrite Ek in Hi. assert (F : f64_gt x (f64_of_Z 1) = false).
    { apply not_true_iff_false. rewrite gt_real by assumption. rewrite O2, Hx. apply Rle_not_lt. apply LE; [exact Hk|exact Hi]. }
    rewrite Ek. destruct fuel; cbn [timing_loop]; rewrite F; reflexivity.
  - destruct fuel as [|fuel]; [lia|]. assert (L : 2^k < d).
    { eapply Z.le_lt_trans; [|exact Lo]. apply Z.pow_le_mono_r; lia. }
    assert (G1 : (1 < B2R x)%R) by (rewrite Hx; apply GT; assumption).
    cbn [timing_loop]. replace (f64_gt x (f64_of_Z 1)) with true by (symmetry; apply gt_real; [exact Fx|exact O1|rewrite O2; exact G1]).
    assert (Q : (B2R x / 2 = IZR d * bpow radix2 (- (k + 1)))%R).
    { rewrite Hx. replace (- (k + 1)) with (- k + -1) by lia. rewrite bpow_plus. change (bpow radix2 (-1)) with (/ 2)%R. lra. }
    destruct (two_div x Fx G1) as (A & B); [rewrite Q; apply representable; lia|]. apply IH; [lia|lia|lia|exact A|rewrite B; exact Q].
Qed.
(** C93.  With the factor 2, slot [i] of the table counts the lookups that took more than 2^i and at most 2^(i+1) cycles. *)
Lemma pC93_slot_of_two : forall start end_ overhead fuel si id hint r, (200 <= fuel)%nat -> FindNode si id hint = Ok r ->
  1 < cycles start end_ overhead < 2 * cpuFreq ->
  exists c i, FindNode_timed fuel (Some (f64_of_Z 2)) start end_ overhead si id hint = Ok (r, c, Some i) /\
    2^i < cycles start end_ overhead <= 2^(i + 1).
Proof.
  intros st en ov fuel si id hint r Hn E H. pose proof (proj2 (counted_time st en ov) H) as G. cbv zeta in G. unfold FindNode_timed, timed. rewrite <- node_result in E.
  destruct (findNodeActual si id hint) as [[r' c]| |]; try discriminate E. cbn [bind fst] in *. injection E as ->.
  unfold timing_slot. fold (cycles st en ov). cbv zeta. rewrite G. clear G. set (d := cycles st en ov) in *. clearbody d. unfold cpuFreq in H.
  destruct (of_Z_small d ltac:(lia)) as (Fd & Vd). pose proof (Z.log2_up_spec d ltac:(lia)) as (Lo & Hi). pose proof (Z.log2_up_pos d ltac:(lia)).
  assert (U : Z.log2_up d <= 53) by (rewrite <- (Z.log2_up_pow2 53) by lia; apply Z.log2_up_le_mono; lia).
  rewrite (loop_two d ltac:(lia) (Z.to_nat (Z.log2_up d)) fuel _ 0); [|lia|lia|lia|exact Fd|rewrite Vd; change (bpow radix2 (- 0)) with 1%R; lra].
  cbn [bind]. replace ((0 <=? Z.log2_up d - 1) && (Z.log2_up d - 1 <? 200)) with true by lia. cbn [bind]. exists c, (Z.log2_up d - 1). split; [reflexivity|].
  replace (Z.log2_up d - 1 + 1) with (Z.log2_up d) by lia. replace (Z.log2_up d - 1) with (Z.pred (Z.log2_up d)) by lia. split; assumption.
Qed.
