(** * BrThms: the progress bars (C98). *)
From Verif Require Import Base TModel TrModel TrSpec TmModel PgModel.
From Coq Require Import Reals Lra.
From Flocq Require Import Core BinarySingleNaN Relative.
From Verif Require Import BaseLemmas TmThms TrThms.
Local Open Scope Z_scope.

#[local] Instance fe_valid2 : Valid_exp fe. Proof. change fe with (FLT_exp (3 - 1024 - 53) 53). apply FLT_exp_valid. exact f64_prec. Qed.
#[local] Instance fe_mono : Monotone_exp fe. Proof. change fe with (FLT_exp (3 - 1024 - 53) 53). apply FLT_exp_monotone. Qed.
Notation rnd := (round radix2 fe ZnearestE).
Lemma rnd_le x y : (x <= y)%R -> (rnd x <= rnd y)%R.
Proof. apply round_le; typeclasses eauto. Qed.
Lemma rnd_err x e : -1000 <= e -> (Rabs x <= bpow radix2 e)%R -> (Rabs (rnd x - x) <= bpow radix2 (e - 53))%R.
Proof.
  intros He Hx. eapply Rle_trans; [apply error_le_half_ulp; typeclasses eauto|].
  assert (U : (ulp radix2 fe x <= ulp radix2 fe (bpow radix2 e))%R) by (apply ulp_le; [typeclasses eauto|typeclasses eauto|rewrite (Rabs_pos_eq (bpow radix2 e)) by apply bpow_ge_0; exact Hx]).
  rewrite ulp_bpow in U. replace (fe (e + 1)) with (e - 53 + 1) in U by (unfold SpecFloat.fexp, SpecFloat.emin; lia). rewrite bpow_plus in U. change (bpow radix2 1) with 2%R in U. lra.
Qed.
Lemma rnd_Z n : Z.abs n < 2^53 -> rnd (IZR n) = IZR n.
Proof.
  intros H. apply round_generic; [typeclasses eauto|]. pose proof (representable n 0 H ltac:(lia)) as X. replace (IZR n * bpow radix2 0)%R with (IZR n) in X by (cbn; lra). exact X.
Qed.
Lemma rnd_01 x : (0 <= x <= 1)%R -> (0 <= rnd x <= 1)%R.
Proof. intros H. pose proof (rnd_Z 0 ltac:(lia)) as A. pose proof (rnd_Z 1 ltac:(lia)) as B. pose proof (rnd_le 0 x). pose proof (rnd_le x 1). lra. Qed.
Lemma small_1024 x : (Rabs x <= bpow radix2 100)%R -> (Rabs x < bpow radix2 1024)%R.
Proof. intros H. apply Rle_lt_trans with (1 := H). apply bpow_lt. lia. Qed.
Lemma Rabs_01 x : (0 <= x <= 1)%R -> (Rabs x <= bpow radix2 0)%R.
Proof. intros H. rewrite Rabs_pos_eq by lra. change (bpow radix2 0) with 1%R. lra. Qed.

Lemma div_val x y : is_finite x = true -> (B2R y <> 0)%R -> (Rabs (rnd (B2R x / B2R y)) <= bpow radix2 100)%R ->
  is_finite (f64_div x y) = true /\ B2R (f64_div x y) = rnd (B2R x / B2R y).
Proof.
  intros Hx Hy Hb. unfold f64_div. pose proof (Bdiv_correct 53 1024 f64_prec f64_emax mode_NE x y Hy) as X. cbn [round_mode] in X.
  rewrite Rlt_bool_true in X by (apply small_1024; exact Hb). destruct X as (X1 & X2 & _). rewrite X2. auto.
Qed.
Lemma mult_val x y : is_finite x = true -> is_finite y = true -> (Rabs (rnd (B2R x * B2R y)) <= bpow radix2 100)%R ->
  is_finite (f64_mult x y) = true /\ B2R (f64_mult x y) = rnd (B2R x * B2R y).
Proof.
  intros Hx Hy Hb. unfold f64_mult. pose proof (Bmult_correct 53 1024 f64_prec f64_emax mode_NE x y) as X. cbn [round_mode] in X.
  rewrite Rlt_bool_true in X by (apply small_1024; exact Hb). destruct X as (X1 & X2 & _). rewrite X2, Hx, Hy. auto.
Qed.
Lemma plus_val x y : is_finite x = true -> is_finite y = true -> (Rabs (rnd (B2R x + B2R y)) <= bpow radix2 100)%R ->
  is_finite (f64_plus x y) = true /\ B2R (f64_plus x y) = rnd (B2R x + B2R y).
Proof.
  intros Hx Hy Hb. unfold f64_plus. pose proof (Bplus_correct 53 1024 f64_prec f64_emax mode_NE x y Hx Hy) as X. cbn [round_mode] in X.
  rewrite Rlt_bool_true in X by (apply small_1024; exact Hb). destruct X as (X1 & X2 & _). auto.
Qed.

(** x cut down to 0..1 *)
Definition cut01 (x : R) : R := Rmax 0 (Rmin x 1).
Lemma cut01_mono x y : (x <= y)%R -> (cut01 x <= cut01 y)%R.
Proof. intros H. unfold cut01, Rmax, Rmin. repeat destruct (Rle_dec _ _); lra. Qed.
Lemma cut01_range x : (0 <= cut01 x <= 1)%R.
Proof. unfold cut01, Rmax, Rmin. repeat destruct (Rle_dec _ _); lra. Qed.
Lemma cut01_near x y e : (0 <= y <= 1)%R -> (Rabs (x - y) <= e)%R -> (Rabs (cut01 x - y) <= e)%R.
Proof. intros H. unfold Rabs, cut01, Rmax, Rmin. repeat destruct (Rle_dec _ _); repeat destruct (Rcase_abs _); lra. Qed.
Lemma cut01_id x : (0 <= x <= 1)%R -> cut01 x = x.
Proof. intros H. unfold cut01, Rmax, Rmin. repeat destruct (Rle_dec _ _); lra. Qed.
Lemma zero_val : is_finite (f64_of_Z 0) = true /\ B2R (f64_of_Z 0) = 0%R. Proof. exact (of_Z_small 0 ltac:(lia)). Qed.
Lemma clamp_val x : is_finite x = true -> is_finite (clamp01 x) = true /\ B2R (clamp01 x) = cut01 (B2R x).
Proof.
  intros H. destruct zero_val as (Z1 & Z2), one_val as (O1 & O2). unfold clamp01, cut01.
  destruct (f64_gt (f64_of_Z 0) x) eqn:E0.
  - apply gt_real in E0; [|assumption|assumption]. rewrite Z2 in *. split; [exact Z1|]. unfold Rmax, Rmin. repeat destruct (Rle_dec _ _); lra.
  - assert (N0 : (0 <= B2R x)%R) by (apply Rnot_lt_le; intros C; rewrite <- Z2 in C; apply gt_real in C; congruence).
    destruct (f64_gt x (f64_of_Z 1)) eqn:E1.
    + apply gt_real in E1; [|assumption|assumption]. rewrite O2 in *. split; [exact O1|]. unfold Rmax, Rmin. repeat destruct (Rle_dec _ _); lra.
    + assert (N1 : (B2R x <= 1)%R) by (apply Rnot_lt_le; intros C; rewrite <- O2 in C; apply gt_real in C; congruence).
      split; [exact H|]. unfold Rmax, Rmin. repeat destruct (Rle_dec _ _); lra.
Qed.

Lemma bar_val w x : 0 < w < 2^31 -> is_finite x = true -> bar w x = Ztrunc (rnd (IZR w * cut01 (B2R x))) /\
  (0 <= rnd (IZR w * cut01 (B2R x)) <= IZR w)%R.
Proof.
  intros Hw Hx. destruct (clamp_val x Hx) as (C1 & C2). destruct (of_Z_small w ltac:(lia)) as (W1 & W2). pose proof (cut01_range (B2R x)) as R.
  assert (Pw : (0 < IZR w)%R) by (apply IZR_lt; lia).
  assert (B : (0 <= rnd (IZR w * cut01 (B2R x)) <= IZR w)%R).
  { split; [rewrite <- (rnd_Z 0) by lia|rewrite <- (rnd_Z w) at 2 by lia]; apply rnd_le; nra. }
  assert (Bb : (Rabs (rnd (B2R (f64_of_Z w) * B2R (clamp01 x))) <= bpow radix2 100)%R).
  { rewrite W2, C2, Rabs_pos_eq by lra. apply Rle_trans with (IZR w); [lra|]. change (bpow radix2 100) with (IZR (2^100)). apply IZR_le. lia. }
  destruct (mult_val _ _ W1 C1 Bb) as (M1 & M2). rewrite W2, C2 in M2. split; [|exact B].
  unfold bar, f64_int. rewrite M1. pose proof (Btrunc_correct 53 1024 f64_emax (f64_mult (f64_of_Z w) (clamp01 x))) as T. rewrite round_FIX_IZR in T. apply eq_IZR in T. rewrite T, M2.
  assert (T0 : 0 <= Ztrunc (rnd (IZR w * cut01 (B2R x))) <= w).
  { rewrite Ztrunc_floor by lra. split; [apply Zfloor_lub; cbn; lra|]. apply Z.le_trans with (Zfloor (IZR w)); [apply Zfloor_le; lra|rewrite Zfloor_IZR; lia]. }
  cbn [andb]. replace (_ && _) with true by lia. reflexivity.
Qed.
Lemma bar_range w x : 0 < w < 2^31 -> is_finite x = true -> 0 <= bar w x <= w.
Proof.
  intros Hw Hx. destruct (bar_val w x Hw Hx) as (-> & B). rewrite Ztrunc_floor by lra. split; [apply Zfloor_lub; cbn; lra|]. apply Z.le_trans with (Zfloor (IZR w)); [apply Zfloor_le; lra|rewrite Zfloor_IZR; lia].
Qed.
Lemma bar_mono w x y : 0 < w < 2^31 -> is_finite x = true -> is_finite y = true -> (B2R x <= B2R y)%R -> bar w x <= bar w y.
Proof.
  intros Hw Hx Hy H. destruct (bar_val w x Hw Hx) as (-> & B), (bar_val w y Hw Hy) as (-> & B'). apply Ztrunc_le, rnd_le, Rmult_le_compat_l; [apply IZR_le; lia|apply cut01_mono, H].
Qed.
(** how near the bar is to the true fraction *)
Definition dl : R := bpow radix2 (-18).
Lemma bar_near w x y : 0 < w < 2^31 -> is_finite x = true -> (0 <= y <= 1)%R -> (Rabs (B2R x - y) <= bpow radix2 (-50))%R ->
  (IZR (bar w x) - dl <= IZR w * y <= IZR (bar w x) + 1 + dl)%R.
Proof.
  intros Hw Hx Hy Hn. destruct (bar_val w x Hw Hx) as (-> & B). pose proof (cut01_near _ _ _ Hy Hn) as N. pose proof (cut01_range (B2R x)) as R. set (c := cut01 (B2R x)) in *. clearbody c. clear Hn.
  rewrite Ztrunc_floor by lra. pose proof (Zfloor_lb (rnd (IZR w * c))) as F1. pose proof (Zfloor_ub (rnd (IZR w * c))) as F2. set (f := IZR (Zfloor _)) in *. clearbody f.
  assert (W : (0 < IZR w < bpow radix2 31)%R) by (change (bpow radix2 31) with (IZR (2^31)); split; apply IZR_lt; lia).
  assert (E : (Rabs (rnd (IZR w * c) - IZR w * c) <= bpow radix2 (31 - 53))%R).
  { apply rnd_err; [lia|]. rewrite Rabs_pos_eq by nra. nra. }
  assert (D : (Rabs (IZR w * c - IZR w * y) <= bpow radix2 31 * bpow radix2 (-50))%R).
  { rewrite <- Rmult_minus_distr_l, Rabs_mult, (Rabs_pos_eq (IZR w)) by lra. apply Rmult_le_compat; try lra; apply Rabs_pos. }
  rewrite <- bpow_plus in D. change (31 + -50) with (-19) in D. change (31 - 53) with (-22) in E.
  assert (X : (bpow radix2 (-22) + bpow radix2 (-19) <= dl)%R).
  { unfold dl. replace (-19) with (-22 + 3) by lia. replace (-18) with (-22 + 4) by lia. rewrite !bpow_plus. change (bpow radix2 3) with 8%R. change (bpow radix2 4) with 16%R. pose proof (bpow_gt_0 radix2 (-22)). lra. }
  apply Rabs_le_inv in E, D. lra.
Qed.
Lemma dl_small : (0 < dl < 1/4)%R.
Proof. split; [apply bpow_gt_0|]. unfold dl. apply Rlt_le_trans with (bpow radix2 (-2)); [apply bpow_lt; lia|]. change (bpow radix2 (-2)) with (/4)%R. lra. Qed.

Lemma fraction_val at_ max : 0 < max < 2^53 -> 0 <= at_ <= max -> is_finite (fraction at_ max) = true /\ B2R (fraction at_ max) = rnd (IZR at_ / IZR max) /\
  (0 <= IZR at_ / IZR max <= 1)%R.
Proof.
  intros Hm Ha. destruct (of_Z_small at_ ltac:(lia)) as (A1 & A2), (of_Z_small max ltac:(lia)) as (M1 & M2).
  assert (P : (0 < IZR max)%R) by (apply IZR_lt; lia). assert (Q : (0 <= IZR at_ <= IZR max)%R) by (split; apply IZR_le; lia).
  assert (R : (0 <= IZR at_ / IZR max <= 1)%R).
  { split; [apply Rmult_le_pos; [lra|left; apply Rinv_0_lt_compat, P]|]. apply (Rmult_le_reg_r (IZR max)); [exact P|]. unfold Rdiv. rewrite Rmult_assoc, Rinv_l, Rmult_1_r, Rmult_1_l by lra. lra. }
  assert (B : (Rabs (rnd (B2R (f64_of_Z at_) / B2R (f64_of_Z max))) <= bpow radix2 100)%R).
  { rewrite A2, M2. pose proof (rnd_01 _ R). rewrite Rabs_pos_eq by lra. apply Rle_trans with (bpow radix2 0); [change (bpow radix2 0) with 1%R; lra|apply bpow_le; lia]. }
  destruct (div_val (f64_of_Z at_) (f64_of_Z max) A1) as (D1 & D2); [rewrite M2; lra|exact B|]. unfold fraction. rewrite D2, A2, M2. auto.
Qed.
Lemma frac_pos a m : 0 < m -> (IZR a / IZR m * IZR m = IZR a)%R.
Proof. intros H. unfold Rdiv. rewrite Rmult_assoc, Rinv_l, Rmult_1_r; [reflexivity|]. apply Rgt_not_eq, IZR_lt. lia. Qed.
Lemma near_0 y : (0 <= y <= 1)%R -> (Rabs (rnd y - y) <= bpow radix2 (-53))%R.
Proof. intros H. apply (rnd_err y 0); [lia|apply Rabs_01, H]. Qed.
Lemma bpow_50 : (5 * bpow radix2 (-53) <= bpow radix2 (-50))%R.
Proof. replace (-50) with (-53 + 3) by lia. rewrite bpow_plus. change (bpow radix2 3) with 8%R. pose proof (bpow_gt_0 radix2 (-53)). lra. Qed.

(** the bar is short of the width if the fraction is short of 1 *)
Lemma short_bar w z : 0 < w < 2^31 -> (0 <= z)%R -> (z <= IZR w * (1 - bpow radix2 (-53)))%R -> (rnd z < IZR w)%R.
Proof.
  intros Hw H0 Hz. assert (W : (1 <= IZR w)%R) by (apply IZR_le; lia). pose proof (bpow_gt_0 radix2 (-53)) as P.
  destruct (Rle_or_lt (bpow radix2 (-1000)) z) as [Hb|Hb].
  - assert (E : (Rabs (rnd z - z) <= / 2 * bpow radix2 (- 53 + 1) * Rabs z)%R).
    { change fe with (FLT_exp (3 - 1024 - 53) 53). apply relative_error_N_FLT; [reflexivity|]. rewrite Rabs_pos_eq by lra. apply Rle_trans with (2 := Hb). apply bpow_le. lia. }
    rewrite (Rabs_pos_eq z), bpow_plus in E by lra. change (bpow radix2 1) with 2%R in E. change (- (53)) with (-53) in E. apply Rabs_le_inv in E. nra.
  - assert (E : (rnd z <= bpow radix2 (-1000))%R).
    { rewrite <- (round_generic radix2 fe ZnearestE (bpow radix2 (-1000))); [apply rnd_le; lra|]. replace (bpow radix2 (-1000)) with (IZR 1 * bpow radix2 (-1000))%R by lra. apply representable; lia. }
    assert (bpow radix2 (-1000) < 1)%R by (change 1%R with (bpow radix2 0); apply bpow_lt; lia). lra.
Qed.

(** C98.  The bar of a fraction at/max (any numbers below 2^53, a line narrower than 2^31): the number of highlighted characters is at most
    the width; it is the width only when everything is done; it is off the exact share of the width by less than two characters; and it
    does not shrink as at grows. *)
Lemma pC98_bar : forall w at_ max, 0 < w < 2^31 -> 0 < max < 2^53 -> 0 <= at_ <= max ->
  let n := bar w (fraction at_ max) in
  0 <= n <= w /\ (n = w <-> at_ = max) /\ (n - 1) * max < w * at_ < (n + 2) * max.
Proof.
  intros w a m Hw Hm Ha n. destruct (fraction_val a m Hm Ha) as (F1 & F2 & F3). split; [apply bar_range; assumption|].
  assert (P : (0 < IZR m)%R) by (apply IZR_lt; lia).
  split.
  - split.
    + intros En. destruct (Z.eq_dec a m) as [|Na]; [assumption|exfalso].
      destruct (bar_val w (fraction a m) Hw F1) as (B1 & B2). rewrite F2 in B1, B2. rewrite (cut01_id _ (rnd_01 _ F3)) in B1, B2.
      assert (Q : (rnd (IZR a / IZR m) <= 1 - bpow radix2 (-53))%R).
      { assert (R : generic_format radix2 fe (1 - bpow radix2 (-53))).
        { replace (1 - bpow radix2 (-53))%R with (IZR (2^53 - 1) * bpow radix2 (-53))%R; [apply representable; lia|].
          rewrite minus_IZR, Rmult_minus_distr_r. change (IZR (2^53)) with (bpow radix2 53). rewrite <- bpow_plus. change (bpow radix2 (53 + -53)) with 1%R. lra. }
        rewrite <- (round_generic radix2 fe ZnearestE _ R). apply rnd_le.
        apply (Rmult_le_reg_r (IZR m)); [exact P|]. rewrite frac_pos by lia. 
        assert (IZR a <= IZR m - 1)%R by (rewrite <- minus_IZR; apply IZR_le; lia).
        assert (IZR m * bpow radix2 (-53) <= 1)%R.
        { apply Rle_trans with (bpow radix2 53 * bpow radix2 (-53))%R; [|rewrite <- bpow_plus; right; reflexivity]. apply Rmult_le_compat_r; [apply bpow_ge_0|]. change (bpow radix2 53) with (IZR (2^53)). apply IZR_le. lia. }
        nra. }
      pose proof (rnd_01 _ F3) as R0. assert (Wp : (0 < IZR w)%R) by (apply IZR_lt; lia).
      pose proof (short_bar w (IZR w * rnd (IZR a / IZR m)) Hw ltac:(nra) ltac:(nra)) as S.
      unfold n in En. rewrite B1, Ztrunc_floor in En by lra. pose proof (Zfloor_lb (rnd (IZR w * rnd (IZR a / IZR m)))) as L. rewrite En in L. lra.
    + intros ->. unfold n. destruct (bar_val w (fraction m m) Hw F1) as (B1 & _). rewrite B1, F2. replace (IZR m / IZR m)%R with 1%R by (field; lra).
      rewrite (rnd_Z 1) by lia. rewrite cut01_id by lra. rewrite Rmult_1_r, rnd_Z by lia. apply Ztrunc_IZR.
  - pose proof (near_0 _ F3) as N. rewrite <- F2 in N. pose proof bpow_50 as B5. pose proof (bpow_gt_0 radix2 (-53)).
    destruct (bar_near w (fraction a m) (IZR a / IZR m) Hw F1 F3 ltac:(lra)) as (L1 & L2). fold n in L1, L2. pose proof dl_small as D.
    assert (E : (IZR w * (IZR a / IZR m) * IZR m = IZR (w * a))%R) by (rewrite Rmult_assoc, frac_pos by lia; rewrite mult_IZR; reflexivity).
    split; apply lt_IZR; rewrite <- E, mult_IZR; apply Rmult_lt_compat_r; try exact P; [rewrite minus_IZR|rewrite plus_IZR]; lra.
Qed.
Lemma pC98_bar_grows : forall w at_ at_' max, 0 < w < 2^31 -> 0 < max < 2^53 -> 0 <= at_ <= at_' -> at_' <= max ->
  bar w (fraction at_ max) <= bar w (fraction at_' max).
Proof.
  intros w a a' m Hw Hm Ha Ha'. destruct (fraction_val a m Hm ltac:(lia)) as (F1 & F2 & _), (fraction_val a' m Hm ltac:(lia)) as (G1 & G2 & _).
  apply bar_mono; try assumption. rewrite F2, G2. apply rnd_le. unfold Rdiv. apply Rmult_le_compat_r; [left; apply Rinv_0_lt_compat, IZR_lt; lia|apply IZR_le; lia].
Qed.
(** C98.  Until everything is done, a line shows its text (padded to the width) with that many characters highlighted. *)
Lemma pC98_line : forall s w at_ max, 0 < w < 2^31 -> 0 < max < 2^53 -> 0 <= at_ < max ->
  exists m, MarkupAsProgressF s w (fraction at_ max) = Ok m /\
    let n := Z.to_nat (bar w (fraction at_ max)) in
    show N_style m = map (fun c => (c, S_style)) (firstn n (padded s w)) ++ map (fun c => (c, N_style)) (skipn n (padded s w)).
Proof.
  intros s w a m Hw Hm Ha. destruct (pC98_bar w a m Hw Hm ltac:(lia)) as (B1 & B2 & _). unfold MarkupAsProgressF.
  apply (proj1 (pC75_markup_partial s w (bar w (fraction a m)))); lia.
Qed.

(** *** several passes *)
Definition pass_y (pass count at_ max : Z) : R := if max =? 0 then (IZR pass / IZR count)%R else (IZR pass / IZR count + IZR at_ / IZR max / IZR count)%R.
Lemma div_le1 x c : 0 < c -> (0 <= x <= 1)%R -> (0 <= x / IZR c <= 1)%R /\ (x / IZR c <= x)%R.
Proof.
  intros Hc Hx. assert (P : (1 <= IZR c)%R) by (apply IZR_le; lia). assert (Q : (0 < / IZR c <= 1)%R) by (split; [apply Rinv_0_lt_compat; lra|rewrite <- Rinv_1; apply Rinv_le; lra]).
  unfold Rdiv. split; [split|]; nra.
Qed.
Lemma nan_fraction : is_nan (clamp01 (fraction 0 0)) = true. Proof. vm_compute. reflexivity. Qed.
Lemma finite_not_nan (x : f64) : is_finite x = true -> is_nan x = false. Proof. destruct x; try discriminate; reflexivity. Qed.
Lemma pass_y_range pass count at_ max : 0 <= pass < count -> 0 <= max -> 0 <= at_ <= max -> (0 <= pass_y pass count at_ max <= 1)%R.
Proof.
  intros Hp Hm Ha. assert (C : (0 < IZR count)%R) by (apply IZR_lt; lia). assert (Ci : (0 < / IZR count)%R) by (apply Rinv_0_lt_compat, C).
  assert (P0 : (0 <= IZR pass)%R) by (apply IZR_le; lia). assert (P1 : (IZR pass + 1 <= IZR count)%R) by (rewrite <- plus_IZR; apply IZR_le; lia).
  assert (Cc : (IZR count * / IZR count = 1)%R) by (apply Rinv_r; lra).
  unfold pass_y. destruct (max =? 0) eqn:E0.
  - unfold Rdiv. split; nra.
  - assert (F : (0 <= IZR at_ / IZR max <= 1)%R).
    { assert (P : (0 < IZR max)%R) by (apply IZR_lt; lia). split; [apply Rmult_le_pos; [apply IZR_le; lia|left; apply Rinv_0_lt_compat, P]|].
      apply (Rmult_le_reg_r (IZR max)); [exact P|]. rewrite frac_pos by lia. rewrite Rmult_1_l. apply IZR_le. lia. }
    unfold Rdiv in *. split; nra.
Qed.
Lemma pass_val pass count at_ max : 0 <= pass < count -> count < 2^53 -> 0 <= max < 2^53 -> 0 <= at_ <= max ->
  is_finite (pass_fraction pass count at_ max) = true /\
  B2R (pass_fraction pass count at_ max) = (if max =? 0 then rnd (IZR pass / IZR count) else rnd (rnd (IZR pass / IZR count) + rnd (rnd (IZR at_ / IZR max) / IZR count)))%R /\
  (Rabs (B2R (pass_fraction pass count at_ max) - pass_y pass count at_ max) <= bpow radix2 (-50))%R.
Proof.
  intros Hp Hc Hm Ha. destruct (fraction_val pass count ltac:(lia) ltac:(lia)) as (P1 & P2 & P3). unfold fraction in P1, P2. pose proof bpow_50 as B5. pose proof (bpow_gt_0 radix2 (-53)) as B0.
  pose proof (near_0 _ P3) as Np. unfold pass_fraction, pass_y. destruct (max =? 0) eqn:E0.
  - assert (max = 0) by lia. assert (at_ = 0) by lia. subst. rewrite nan_fraction. split; [exact P1|]. split; [exact P2|]. rewrite P2. lra.
  - destruct (fraction_val at_ max ltac:(lia) Ha) as (F1 & F2 & F3). destruct (clamp_val _ F1) as (C1 & C2). rewrite F2 in C2. pose proof (rnd_01 _ F3) as R0. rewrite cut01_id in C2 by exact R0.
    rewrite (finite_not_nan _ C1). destruct (of_Z_small count ltac:(lia)) as (N1 & N2).
    destruct (div_le1 (rnd (IZR at_ / IZR max)) count ltac:(lia) R0) as (D1 & _). pose proof (rnd_01 _ D1) as R1. pose proof (rnd_01 _ P3) as R2.
    assert (C : (0 < IZR count)%R) by (apply IZR_lt; lia).
    assert (X100 : forall z, (0 <= z <= 4)%R -> (Rabs z <= bpow radix2 100)%R).
    { intros z Hz. rewrite Rabs_pos_eq by lra. apply Rle_trans with (bpow radix2 2); [change (bpow radix2 2) with 4%R; lra|apply bpow_le; lia]. }
    destruct (div_val (clamp01 (fraction at_ max)) (f64_of_Z count) C1) as (S1 & S2); [rewrite N2; lra|rewrite C2, N2; apply X100; lra|]. rewrite C2, N2 in S2.
    set (P := rnd (IZR pass / IZR count)) in *. set (Q := rnd (IZR at_ / IZR max)) in *. set (S := rnd (Q / IZR count)) in *.
    assert (T0 : (0 <= rnd (P + S) <= 4)%R).
    { pose proof (rnd_Z 0 ltac:(lia)) as A. pose proof (rnd_Z 2 ltac:(lia)) as B. pose proof (rnd_le 0 (P + S)) as X. pose proof (rnd_le (P + S) 2) as Y. lra. }
    destruct (plus_val (f64_div (f64_of_Z pass) (f64_of_Z count)) (f64_div (clamp01 (fraction at_ max)) (f64_of_Z count)) P1 S1) as (T1 & T2); [rewrite P2, S2; apply X100, T0|].
    rewrite P2, S2 in T2. split; [exact T1|]. split; [exact T2|]. rewrite T2.
    assert (E1 : (Rabs (rnd (P + S) - (P + S)) <= bpow radix2 (1 - 53))%R).
    { apply rnd_err; [lia|]. rewrite Rabs_pos_eq by lra. change (bpow radix2 1) with 2%R. lra. }
    pose proof (near_0 _ D1) as E2. pose proof (near_0 _ F3) as E3. fold Q in E3. fold S in E2.
    assert (E4 : (Rabs (Q / IZR count - IZR at_ / IZR max / IZR count) <= bpow radix2 (-53))%R).
    { replace (Q / IZR count - IZR at_ / IZR max / IZR count)%R with ((Q - IZR at_ / IZR max) * / IZR count)%R by (unfold Rdiv; ring). rewrite Rabs_mult, (Rabs_pos_eq (/ IZR count)) by (left; apply Rinv_0_lt_compat, C).
      assert (I1 : (/ IZR count <= 1)%R) by (rewrite <- Rinv_1; apply Rinv_le; [lra|apply IZR_le; lia]). pose proof (Rabs_pos (Q - IZR at_ / IZR max)). assert (0 < / IZR count)%R by (apply Rinv_0_lt_compat, C). nra. }
    change (1 - 53) with (-53 + 1) in E1. rewrite bpow_plus in E1. change (bpow radix2 1) with 2%R in E1.
    apply Rabs_le_inv in E1, E2, E4, Np. apply Rabs_le. lra.
Qed.
(** C98.  The bar of several passes, while the given pass is at at/max of its file (max is 0 until the file is open): at most the width, and off the
    exact share by less than two characters. *)
Lemma pC98_pass_bar : forall w pass count at_ max, 0 < w < 2^31 -> 0 <= pass < count -> count < 2^53 -> 0 <= max < 2^53 -> 0 <= at_ <= max ->
  let n := bar w (pass_fraction pass count at_ max) in
  0 <= n <= w /\
  (0 < max -> (n - 1) * (count * max) < w * (pass * max + at_) < (n + 2) * (count * max)) /\
  (max = 0 -> (n - 1) * count < w * pass < (n + 2) * count).
Proof.
  intros w p c a m Hw Hp Hc Hm Ha n. destruct (pass_val p c a m Hp Hc Hm Ha) as (F1 & _ & F3). split; [apply bar_range; assumption|].
  pose proof (pass_y_range p c a m Hp ltac:(lia) Ha) as Y. destruct (bar_near w _ _ Hw F1 Y F3) as (L1 & L2). fold n in L1, L2. pose proof dl_small as D.
  assert (C : (0 < IZR c)%R) by (apply IZR_lt; lia). unfold pass_y in *. split.
  - intros Hm0. replace (m =? 0) with false in * by lia. assert (P : (0 < IZR m)%R) by (apply IZR_lt; lia).
    assert (E : (IZR w * (IZR p / IZR c + IZR a / IZR m / IZR c) * (IZR c * IZR m) = IZR (w * (p * m + a)))%R) by (rewrite mult_IZR, plus_IZR, mult_IZR; field; lra).
    assert (Q : (0 < IZR c * IZR m)%R) by (apply Rmult_lt_0_compat; assumption).
    split; apply lt_IZR; rewrite <- E, !mult_IZR; apply Rmult_lt_compat_r; try exact Q; [rewrite minus_IZR|rewrite plus_IZR]; lra.
  - intros Hm0. replace (m =? 0) with true in * by lia.
    assert (E : (IZR w * (IZR p / IZR c) * IZR c = IZR (w * p))%R) by (rewrite mult_IZR; field; lra).
    split; apply lt_IZR; rewrite <- E, mult_IZR; apply Rmult_lt_compat_r; try exact C; [rewrite minus_IZR|rewrite plus_IZR]; lra.
Qed.
(** C98.  It does not shrink within a pass. *)
Lemma pC98_pass_grows : forall w pass count at_ at_' max max', 0 < w < 2^31 -> 0 <= pass < count -> count < 2^53 -> 0 <= max < 2^53 ->
  0 <= at_ <= max -> at_ <= at_' <= max' -> max' = max \/ max = 0 -> 0 <= max' < 2^53 ->
  bar w (pass_fraction pass count at_ max) <= bar w (pass_fraction pass count at_' max').
Proof.
  intros w p c a a' m m' Hw Hp Hc Hm Ha Ha' Hmm Hm'. destruct (pass_val p c a m Hp Hc Hm Ha) as (F1 & F2 & _). destruct (pass_val p c a' m' Hp Hc Hm' ltac:(lia)) as (G1 & G2 & _).
  apply bar_mono; try assumption. rewrite F2, G2. assert (C : (0 < / IZR c)%R) by (apply Rinv_0_lt_compat, IZR_lt; lia).
  destruct (m =? 0) eqn:E0, (m' =? 0) eqn:E1; try lra.
  - destruct (fraction_val a' m' ltac:(lia) ltac:(lia)) as (_ & _ & R). pose proof (rnd_01 _ R) as R0. destruct (div_le1 _ c ltac:(lia) R0) as (D1 & _). pose proof (rnd_01 _ D1) as R1.
    rewrite <- (round_generic radix2 fe ZnearestE (rnd (IZR p / IZR c))) at 1 by (apply generic_format_round; typeclasses eauto). apply rnd_le. lra.
  - lia.
  - assert (m' = m) by lia. subst m'. assert (0 < / IZR m)%R by (apply Rinv_0_lt_compat, IZR_lt; lia).
    apply rnd_le, Rplus_le_compat_l, rnd_le. unfold Rdiv. apply Rmult_le_compat_r; [lra|]. apply rnd_le, Rmult_le_compat_r; [lra|apply IZR_le; lia].
Qed.
(** C98, partial: from one pass to a later one it shrinks by at most one character (see below). *)
Lemma pC98_later_pass_partial : forall w pass pass' count at_ at_' max max', 0 < w < 2^31 -> 0 <= pass < pass' -> pass' < count -> count < 2^53 ->
  0 <= at_ <= max -> max < 2^53 -> 0 <= at_' <= max' -> max' < 2^53 ->
  bar w (pass_fraction pass count at_ max) <= bar w (pass_fraction pass' count at_' max') + 1.
Proof.
  intros w p p' c a a' m m' Hw Hp Hp' Hc Ha Hm Ha' Hm'. destruct (pass_val p c a m ltac:(lia) Hc ltac:(lia) Ha) as (F1 & _ & F3). destruct (pass_val p' c a' m' ltac:(lia) Hc ltac:(lia) Ha') as (G1 & _ & G3).
  pose proof (pass_y_range p c a m ltac:(lia) ltac:(lia) Ha) as Y. pose proof (pass_y_range p' c a' m' ltac:(lia) ltac:(lia) Ha') as Y'.
  destruct (bar_near w _ _ Hw F1 Y F3) as (L1 & _). destruct (bar_near w _ _ Hw G1 Y' G3) as (_ & L2). pose proof dl_small as D.
  assert (C : (0 < / IZR c)%R) by (apply Rinv_0_lt_compat, IZR_lt; lia). assert (Pp : (IZR p + 1 <= IZR p')%R) by (rewrite <- plus_IZR; apply IZR_le; lia).
  assert (YY : (pass_y p c a m <= pass_y p' c a' m')%R).
  { assert (A1 : (pass_y p c a m <= (IZR p + 1) * / IZR c)%R).
    { unfold pass_y. destruct (m =? 0) eqn:E0; [unfold Rdiv; nra|]. destruct (Z.eq_dec m 0); [lia|].
      assert (P : (0 < IZR m)%R) by (apply IZR_lt; lia). assert (Q : (IZR a / IZR m <= 1)%R) by (apply (Rmult_le_reg_r (IZR m)); [exact P|]; rewrite frac_pos, Rmult_1_l by lia; apply IZR_le; lia). unfold Rdiv in *. nra. }
    assert (A2 : (IZR p' * / IZR c <= pass_y p' c a' m')%R).
    { unfold pass_y. destruct (m' =? 0) eqn:E0; [unfold Rdiv; lra|]. assert (P : (0 < / IZR m')%R) by (apply Rinv_0_lt_compat, IZR_lt; lia). assert (0 <= IZR a')%R by (apply IZR_le; lia). assert (0 <= IZR a' / IZR m')%R by (unfold Rdiv; nra). unfold Rdiv in *. nra. }
    nra. }
  assert (W : (0 < IZR w)%R) by (apply IZR_lt; lia).
  assert (B : (IZR (bar w (pass_fraction p c a m)) < IZR (bar w (pass_fraction p' c a' m') + 2))%R) by (rewrite plus_IZR; nra).
  apply lt_IZR in B. lia.
Qed.
(** C98 is false of the code for several passes: with 100 passes and a line of 100 characters, 29 characters are highlighted at the end of pass 29 and 28
    at the start of pass 30. *)
Lemma pC98_later_pass_refuted : bar 100 (pass_fraction 28 100 5000 5000) = 29 /\ bar 100 (pass_fraction 29 100 0 5000) = 28.
Proof. split; vm_compute; reflexivity. Qed.
Lemma pC98_ex : bar 80 (fraction 2500 10000) = 20 /\ bar 80 (fraction 0 0) = - 2^63 /\ bar 80 (pass_fraction 1 4 2500 10000) = 25 /\ bar 80 (pass_fraction 1 4 0 0) = 20.
Proof. split; [|split; [|split]]; vm_compute; reflexivity. Qed.
