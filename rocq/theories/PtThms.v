(** * PtThms: percentages (C108) and the line about the file (C109). *)
From Verif Require Import Base PbSpec PbModel TModel HLModel FrModel FrSpec ZlModel IoModel NiModel WiModel RiModel RwModel TfModel TrModel TrSpec TmModel PgModel PgSpec SlModel SlSpec SwModel PtModel PtSpec.
From Coq Require Import Reals Lra.
From Flocq Require Import Core BinarySingleNaN Relative.
From Verif Require Import BaseLemmas TmThms TrThms BrThms PgThms SlThms SrThms SySpec SyProofs SyThms.
Local Open Scope Z_scope.

(** ** rounding to tenths *)
Lemma nearest_div n d : 0 < d -> ZnearestE (IZR n / IZR d) = let q := n / d in let r := n mod d in if 2 * r <? d then q else if d <? 2 * r then q + 1 else if Z.even q then q else q + 1.
Proof.
  intros Hd. cbv zeta. set (q := n / d). set (r := n mod d). assert (E : n = d * q + r) by (apply Z.div_mod; lia). assert (Hr : 0 <= r < d) by (apply Z.mod_pos_bound; lia).
  clearbody q r. assert (P : (0 < IZR d)%R) by (apply IZR_lt; lia). assert (X : (IZR n / IZR d = IZR q + IZR r / IZR d)%R) by (rewrite E, plus_IZR, mult_IZR; field; lra).
  assert (R0 : (0 <= IZR r / IZR d)%R) by (apply Rmult_le_pos; [apply IZR_le; lia|left; apply Rinv_0_lt_compat, P]).
  assert (R1 : (IZR r / IZR d * IZR d = IZR r)%R) by (apply frac_pos; lia). set (f := (IZR r / IZR d)%R) in *. clearbody f.
  assert (Rr : (IZR r < IZR d)%R) by (apply IZR_lt; lia). assert (F1 : (f < 1)%R) by nra.
  assert (Fl : Zfloor (IZR n / IZR d) = q) by (apply Zfloor_imp; rewrite X, plus_IZR; lra).
  unfold Znearest. rewrite Fl, X. replace (IZR q + f - IZR q)%R with f by lra.
  assert (Ce : 0 < r -> Zceil (IZR q + f) = q + 1).
  { intros H. apply Zceil_imp. replace (q + 1 - 1) with q by lia. rewrite plus_IZR. assert (0 < IZR r)%R by (apply IZR_lt; lia). assert (0 < f)%R by nra. lra. }
  destruct (Z.ltb_spec (2 * r) d) as [H|H].
  - rewrite Rcompare_Lt; [reflexivity|]. apply IZR_lt in H. rewrite mult_IZR in H. nra.
  - destruct (Z.ltb_spec d (2 * r)) as [H'|H'].
    + rewrite Rcompare_Gt; [apply Ce; lia|]. apply IZR_lt in H'. rewrite mult_IZR in H'. nra.
    + assert (Q : d = 2 * r) by lia. rewrite Rcompare_Eq; [|assert (QR : (IZR d = 2 * IZR r)%R) by (rewrite Q, mult_IZR; reflexivity); nra].
      rewrite Ce by lia. destruct (Z.even q); reflexivity.
Qed.
Lemma round_tenths_val m e : round_tenths m e = ZnearestE (10 * (IZR m * bpow radix2 e)).
Proof.
  unfold round_tenths. destruct (Z.leb_spec 0 e) as [H|H].
  - rewrite <- (IZR_Zpower radix2 e H), <- !mult_IZR. change (radix2 : Z) with 2. symmetry. rewrite <- (Znearest_imp (fun x => negb (Z.even x)) (IZR (10 * (m * 2 ^ e))) (10 * m * 2 ^ e)); [reflexivity|].
    rewrite <- minus_IZR. replace (10 * (m * 2 ^ e) - 10 * m * 2 ^ e) with 0 by ring. rewrite Rabs_R0. lra.
  - pose proof (nearest_div (10 * m) (2 ^ (- e)) ltac:(apply Z.pow_pos_nonneg; lia)) as X. cbv zeta in X |- *. rewrite <- X. f_equal.
    change 2 with (radix2 : Z) at 1. rewrite (IZR_Zpower radix2 (- e)) by lia. rewrite bpow_opp, mult_IZR. field. apply Rgt_not_eq, bpow_gt_0.
Qed.
Lemma Znearest_mono x y : (x <= y)%R -> ZnearestE x <= ZnearestE y.
Proof. intros H. destruct (valid_rnd_N (fun x => negb (Z.even x))) as [M _]. exact (M x y H). Qed.

Lemma nearest_IZR n : ZnearestE (IZR n) = n.
Proof. destruct (valid_rnd_N (fun x => negb (Z.even x))) as [_ M]. exact (M n). Qed.

Lemma tenths_digit t : tenths_text t = decimal 20 (t / 10) ++ bytes_of "." ++ decimal 20 (t mod 10).
Proof. unfold tenths_text, shown_number. do 2 f_equal. cbn [decimal]. pose proof (Z.mod_pos_bound t 10 ltac:(lia)). replace (t mod 10 <? 10) with true by lia. reflexivity. Qed.
(** the text of a number that is not negative *)
Lemma percent_text_val (x : f64) : is_finite x = true -> Bsign x = false -> percent_text x = tenths_text (ZnearestE (10 * B2R x)).
Proof.
  intros F Sg. destruct x as [s| | |s m e b]; try discriminate F; cbn [Bsign] in Sg; subst s.
  - cbn [B2R percent_text]. replace (10 * 0)%R with (IZR 0) by lra. rewrite nearest_IZR. reflexivity.
  - cbn [percent_text B2R]. rewrite round_tenths_val. rewrite tenths_digit. reflexivity.
Qed.

Lemma of_Z_sign n : 0 <= n < 2^53 -> Bsign (f64_of_Z n) = false.
Proof.
  intros H. assert (G : generic_format radix2 fe (IZR n)).
  { pose proof (representable n 0 ltac:(lia) ltac:(lia)) as X. replace (IZR n * bpow radix2 0)%R with (IZR n) in X by (cbn; lra). exact X. }
  pose proof (binary_normalize_correct 53 1024 f64_prec f64_emax mode_NE n 0 false) as X. cbv zeta in X.
  assert (E : F2R (Float radix2 n 0) = IZR n) by (unfold F2R; cbn; lra). rewrite E in X. cbn [round_mode] in X.
  assert (B : (0 <= IZR n)%R) by (apply IZR_le; lia).
  rewrite Rlt_bool_true in X.
  - destruct X as (_ & _ & X). unfold f64_of_Z. rewrite X. destruct (Rcompare_spec (IZR n) 0); [lra|reflexivity|reflexivity].
  - rewrite round_generic by (typeclasses eauto || exact G). apply small_1024. rewrite Rabs_pos_eq by exact B. apply Rle_trans with (bpow radix2 53); [|apply bpow_le; lia]. change (bpow radix2 53) with (IZR (2^53)). apply IZR_le. lia.
Qed.
Lemma fraction_sign a m : 0 < m < 2^53 -> 0 <= a <= m -> Bsign (fraction a m) = false.
Proof.
  intros Hm Ha. destruct (fraction_val a m Hm Ha) as (F1 & F2 & F3). destruct (of_Z_small m ltac:(lia)) as (M1 & M2). destruct (of_Z_small a ltac:(lia)) as (A1 & A2).
  assert (P : (0 < IZR m)%R) by (apply IZR_lt; lia). unfold fraction, f64_div in *.
  pose proof (Bdiv_correct 53 1024 f64_prec f64_emax mode_NE (f64_of_Z a) (f64_of_Z m) ltac:(rewrite M2; lra)) as X. cbn [round_mode] in X.
  rewrite Rlt_bool_true in X.
  - destruct X as (_ & _ & X). rewrite X by (apply finite_not_nan, F1). rewrite !of_Z_sign by lia. reflexivity.
  - rewrite A2, M2. apply small_1024. pose proof (rnd_01 _ F3). rewrite Rabs_pos_eq by lra. apply Rle_trans with (bpow radix2 0); [change (bpow radix2 0) with 1%R; lra|apply bpow_le; lia].
Qed.
(** the percentage of a/m *)
Definition pct (a m : Z) : R := rnd (100 * rnd (IZR a / IZR m)).
Lemma percent_val a m : 0 < m < 2^53 -> 0 <= a <= m ->
  percent_text (percent (fraction a m)) = tenths_text (ZnearestE (10 * pct a m)) /\ (0 <= pct a m <= 100)%R /\ (Rabs (pct a m - 100 * (IZR a / IZR m)) <= bpow radix2 (-45))%R.
Proof.
  intros Hm Ha. destruct (fraction_val a m Hm Ha) as (F1 & F2 & F3). destruct (of_Z_small 100 ltac:(lia)) as (H1 & H2). pose proof (rnd_01 _ F3) as R0. pose proof (near_0 _ F3) as N0.
  set (f := rnd (IZR a / IZR m)) in *. assert (P : (0 <= rnd (100 * f) <= 100)%R).
  { pose proof (rnd_Z 0 ltac:(lia)) as A. pose proof (rnd_Z 100 ltac:(lia)) as B. pose proof (rnd_le 0 (100 * f)). pose proof (rnd_le (100 * f) 100). lra. }
  assert (Bd : (Rabs (rnd (B2R (f64_of_Z 100) * B2R (fraction a m))) <= bpow radix2 100)%R).
  { rewrite H2, F2. fold f. rewrite Rabs_pos_eq by lra. apply Rle_trans with (bpow radix2 7); [change (bpow radix2 7) with 128%R; lra|apply bpow_le; lia]. }
  destruct (mult_val _ _ H1 F1 Bd) as (M1 & M2). rewrite H2, F2 in M2. fold f in M2.
  split; [|split; [exact P|]].
  - unfold percent. rewrite percent_text_val; [|exact M1|].
    + rewrite M2. reflexivity.
    + unfold f64_mult in *. pose proof (Bmult_correct 53 1024 f64_prec f64_emax mode_NE (f64_of_Z 100) (fraction a m)) as X. cbn [round_mode] in X. rewrite Rlt_bool_true in X by (apply small_1024; exact Bd).
      destruct X as (_ & _ & X). rewrite X by (apply finite_not_nan, M1). rewrite (of_Z_sign 100), (fraction_sign a m Hm Ha) by lia. reflexivity.
  - unfold pct. fold f. assert (E : (Rabs (rnd (100 * f) - 100 * f) <= bpow radix2 (7 - 53))%R).
    { apply rnd_err; [lia|]. rewrite Rabs_pos_eq by lra. change (bpow radix2 7) with 128%R. lra. }
    change (7 - 53) with (-53 + 7) in E. replace (-45) with (-53 + 8) by lia. rewrite bpow_plus in *. change (bpow radix2 7) with 128%R in E. change (bpow radix2 8) with 256%R. pose proof (bpow_gt_0 radix2 (-53)).
    apply Rabs_le_inv in E, N0. apply Rabs_le. lra.
Qed.
Lemma tenths_right a m : 0 < m < 2^53 -> 0 <= a <= m -> tenths_of a m (ZnearestE (10 * pct a m)).
Proof.
  intros Hm Ha. destruct (percent_val a m Hm Ha) as (_ & P & E). split.
  - split; [rewrite <- (nearest_IZR 0)|rewrite <- (nearest_IZR 1000)]; apply Znearest_mono; lra.
  - pose proof (Znearest_half (fun x => negb (Z.even x)) (10 * pct a m)) as Hh. set (t := ZnearestE (10 * pct a m)) in *. fold t in Hh. clearbody t. set (p := pct a m) in *. clearbody p.
    assert (M : (0 < IZR m)%R) by (apply IZR_lt; lia). pose proof (frac_pos a m ltac:(lia)) as Q. set (y := (IZR a / IZR m)%R) in *. clearbody y.
    assert (D : (Rabs (2 * IZR t - 2000 * y) <= 1 + bpow radix2 (-40))%R).
    { replace (-40) with (-45 + 5) by lia. rewrite bpow_plus. change (bpow radix2 5) with 32%R. pose proof (bpow_gt_0 radix2 (-45)). apply Rabs_le_inv in Hh, E. apply Rabs_le. lra. }
    assert (X : (Rabs (IZR (2 * (t * m) - 2 * (1000 * a))) <= (1 + bpow radix2 (-40)) * IZR m)%R).
    { rewrite minus_IZR, !mult_IZR. replace (2 * (IZR t * IZR m) - 2 * (1000 * IZR a))%R with ((2 * IZR t - 2000 * y) * IZR m)%R by (rewrite <- Q; ring). rewrite Rabs_mult, (Rabs_pos_eq (IZR m)) by lra. apply Rmult_le_compat_r; lra. }
    apply le_IZR. rewrite !mult_IZR, abs_IZR, plus_IZR. apply Rle_trans with (IZR (2^40) * ((1 + bpow radix2 (-40)) * IZR m))%R; [apply Rmult_le_compat_l; [apply IZR_le; lia|exact X]|].
    right. rewrite <- Rmult_assoc, Rmult_plus_distr_l. change (IZR (2^40)) with (bpow radix2 40) at 2. rewrite <- bpow_plus. change (bpow radix2 (40 + -40)) with 1%R. ring.
Qed.
Lemma pct_mono a a' m : 0 < m -> a <= a' -> (pct a m <= pct a' m)%R.
Proof.
  intros Hm H. unfold pct. apply rnd_le, Rmult_le_compat_l; [lra|]. apply rnd_le. unfold Rdiv. apply Rmult_le_compat_r; [left; apply Rinv_0_lt_compat, IZR_lt; lia|apply IZR_le; lia].
Qed.

(** C108.  The percentage shown with numbers a/m (below 2^53): a number of tenths from 0.0 to 100.0, off 100*a/m by at most half a tenth (and one part in 2^40 more). *)
Lemma pC108_percent : forall a m, 0 < m < 2^53 -> 0 <= a <= m -> exists t, percent_text (percent (fraction a m)) = tenths_text t /\ tenths_of a m t.
Proof. intros a m Hm Ha. eexists. split; [exact (proj1 (percent_val a m Hm Ha))|apply tenths_right; assumption]. Qed.
(** C108.  It does not become smaller as a grows. *)
Lemma pC108_grows : forall a a' m, 0 < m < 2^53 -> 0 <= a <= a' -> a' <= m -> exists t t',
  percent_text (percent (fraction a m)) = tenths_text t /\ percent_text (percent (fraction a' m)) = tenths_text t' /\ tenths_of a m t /\ tenths_of a' m t' /\ t <= t'.
Proof.
  intros a a' m Hm Ha Ha'. do 2 eexists. split; [exact (proj1 (percent_val a m Hm ltac:(lia)))|]. split; [exact (proj1 (percent_val a' m Hm ltac:(lia)))|].
  split; [apply tenths_right; lia|]. split; [apply tenths_right; lia|]. apply Znearest_mono. pose proof (pct_mono a a' m). lra || (apply Rmult_le_compat_l; [lra|]; apply pct_mono; lia).
Qed.
(** C108.  At the start it is 0.0, at the end 100.0. *)
Lemma pC108_ends : forall m, 0 < m < 2^53 -> percent_text (percent (fraction 0 m)) = bytes_of "0.0" /\ percent_text (percent (fraction m m)) = bytes_of "100.0".
Proof.
  intros m Hm. assert (P : (0 < IZR m)%R) by (apply IZR_lt; lia). rewrite (proj1 (percent_val 0 m Hm ltac:(lia))), (proj1 (percent_val m m Hm ltac:(lia))). unfold pct.
  replace (IZR 0 / IZR m)%R with (IZR 0) by (field; lra). replace (IZR m / IZR m)%R with (IZR 1) by (field; lra). rewrite !rnd_Z by lia.
  replace (100 * IZR 0)%R with (IZR 0) by lra. replace (100 * IZR 1)%R with (IZR 100) by lra. rewrite !rnd_Z by lia.
  replace (10 * 0)%R with (IZR 0) by lra. replace (10 * 100)%R with (IZR 1000) by lra. rewrite !nearest_IZR. split; reflexivity.
Qed.
(** "100.0%" is also shown before the end: at 9996 of 10000.  With nothing to do there is no number: with nothing to copy the node index says NaN%. *)
Lemma pC108_end_refuted : percent_text (percent (fraction 9996 10000)) = bytes_of "100.0" /\ 9996 < 10000.
Proof. split; [vm_compute; reflexivity|lia]. Qed.
(** an operating system that writes and copies at most ten bytes at a time, as SyThms.ex_ten; and no messages *)
Definition ex_tens : os := ex_ten.
Lemma ex_none_deeds : fst (ni_output_told ex_tens [] w0) =
  [Store CState 0; Doing Waiting; Store CTotal 0; Store CState 3; Doing (Copying 0 0); Doing (Copying 0 0); Store CState 4; Doing Finalizing].
Proof. vm_compute. reflexivity. Qed.
Lemma pC108_nothing_refuted : let ds := fst (ni_output_told ex_tens [] w0) in
  doing ds 5 (Copying 0 0) /\ look ds 5 ix_writer_widget 5 (Bar (bytes_of "Writer: copying locations (0/0) NaN%") (fraction 0 0)).
Proof.
  cbv zeta. rewrite ex_none_deeds. split; [apply doing_nth; reflexivity|].
  replace (Bar (bytes_of "Writer: copying locations (0/0) NaN%") (fraction 0 0)) with (copy_line 0 0) by (unfold copy_line; f_equal; vm_compute; reflexivity).
  do 3 at_load 5%nat 5%nat. apply look_show.
Qed.
Lemma pC108_ex : percent_text (percent (fraction 1 3)) = bytes_of "33.3" /\ tenths_of 1 3 333 /\ percent_text (percent (fraction 12345 99999)) = bytes_of "12.3" /\
  percent_text (percent (fraction 1 1000)) = bytes_of "0.1" /\ percent_text (percent (fraction 7 8)) = bytes_of "87.5" /\ tenths_text 875 = bytes_of "87.5" /\ tenths_text 1000 = bytes_of "100.0".
Proof. unfold tenths_of. split; [|split; [lia|split; [|split; [|split; [|split]]]]]; vm_compute; reflexivity. Qed.

(** ** the line about the file *)
Definition pstates (s : ppc * pfs * Z) : Prop :=
  let '(pc, p, sent) := s in
  match pc with
  | PStart | PMax => p_state p = Initializing
  | PLoop | PDown => p_state p = Initializing \/ p_state p = SendingBlock
  | PLoading | PHeader _ | PType _ => p_state p = LoadingBlock
  | PSend _ => p_state p = SendingBlock
  | PEnd => p_state p = ShuttingDown
  end.
Lemma pstates_step file c s s' : pstates s -> pstep file c s = Ok s' -> pstates s'.
Proof.
  destruct s as ((pc & p) & n). intros H E. unfold pstep in E.
  destruct pc; cbn [pstates] in H;
    repeat match type of E with context [if ?b then _ else _] => destruct b; try discriminate
      | bind ?r _ = _ => destruct r; try discriminate; cbn [bind] in E end; injection E as <-; cbn [pstates p_state]; auto.
Qed.
Lemma run_states file cs i x : nth_error (file_run file cs) i = Some x -> pstates x.
Proof. intros E. refine (prun_inv file pstates _ cs _ i x _ E); [|exact eq_refl]. intros c s s' Hs E1. apply (pstates_step file c s s' Hs E1). Qed.

(** while the state is not Initializing, the file is not empty *)
Definition nonempty_seen (file : list Z) (s : ppc * pfs * Z) : Prop :=
  let '(pc, p, sent) := s in
  (p_state p = LoadingBlock \/ p_state p = SendingBlock -> 0 < zlen file) /\
  match pc with PStart | PMax => p_state p = Initializing | _ => p_max p = zlen file end /\
  match pc with PStart | PMax | PDown | PEnd | PLoop => True | _ => 0 < zlen file end /\ 0 <= p_at p.
Lemma start_nonempty file : nonempty_seen file (PStart, mkPfs Initializing 0 0, 0).
Proof. cbn. split; [intros [X|X]; discriminate X|]. repeat split. lia. Qed.
Lemma nonempty_step file c s s' : nonempty_seen file s -> pstep file c s = Ok s' -> nonempty_seen file s'.
Proof.
  destruct s as ((pc & p) & n). intros (H1 & H2 & H3 & H4) E. unfold pstep in E.
  destruct pc; repeat match type of E with context [if ?b then _ else _] => destruct b eqn:?; try discriminate
      | bind ?r _ = _ => destruct r; try discriminate; cbn [bind] in E end; injection E as <-; cbn [nonempty_seen p_state p_max p_at];
    repeat split; intros; auto; try lia; try (apply u64_range); try (destruct H as [H|H]; unfold Initializing, LoadingBlock, SendingBlock, ShuttingDown in *; lia).
Qed.

Definition doing_words (sending : bool) : string := if sending then "sending block" else "loading block".
Lemma process_line_bar action filename (sending : bool) a m : process_line action filename (if sending then SendingBlock else LoadingBlock) a m =
  Bar (about_file action filename (bytes_of (doing_words sending) ++ bytes_of " " ++ shown_number a ++ bytes_of "/" ++ shown_number m ++ bytes_of " " ++ percent_text (percent (fraction a m))) ++ bytes_of "%") (fraction a m).
Proof. unfold process_line, process_prefix, about_file, d_, shown_number. destruct sending; cbn [Z.eqb Initializing LoadingBlock SendingBlock orb]; f_equal; rewrite <- !app_assoc; reflexivity. Qed.
Lemma process_line_val action filename (sending : bool) a m : 0 < m < 2^53 -> 0 <= a <= m -> process_line action filename (if sending then SendingBlock else LoadingBlock) a m =
  Bar (about_file action filename (progress_text (doing_words sending) a m (ZnearestE (10 * pct a m))) ++ bytes_of "%") (fraction a m).
Proof. intros Hm Ha. rewrite process_line_bar, (proj1 (percent_val a m Hm Ha)). reflexivity. Qed.

(** C109.  Whatever the file's bytes are (less than 2^53 of them) and whenever the line is made (the three reads at moments i <= j <= k of the run): the line is one of
    four; it names the tool and the file; "loading block" or "sending block" is followed by the position at moment j, the size of the file and their percentage. *)
Lemma pC109_line : forall action filename file choices i j k state a m, bytes file -> zlen file < 2^53 ->
  glance (file_run file choices) i j k state a m ->
  let l := process_line action filename state a m in
  state = Initializing /\ l = Text (about_file action filename (bytes_of "initializing")) \/
  (state = LoadingBlock \/ state = SendingBlock) /\ m = zlen file /\ 0 < m /\ 0 <= a <= m /\ (exists t, tenths_of a m t /\
    l = Bar (about_file action filename (progress_text (if state =? SendingBlock then "sending block" else "loading block") a m t) ++ bytes_of "%") (fraction a m)) \/
  state = ShuttingDown /\ l = Text (about_file action filename (bytes_of "shutting down")).
Proof.
  intros action filename file cs i j k st a m Hb L G l.
  assert (St : (st = Initializing \/ st = LoadingBlock \/ st = SendingBlock \/ st = ShuttingDown) /\ (st = LoadingBlock \/ st = SendingBlock -> 0 < zlen file)).
  { destruct G as (_ & (pc & p & n & E & <-) & _). pose proof (run_states _ _ _ _ E) as X. split; [destruct pc; cbn [pstates] in X; tauto|].
    intros Hs. assert (N : nonempty_seen file (pc, p, n)).
    { refine (prun_inv file (nonempty_seen file) _ cs _ i _ (start_nonempty file) E). intros c s s' Hs1 E1. apply (nonempty_step file c s s' Hs1 E1). }
    cbn [nonempty_seen] in N. apply N. exact Hs. }
  destruct St as ([-> | [-> | [-> | ->]]] & Pz).
  - left. split; [reflexivity|]. unfold l, process_line. cbn [Z.eqb Pos.eqb orb Initializing LoadingBlock SendingBlock ShuttingDown]. unfold process_prefix, about_file. rewrite <- !app_assoc. reflexivity.
  - right. left. destruct (pC97_numbers file cs i j k _ a m Hb ltac:(lia) G ltac:(auto)) as (-> & A). split; [auto|]. split; [reflexivity|]. split; [apply Pz; auto|]. split; [exact A|].
    eexists. split; [apply tenths_right; [split; [apply Pz; auto|lia]|exact A]|]. apply (process_line_val action filename false); [split; [apply Pz; auto|lia]|exact A].
  - right. left. destruct (pC97_numbers file cs i j k _ a m Hb ltac:(lia) G ltac:(auto)) as (-> & A). split; [auto|]. split; [reflexivity|]. split; [apply Pz; auto|]. split; [exact A|].
    eexists. split; [apply tenths_right; [split; [apply Pz; auto|lia]|exact A]|]. apply (process_line_val action filename true); [split; [apply Pz; auto|lia]|exact A].
  - right. right. split; [reflexivity|]. unfold l, process_line. cbn [Z.eqb Pos.eqb orb Initializing LoadingBlock SendingBlock ShuttingDown]. unfold process_prefix, about_file. rewrite <- !app_assoc. reflexivity.
Qed.

(** C109.  What it says is so: while the line said "loading block" (at moment i) the goroutine was reading a header; while "sending block", a block was being sent or had just
    been sent (or the run was about to shut down); while "initializing", no block had been sent; while "shutting down", no more were sent, and, if nothing was cancelled and the
    file is one of frames, all had been. *)
Lemma no_cancel_whole file fbs : bytes file -> zlen file < 2^63 -> frames file fbs -> forall cs s i x, ~ In true (firstn i cs) -> pos fbs s -> whole fbs s ->
  nth_error (prun file cs s) i = Some x -> pos fbs x /\ whole fbs x.
Proof.
  intros Hb L Hf. induction cs as [|c cs IH]; intros s i x Nc Hp Hw E; destruct i as [|i]; cbn [prun nth_error] in E; try (injection E as <-; split; assumption).
  - destruct i; discriminate.
  - destruct (pos_step file fbs c s Hb L Hf Hp) as (s' & E1 & Hp' & X). rewrite E1 in E. cbn [firstn In] in Nc. destruct c; [exfalso; apply Nc; left; reflexivity|].
    destruct (X eq_refl Hw) as (Hw' & _). apply (IH s' i x); [intros C; apply Nc; right; exact C|assumption|assumption|exact E].
Qed.
Definition psent (s : ppc * pfs * Z) : Prop :=
  let '(pc, p, sent) := s in p_state p = Initializing -> sent = 0.
Lemma psent_step file c s s' : pstates s -> psent s -> pstep file c s = Ok s' -> psent s'.
Proof.
  destruct s as ((pc & p) & n). intros Hs H E. unfold pstep in E. cbn [psent] in H.
  destruct pc; repeat match type of E with context [if ?b then _ else _] => destruct b; try discriminate
      | bind ?r _ = _ => destruct r; try discriminate; cbn [bind] in E end; injection E as <-; cbn [psent p_state]; intros Q; auto; try discriminate Q.
  cbn [pstates] in Hs. rewrite Hs in Q. discriminate Q.
Qed.
Lemma pC109_truth : forall file choices i pc p sent, bytes file -> zlen file < 2^63 -> nth_error (file_run file choices) i = Some (pc, p, sent) ->
  (p_state p = Initializing -> sent = 0) /\
  (p_state p = LoadingBlock -> pc = PLoading \/ (exists n, pc = PHeader n) \/ (exists bh, pc = PType bh)) /\
  (p_state p = SendingBlock -> (exists n, pc = PSend n) \/ pc = PLoop \/ pc = PDown) /\
  (p_state p = ShuttingDown -> pc = PEnd /\ forall choices' i' pc' p' sent', (i <= i')%nat -> nth_error (file_run file (choices ++ choices')) i' = Some (pc', p', sent') -> sent' = sent) /\
  (forall fbs, frames file fbs -> p_state p = ShuttingDown -> ~ In true (firstn i choices) -> sent = zlen fbs).
Proof.
  intros file cs i pc p sent Hb L E. pose proof (run_states _ _ _ _ E) as X.
  assert (Y : pstates (pc, p, sent) /\ psent (pc, p, sent)).
  { refine (prun_inv file (fun s => pstates s /\ psent s) _ cs _ i _ _ E); [|split; cbn; auto]. intros c s s' [H1 H2] E1. split; [eapply pstates_step; eassumption|eapply psent_step; eassumption]. }
  split; [apply Y|]. clear Y.
  assert (SD : p_state p = ShuttingDown -> pc = PEnd).
  { intros Q. destruct pc; cbn [pstates] in X; try reflexivity; rewrite Q in X; try discriminate X; destruct X as [X|X]; discriminate X. }
  split; [|split; [|split]].
  - intros Q. destruct pc; cbn [pstates] in X; eauto; rewrite Q in X; try discriminate X; destruct X as [X|X]; discriminate X.
  - intros Q. destruct pc; cbn [pstates] in X; eauto; rewrite Q in X; try discriminate X; destruct X as [X|X]; discriminate X.
  - intros Q. split; [exact (SD Q)|]. rewrite (SD Q) in E. clear X Q SD. intros cs' i' pc' p' sent' Hi E'. unfold file_run in *.
    assert (G : forall cs s i i' x y, nth_error (prun file cs s) i = Some x -> fst (fst x) = PEnd -> (i <= i')%nat -> nth_error (prun file (cs ++ cs') s) i' = Some y -> snd y = snd x).
    { clear. assert (Gend : forall cs s i' y, fst (fst s) = PEnd -> nth_error (prun file cs s) i' = Some y -> snd y = snd s).
      { induction cs as [|c cs IH]; intros s i' y Q Ey; destruct i' as [|i']; cbn [prun nth_error] in Ey; try (injection Ey as <-; reflexivity); [destruct i'; discriminate Ey|].
        destruct s as ((pc & p) & n). cbn in Q. subst pc. cbn [pstep] in Ey. apply (IH (PEnd, p, n) i' y eq_refl Ey). }
      induction cs as [|c cs IH]; intros s i i' x y Ex Q Hi Ey.
      - destruct i as [|i]; cbn [prun nth_error] in Ex; [|destruct i; discriminate Ex]. injection Ex as <-. cbn [app] in Ey. apply (Gend cs' s i' y Q Ey).
      - destruct i as [|i]; cbn [prun nth_error] in Ex; [injection Ex as <-; apply (Gend _ s i' y Q Ey)|].
        destruct i' as [|i']; [lia|]. cbn [app prun nth_error] in Ey. destruct (pstep file c s) as [s'| |]; [|destruct i; discriminate Ex|destruct i; discriminate Ex]. apply (IH s' i i' x y Ex Q ltac:(lia) Ey). }
    exact (G cs _ i i' _ _ E eq_refl Hi E').
  - intros fbs Hf Q Nc. destruct (no_cancel_whole file fbs Hb L Hf cs _ i _ Nc (pos_start fbs) Logic.I E) as (_ & W). rewrite (SD Q) in W. apply W.
Qed.
(** C109.  Later lines are never behind earlier ones. *)
Lemma pC109_never_back : forall file choices i j k state a m i' j' k' state' a' m', bytes file -> zlen file < 2^53 ->
  glance (file_run file choices) i j k state a m -> glance (file_run file choices) i' j' k' state' a' m' -> (k <= i')%nat ->
  state = LoadingBlock \/ state = SendingBlock -> state' = LoadingBlock \/ state' = SendingBlock ->
  m = m' /\ a <= a' /\ exists t t', percent_text (percent (fraction a m)) = tenths_text t /\ percent_text (percent (fraction a' m')) = tenths_text t' /\ t <= t'.
Proof.
  intros file cs i j k st a m i' j' k' st' a' m' Hb L G G' Hk Hs Hs'.
  assert (Pz : 0 < zlen file).
  { destruct G as (_ & (pc & p & n & E & X) & _). pose proof (prun_inv file (nonempty_seen file) (fun c s s' => nonempty_step file c s s') cs _ i _ (start_nonempty file) E) as N. cbn [nonempty_seen] in N. apply N. rewrite X. exact Hs. }
  destruct (pC97_numbers file cs i j k _ a m Hb ltac:(lia) G Hs) as (-> & A). destruct (pC97_numbers file cs i' j' k' _ a' m' Hb ltac:(lia) G' Hs') as (-> & A').
  pose proof (pC97_never_back file cs i j k _ a _ i' j' k' _ a' _ Hb ltac:(lia) G G' Hk) as B. split; [reflexivity|]. split; [exact B|].
  destruct (pC108_grows a a' (zlen file) ltac:(lia) ltac:(lia) ltac:(lia)) as (t & t' & T1 & T2 & _ & _ & T3). eauto.
Qed.
(** C109, partial.  In a view of width w, while the position is before the end of the file (a < m), the line is shown as it is, padded to the width, with the share a/m of
    the width highlighted (off by less than two characters).  Missing: the end of the file, see below. *)
Lemma pC109_screen_partial : forall s w a m, 0 < w < 2^31 -> 0 < m < 2^53 -> 0 <= a < m -> exists n, 0 <= n < w /\ (n - 1) * m < w * a < (n + 2) * m /\
  on_screen show N_style (Some w) (Bar s (fraction a m)) = Ok (Some (highlighted n (padded s w))).
Proof.
  intros s w a m Hw Hm Ha. destruct (pC98_bar w a m Hw Hm ltac:(lia)) as (B1 & B2 & B3). cbv zeta in *. exists (bar w (fraction a m)).
  split; [lia|]. split; [exact B3|]. destruct (pC98_line s w a m Hw Hm Ha) as (x & E1 & E2). cbn [on_screen]. rewrite E1. cbn [bind]. rewrite E2. reflexivity.
Qed.
Lemma show_then s r : ~ In 37 s -> show N_style (s ++ r) = map (fun c => (c, N_style)) s ++ show N_style r.
Proof.
  induction s as [|c s IH]; intros H; [reflexivity|]. cbn [app show map]. destruct (Z.eqb_spec c 37) as [->|_]; [exfalso; apply H; left; reflexivity|]. rewrite IH by (intros C; apply H; right; exact C). reflexivity.
Qed.
(** C109, exact.  At the end of the file (a = m): a line that fits (its text, and the percent sign) is shown without the percent sign and without any highlighting (the spaces
    that follow have the style named by a space); one that is longer than the view is shown as it is, with w characters highlighted.  For texts without a percent sign of their own. *)
Lemma pC109_full_exact : forall s w m, 0 < w < 2^31 -> 0 < m < 2^53 -> ~ In 37 s ->
  on_screen show N_style (Some w) (Bar (s ++ bytes_of "%") (fraction m m)) = Ok (Some
    (if zlen s + 1 <=? w then in_plain s ++ map (fun c => (c, 32)) (repeat 32 (Z.to_nat (w - zlen s - 2))) else highlighted w (s ++ bytes_of "%"))).
Proof.
  intros s w m Hw Hm Hs. destruct (pC98_bar w m m Hw Hm ltac:(lia)) as (B1 & B2 & B3). cbv zeta in *. assert (Eb : bar w (fraction m m) = w) by (apply B2; reflexivity).
  assert (Lz : zlen (s ++ bytes_of "%") = zlen s + 1) by (rewrite zlen_app; reflexivity).
  cbn [on_screen]. unfold MarkupAsProgressF. rewrite Eb. destruct (Z.leb_spec (zlen s + 1) w) as [H|H].
  - unfold MarkupAsProgress. replace (w =? 0) with false by lia. rewrite padded_if, zlen_padded, Lz. replace (w <? 0) with false by lia. replace (Z.max (zlen s + 1) w <=? w) with true by lia. cbn [bind].
    do 2 f_equal. unfold padded. rewrite Lz, <- app_assoc, show_then by exact Hs. unfold in_plain. f_equal.
    destruct (Z.eq_dec w (zlen s + 1)) as [->|Nw].
    + replace (Z.to_nat (zlen s + 1 - (zlen s + 1))) with 0%nat by lia. replace (Z.to_nat (zlen s + 1 - zlen s - 2)) with 0%nat by lia. reflexivity.
    + replace (Z.to_nat (w - (zlen s + 1))) with (S (Z.to_nat (w - zlen s - 2))) by lia. change (bytes_of "%") with [37]. change (show N_style ([37] ++ repeat 32 (S (Z.to_nat (w - zlen s - 2))))) with (show 32 (repeat 32 (Z.to_nat (w - zlen s - 2)))).
      generalize (Z.to_nat (w - zlen s - 2)). intros k. induction k as [|k IH]; [reflexivity|]. change (show 32 (repeat 32 (S k))) with ((32, 32) :: show 32 (repeat 32 k)). rewrite IH. reflexivity.
  - destruct (proj1 (pC75_markup_partial (s ++ bytes_of "%") w w) ltac:(lia) ltac:(lia)) as (x & E1 & E2). rewrite E1. cbn [bind]. rewrite E2.
    assert (Ep : padded (s ++ bytes_of "%") w = s ++ bytes_of "%") by (unfold padded; rewrite Lz; replace (Z.to_nat (w - (zlen s + 1))) with 0%nat by lia; apply app_nil_r). rewrite Ep. reflexivity.
Qed.

(** The texts of the lines about a file have no percent sign of their own, if the name of the file has none. *)
Lemma decimal_digits : forall f n c, 0 <= n -> In c (decimal f n) -> 48 <= c <= 57.
Proof.
  induction f as [|f IH]; intros n c Hn H; [destruct H|]. cbn [decimal] in H. destruct (Z.ltb_spec n 10); [destruct H as [<-|[]]; lia|].
  apply in_app_or in H as [H|[<-|[]]]; [apply (IH (n / 10)); [apply Z.div_pos; lia|exact H]|]. pose proof (Z.mod_pos_bound n 10 ltac:(lia)). lia.
Qed.
Lemma no_percent : forall action filename (what : string) a m t, ~ In 37 action -> ~ In 37 filename -> what = "loading block"%string \/ what = "sending block"%string ->
  0 <= a -> 0 <= m -> 0 <= t -> ~ In 37 (about_file action filename (progress_text what a m t)).
Proof.
  intros action filename what a m t Ha Hf Hw H0 H1 H2.
  assert (D : forall n, 0 <= n -> ~ In 37 (shown_number n)) by (intros n Hn C; pose proof (decimal_digits _ _ _ Hn C); lia).
  assert (W : ~ In 37 (bytes_of what)) by (destruct Hw as [-> | ->]; vm_compute; intuition discriminate).
  unfold about_file, progress_text, tenths_text. pose proof (Z.mod_pos_bound t 10 ltac:(lia)) as Mt. pose proof (D a H0) as D1. pose proof (D m H1) as D2. pose proof (D (t / 10) ltac:(apply Z.div_pos; lia)) as D3.
  intros C. repeat (apply in_app_or in C; destruct C as [C|C]); try contradiction; try (vm_compute in C; intuition discriminate). destruct C as [C|[]]. lia.
Qed.
(** C109.  The line about the pass (rewritenodes): "Pass p/n", counted from 1, with the share of all passes highlighted; no highlighting if this is the whole line. *)
Lemma pC109_pass : forall w pass count a m, 0 < w < 2^31 -> 0 <= pass < count -> count < 2^53 -> 0 <= m < 2^53 -> 0 <= a <= m -> exists n s,
  s = bytes_of "Pass " ++ shown_number (pass + 1) ++ bytes_of "/" ++ shown_number count /\
  0 <= n <= w /\ (0 < m -> (n - 1) * (count * m) < w * (pass * m + a) < (n + 2) * (count * m)) /\ (m = 0 -> (n - 1) * count < w * pass < (n + 2) * count) /\
  on_screen show N_style (Some w) (pass_line pass count a m) = Ok (Some (if n <? zlen (padded s w) then highlighted n (padded s w) else in_plain (padded s w))).
Proof.
  intros w pass count a m Hw Hp Hc Hm Ha. destruct (pC98_pass_bar w pass count a m Hw Hp Hc Hm Ha) as (B1 & B2 & B3). cbv zeta in *. set (n := bar w (pass_fraction pass count a m)) in *.
  exists n. set (s := bytes_of "Pass " ++ shown_number (pass + 1) ++ bytes_of "/" ++ shown_number count). exists s.
  split; [reflexivity|]. split; [exact B1|]. split; [exact B2|]. split; [exact B3|].
  assert (Es : pass_line pass count a m = Bar s (pass_fraction pass count a m)) by (unfold pass_line, s, d_, shown_number; rewrite u64_id by (unfold is_u64; lia); reflexivity).
  assert (NP : ~ In 37 s).
  { unfold s. intros C. repeat (apply in_app_or in C; destruct C as [C|C]); first [apply decimal_digits in C; lia|vm_compute in C; intuition discriminate]. }
  rewrite Es. cbn [on_screen]. unfold MarkupAsProgressF. fold n. rewrite zlen_padded. destruct (pC75_markup_partial s w n) as [M1 M2]. destruct (Z.ltb_spec n (Z.max (zlen s) w)) as [H|H].
  - destruct (M1 ltac:(lia) ltac:(lia)) as (x & -> & X). cbn [bind]. rewrite X. reflexivity.
  - destruct (M2 ltac:(lia) NP) as (x & -> & X). cbn [bind]. rewrite X. replace (w =? 0) with false by lia. reflexivity.
Qed.

(** The end is reached in every run that is not cancelled: after the last block has been sent, "sending block" is shown with the size of the file as position (until the
    next store), so in every view the line fits in, the percent sign is missing then. *)
Lemma left_at file fbs : bytes file -> zlen file < 2^63 -> frames file fbs -> forall k s i, pos fbs s -> whole fbs s -> (i <= k)%nat ->
  exists x, nth_error (prun file (repeat false k) s) i = Some x /\ pos fbs x /\ left_ fbs x = Z.max 0 (left_ fbs s - Z.of_nat i) \/ i = 0%nat /\ x = s.
Proof.
  intros Hb L Hf. induction k as [|k IH]; intros s i Hp Hw Hi; destruct i as [|i]; try (exists s; right; split; reflexivity); [lia|].
  destruct (pos_step file fbs false s Hb L Hf Hp) as (s' & E & Hp' & X). destruct (X eq_refl Hw) as (Hw' & Hl). cbn [repeat prun nth_error]. rewrite E.
  destruct (IH s' i Hp' Hw' ltac:(lia)) as (x & [(E1 & P1 & L1)|(-> & ->)]).
  - exists x. left. split; [exact E1|]. split; [exact P1|]. lia.
  - exists s'. left. split; [destruct k; reflexivity|]. split; [exact Hp'|]. lia.
Qed.
Lemma end_seen : forall file fbs steps, bytes file -> zlen file < 2^63 -> frames file fbs -> fbs <> [] -> (5 * List.length fbs + 4 <= steps)%nat ->
  exists i, glance (file_run file (repeat false steps)) i i i SendingBlock (zlen file) (zlen file).
Proof.
  intros file fbs steps Hb L Hf Ne Hs. set (i := (5 * List.length fbs + 2)%nat). exists i.
  destruct (left_at file fbs Hb L Hf steps _ i (pos_start fbs) Logic.I ltac:(lia)) as (x & [(E & P & Lx)|(C & _)]); [|unfold i in C; lia].
  destruct x as ((pc & p) & sent). assert (Lz : left_ fbs (pc, p, sent) = 2). { rewrite Lx. unfold left_, i, zlen. lia. }
  assert (Y : pstates (pc, p, sent) /\ psent (pc, p, sent)).
  { refine (prun_inv file (fun s => pstates s /\ psent s) _ (repeat false steps) _ i _ _ E); [|split; cbn; auto]. intros c s s' [H1 H2] E1. split; [eapply pstates_step; eassumption|eapply psent_step; eassumption]. }
  destruct P as (dn & rest & Ef & Es & M & P). assert (zlen fbs = zlen dn + zlen rest) as Q by (rewrite Ef, zlen_app; reflexivity). pose proof (zlen_nonneg rest) as Qr.
  destruct pc; cbn [left_] in Lz; try lia.
  assert (rest = []) as -> by (destruct rest; [reflexivity|rewrite zlen_cons in *; pose proof (zlen_nonneg rest); lia]). rewrite app_nil_r in Ef. subst dn.
  assert (S1 : p_state p = SendingBlock).
  { destruct Y as [[Y1|Y1] Y2]; [|exact Y1]. specialize (Y2 Y1). destruct fbs; [contradiction|]. rewrite zlen_cons in Es. pose proof (zlen_nonneg fbs). lia. }
  assert (T : total fbs = zlen file) by (destruct Hf as (-> & _); reflexivity). rewrite <- T.
  split; [lia|]. split; [|split]; (do 3 eexists; split; [exact E|]); assumption.
Qed.
Lemma pC109_sign_refuted : forall action filename file fbs steps w, bytes file -> zlen file < 2^53 -> frames file fbs -> fbs <> [] -> (5 * List.length fbs + 4 <= steps)%nat ->
  ~ In 37 action -> ~ In 37 filename -> w < 2^31 ->
  let s := about_file action filename (progress_text "sending block" (zlen file) (zlen file) 1000) in zlen s + 1 <= w ->
  exists i, let l := process_line action filename SendingBlock (zlen file) (zlen file) in
  glance (file_run file (repeat false steps)) i i i SendingBlock (zlen file) (zlen file) /\ l = Bar (s ++ bytes_of "%") (fraction (zlen file) (zlen file)) /\
  exists c, on_screen show N_style (Some w) l = Ok (Some c) /\ ~ In 37 (map fst c) /\ ~ In S_style (map snd c).
Proof.
  intros action filename file fbs steps w Hb L Hf Ne Hs Na Nf Hw s Fit. destruct (end_seen file fbs steps Hb ltac:(lia) Hf Ne Hs) as (i & G). exists i. cbv zeta. split; [exact G|].
  assert (Pz : 0 < zlen file).
  { destruct (pC109_line [] [] file _ i i i _ _ _ Hb L G) as [(C & _)|[(_ & _ & X & _)|(C & _)]]; [discriminate C|exact X|discriminate C]. }
  assert (El : process_line action filename SendingBlock (zlen file) (zlen file) = Bar (s ++ bytes_of "%") (fraction (zlen file) (zlen file))).
  { pose proof (process_line_bar action filename true (zlen file) (zlen file)) as X. cbn [doing_words] in X. rewrite X. rewrite (proj2 (pC108_ends (zlen file) ltac:(lia))). reflexivity. }
  split; [exact El|]. rewrite El.
  assert (NP : ~ In 37 s) by (apply no_percent; auto; lia). pose proof (zlen_nonneg s).
  rewrite (pC109_full_exact s w (zlen file) ltac:(lia) ltac:(lia) NP). replace (zlen s + 1 <=? w) with true by lia. eexists. split; [reflexivity|]. unfold in_plain. rewrite !map_app, !map_map. cbn [fst snd]. rewrite !map_id. split.
  - intros C. apply in_app_or in C as [C|C]; [contradiction|]. apply repeat_spec in C. discriminate C.
  - intros C. apply in_app_or in C as [C|C]; apply in_map_iff in C as (z & C & _); discriminate C.
Qed.
(** a run over a file of one block of two bytes *)
Definition ex_file : list Z := ex_pg_file.
Lemma pC109_ex : bytes ex_file /\ frames ex_file [ex_file] /\ zlen ex_file = 19 /\
  glance (file_run ex_file [false; false; false; false; false]) 3 5 5 LoadingBlock 17 19 /\
  process_line (bytes_of "NodeIndex") (bytes_of "a.pbf") LoadingBlock 17 19 = Bar (bytes_of "[NodeIndex] Processing PBF a.pbf: loading block 17/19 89.5%") (fraction 17 19) /\
  on_screen show N_style (Some 6) (Bar (bytes_of "a 50%") (fraction 1 2)) = Ok (Some (highlighted 3 (bytes_of "a 50% "))) /\
  on_screen show N_style (Some 70) (process_line (bytes_of "NodeIndex") (bytes_of "a.pbf") SendingBlock 19 19) =
    Ok (Some (in_plain (bytes_of "[NodeIndex] Processing PBF a.pbf: sending block 19/19 100.0") ++ map (fun c => (c, 32)) (repeat 32 9))) /\
  pass_line 1 3 0 19 = Bar (bytes_of "Pass 2/3") (pass_fraction 1 3 0 19).
Proof.
  destruct pC97_ex as (A & B & C & D & _). split; [exact A|]. split; [exact B|]. split; [exact C|]. split; [exact D|]. split; [|split; [|split]].
  - rewrite (process_line_bar _ _ false). f_equal.
  - vm_compute. reflexivity.
  - vm_compute. reflexivity.
  - unfold pass_line. f_equal.
Qed.
