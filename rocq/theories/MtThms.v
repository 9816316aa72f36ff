(** * MtThms: Morton codes (C41-C43). *)
From Verif Require Import Base MtModel MtSpec.
From Verif Require Import BaseLemmas.

(** ** the table *)
Definition entry_ok (i : Z) : bool :=
  (0 <=? morton_entry i) && (morton_entry i <? 65536) &&
  forallb (fun j => Bool.eqb (Z.testbit (morton_entry i) (2 * j)) (Z.testbit i j) && negb (Z.testbit (morton_entry i) (2 * j + 1)))
    (map Z.of_nat (seq 0 8)).
Lemma table_ok : forallb entry_ok (map Z.of_nat (seq 0 256)) = true.
Proof. vm_compute. reflexivity. Qed.
Lemma bit_high a n k : 0 <= a < 2^n -> 0 <= n <= k -> Z.testbit a k = false.
Proof.
  intros Ha Hn. destruct (Z.eq_dec a 0) as [->|N]; [apply Z.testbit_0_l|].
  apply Z.bits_above_log2; [lia|]. apply Z.log2_lt_pow2; [lia|].
  eapply Z.lt_le_trans; [apply Ha|]. apply Z.pow_le_mono_r; lia.
Qed.
Lemma in_range n i : 0 <= i < Z.of_nat n -> In i (map Z.of_nat (seq 0 n)).
Proof. intros H. apply in_map_iff. exists (Z.to_nat i). split; [lia|]. apply in_seq. lia. Qed.
Lemma entry_spec i : 0 <= i < 256 -> 0 <= morton_entry i < 2^16 /\ forall j, 0 <= j ->
  Z.testbit (morton_entry i) (2 * j) = Z.testbit i j /\ Z.testbit (morton_entry i) (2 * j + 1) = false.
Proof.
  intros Hi. pose proof table_ok as T. rewrite forallb_forall in T. specialize (T i (in_range 256 i Hi)).
  unfold entry_ok in T. apply andb_true_iff in T as [T1 T2]. split; [lia|]. intros j Hj.
  destruct (Z_lt_dec j 8) as [L|L].
  - rewrite forallb_forall in T2. specialize (T2 j (in_range 8 j ltac:(lia))). apply andb_true_iff in T2 as [A B].
    apply Bool.eqb_prop in A. apply negb_true_iff in B. auto.
  - split.
    + rewrite (bit_high (morton_entry i) 16) by lia. symmetry. apply (bit_high i 8); lia.
    + apply (bit_high _ 16); lia.
Qed.
Lemma table_get i : 0 <= i < 256 -> lidx mortonTable256 i = Ok (morton_entry i).
Proof.
  intros H. unfold lidx, mortonTable256, zlen. rewrite !map_length, seq_length.
  replace ((0 <=? i) && (i <? Z.of_nat 256)) with true by lia.
  rewrite !nth_error_map. rewrite (nth_error_nth' (seq 0 256) 0%nat) by (rewrite seq_length; lia).
  rewrite seq_nth by lia. cbn [option_map]. do 2 f_equal. lia.
Qed.

Lemma testbit_lt x n : 0 <= n -> 0 <= x -> (forall k, n <= k -> Z.testbit x k = false) -> x < 2^n.
Proof.
  intros Hn Hx H. destruct (Z.eq_dec x 0) as [->|N]; [apply Z.pow_pos_nonneg; lia|].
  apply Z.log2_lt_pow2; [lia|]. destruct (Z_lt_dec (Z.log2 x) n) as [L|L]; [exact L|].
  specialize (H (Z.log2 x) ltac:(lia)). rewrite Z.bit_log2 in H by lia. discriminate.
Qed.
Lemma lor_lt a b n : 0 <= n -> 0 <= a < 2^n -> 0 <= b < 2^n -> 0 <= Z.lor a b < 2^n.
Proof.
  intros Hn Ha Hb. split; [apply Z.lor_nonneg; lia|]. apply testbit_lt; [exact Hn|apply Z.lor_nonneg; lia|].
  intros k Hk. rewrite Z.lor_spec, (bit_high a n), (bit_high b n); auto; lia.
Qed.
Lemma shl_lt a n s : 0 <= a < 2^n -> 0 <= n -> 0 <= s -> 0 <= Z.shiftl a s < 2^(n + s).
Proof. intros H Hn Hs. rewrite Z.shiftl_mul_pow2, Z.pow_add_r by lia. pose proof (Z.pow_pos_nonneg 2 s). nia. Qed.

(** position [p] of [lor (shl a s) b] with [b] below [2^s] *)
Lemma parity p : 0 <= p -> exists j, 0 <= j /\ (p = 2 * j \/ p = 2 * j + 1).
Proof. intros H. exists (p / 2). pose proof (Z.div_mod p 2 ltac:(lia)). pose proof (Z.mod_pos_bound p 2). lia. Qed.

Lemma interleave16 x y : 0 <= x < 2^16 -> 0 <= y < 2^16 -> exists z, interleaveMorton16 x y = Ok z /\ 0 <= z < 2^32 /\
  forall j, 0 <= j -> Z.testbit z (2 * j) = Z.testbit x j /\ Z.testbit z (2 * j + 1) = Z.testbit y j.
Proof.
  intros Hx Hy. unfold interleaveMorton16.
  assert (L : forall v, 0 <= v < 2^16 -> 0 <= Z.land v 255 < 256).
  { intros v Hv. change 255 with (Z.ones 8). rewrite Z.land_ones by lia. change 256 with (2^8). apply Z.mod_pos_bound. lia. }
  assert (H : forall v, 0 <= v < 2^16 -> 0 <= Z.shiftr v 8 < 256).
  { intros v Hv. rewrite Z.shiftr_div_pow2 by lia. split; [apply Z.div_pos; lia|apply Z.div_lt_upper_bound; lia]. }
  rewrite !table_get by auto. cbn [bind].
  pose proof (entry_spec _ (L x Hx)) as (Rb & Bb). pose proof (entry_spec _ (L y Hy)) as (Ra & Ba).
  pose proof (entry_spec _ (H x Hx)) as (Rd & Bd). pose proof (entry_spec _ (H y Hy)) as (Rc & Bc).
  set (a := morton_entry (Z.land y 255)) in *. set (b := morton_entry (Z.land x 255)) in *.
  set (c := morton_entry (Z.shiftr y 8)) in *. set (d := morton_entry (Z.shiftr x 8)) in *.
  assert (S1 : forall v, 0 <= v < 2^16 -> u64 (Z.shiftl v 1) = 2 * v).
  { intros v Hv. rewrite Z.shiftl_mul_pow2 by lia. change (2^1) with 2. rewrite u64_id by (unfold is_u64; lia). lia. }
  assert (R1 : 0 <= Z.lor (2 * c) d < 2^17) by (apply lor_lt; lia).
  assert (R2 : 0 <= Z.lor (2 * a) b < 2^17) by (apply lor_lt; lia).
  (* even/odd bits *)
  assert (EO : forall u v : Z, (forall j, 0 <= j -> Z.testbit (2 * v) (2 * j) = false) -> True) by auto.
  assert (Z2 : forall v k, 0 <= k -> Z.testbit (2 * v) (k + 1) = Z.testbit v k) by (intros v k Hk; rewrite Z.add_1_r, Z.double_bits_succ; reflexivity).
  assert (P : forall w v j, 0 <= j ->
     (forall j, 0 <= j -> Z.testbit w (2 * j + 1) = false) -> (forall j, 0 <= j -> Z.testbit v (2 * j + 1) = false) ->
     Z.testbit (Z.lor (2 * w) v) (2 * j) = Z.testbit v (2 * j) /\ Z.testbit (Z.lor (2 * w) v) (2 * j + 1) = Z.testbit w (2 * j)).
  { intros w v j Hj Hw Hv. rewrite !Z.lor_spec. split.
    - destruct (Z.eq_dec j 0) as [->|N]; [change (2 * 0) with 0; rewrite Z.testbit_even_0; reflexivity|].
      replace (2 * j) with ((2 * (j - 1) + 1) + 1) at 1 by lia. rewrite Z2 by lia. rewrite Hw by lia. reflexivity.
    - rewrite Z2 by lia. rewrite Hv by lia. apply orb_false_r. }
  rewrite !S1 by assumption.
  assert (S2 : u64 (Z.shiftl (Z.lor (2 * c) d) 16) = Z.shiftl (Z.lor (2 * c) d) 16).
  { apply u64_id. unfold is_u64. pose proof (shl_lt _ 17 16 R1 ltac:(lia) ltac:(lia)). change (2^(17+16)) with (2^33) in H0. lia. }
  rewrite S2. eexists. split; [reflexivity|].
  assert (Bt : forall j, 0 <= j ->
    Z.testbit (Z.lor (Z.lor (2 * a) b) (Z.shiftl (Z.lor (2 * c) d) 16)) (2 * j) = Z.testbit x j /\
    Z.testbit (Z.lor (Z.lor (2 * a) b) (Z.shiftl (Z.lor (2 * c) d) 16)) (2 * j + 1) = Z.testbit y j).
  { intros j Hj. rewrite (Z.lor_spec (Z.lor (2 * a) b)). rewrite (Z.lor_spec (Z.lor (2 * a) b) _ (2 * j + 1)).
    destruct (P a b j Hj ltac:(intros k Hk; apply Ba, Hk) ltac:(intros k Hk; apply Bb, Hk)) as (E1 & E2). rewrite E1, E2.
    destruct (Bb j Hj) as (-> & _). destruct (Ba j Hj) as (-> & _).
    assert (Lo : forall v, Z.testbit (Z.land v 255) j = Z.testbit v j && (j <? 8)).
    { intros v. rewrite Z.land_spec. change 255 with (Z.ones 8). rewrite Z.testbit_ones_nonneg by lia. reflexivity. }
    rewrite !Lo. destruct (Z.ltb_spec j 8) as [L8|L8].
    - rewrite !andb_true_r. rewrite !Z.shiftl_spec_low by lia. rewrite !orb_false_r. auto.
    - rewrite !andb_false_r. cbn [orb]. rewrite !Z.shiftl_spec by lia.
      replace (2 * j - 16) with (2 * (j - 8)) by lia. replace (2 * j + 1 - 16) with (2 * (j - 8) + 1) by lia.
      destruct (P c d (j - 8) ltac:(lia) ltac:(intros k Hk; apply Bc, Hk) ltac:(intros k Hk; apply Bd, Hk)) as (E3 & E4). rewrite E3, E4.
      destruct (Bd (j - 8) ltac:(lia)) as (-> & _). destruct (Bc (j - 8) ltac:(lia)) as (-> & _).
      rewrite !Z.shiftr_spec by lia. replace (j - 8 + 8) with j by lia. auto. }
  split; [|exact Bt].
  assert (0 <= Z.lor (Z.lor (2 * a) b) (Z.shiftl (Z.lor (2 * c) d) 16)).
  { apply Z.lor_nonneg. split; [lia|]. apply Z.shiftl_nonneg. lia. }
  split; [assumption|]. apply testbit_lt; [lia|assumption|]. intros k Hk.
  destruct (parity k ltac:(lia)) as (j & Hj & [->| ->]).
  - destruct (Bt j Hj) as (-> & _). apply (bit_high x 16); lia.
  - destruct (Bt j Hj) as (_ & ->). apply (bit_high y 16); lia.
Qed.

Lemma Encode_ok e o : exists x, Encode e o = Ok x /\ interleaves e o x.
Proof.
  unfold Encode.
  assert (L : forall v, 0 <= Z.land v 65535 < 2^16).
  { intros v. change 65535 with (Z.ones 16). rewrite Z.land_ones by lia. apply Z.mod_pos_bound. lia. }
  destruct (interleave16 (Z.land e 65535) (Z.land o 65535) (L _) (L _)) as (lo & -> & Rl & Bl).
  destruct (interleave16 (Z.land (Z.shiftr e 16) 65535) (Z.land (Z.shiftr o 16) 65535) (L _) (L _)) as (hi & -> & Rh & Bh).
  cbn [bind]. eexists. split; [reflexivity|].
  pose proof (shl_lt hi 32 32 Rh ltac:(lia) ltac:(lia)) as Sh. change (2^(32+32)) with (2^64) in Sh.
  rewrite u64_id by (unfold is_u64; lia).
  split; [unfold is_u64; apply lor_lt; lia|]. intros i Hi.
  assert (Lo : forall v j, 0 <= j -> Z.testbit (Z.land v 65535) j = Z.testbit v j && (j <? 16)).
  { intros v j Hj. rewrite Z.land_spec. change 65535 with (Z.ones 16). rewrite Z.testbit_ones_nonneg by lia. reflexivity. }
  rewrite !Z.lor_spec. destruct (Bl i ltac:(lia)) as (-> & ->). rewrite !Lo by lia.
  destruct (Z.ltb_spec i 16) as [L16|L16].
  - rewrite !andb_true_r. rewrite !Z.shiftl_spec_low by lia. rewrite !orb_false_r. auto.
  - rewrite !andb_false_r. cbn [orb]. rewrite !Z.shiftl_spec by lia.
    replace (2 * i - 32) with (2 * (i - 16)) by lia. replace (2 * i + 1 - 32) with (2 * (i - 16) + 1) by lia.
    destruct (Bh (i - 16) ltac:(lia)) as (-> & ->). rewrite !Lo by lia. rewrite !Z.shiftr_spec by lia.
    replace (i - 16 + 16) with i by lia. replace (i - 16 <? 16) with true by lia. rewrite !andb_true_r. auto.
Qed.

(** ** Decode *)
Lemma step_bits e x i k : 0 <= e < 2^32 -> 0 <= k < 32 -> 0 <= i ->
  0 <= (if negb (Z.land x (2^i) =? 0) then Z.lor (Z.shiftr e 1) 2147483648 else Z.shiftr e 1) < 2^32 /\
  Z.testbit (if negb (Z.land x (2^i) =? 0) then Z.lor (Z.shiftr e 1) 2147483648 else Z.shiftr e 1) k =
    if k =? 31 then Z.testbit x i else Z.testbit e (k + 1).
Proof.
  intros He Hk Hi.
  assert (S : 0 <= Z.shiftr e 1 < 2^31). { rewrite Z.shiftr_div_pow2 by lia. change (2^1) with 2. split; [apply Z.div_pos; lia|apply Z.div_lt_upper_bound; lia]. }
  assert (B : (Z.land x (2^i) =? 0) = negb (Z.testbit x i)).
  { destruct (Z.eqb_spec (Z.land x (2^i)) 0) as [E|E].
    - assert (X : Z.testbit (Z.land x (2^i)) i = false) by (rewrite E; apply Z.testbit_0_l).
      rewrite Z.land_spec, Z.pow2_bits_true, andb_true_r in X by lia. rewrite X. reflexivity.
    - destruct (Z.testbit x i) eqn:X; [reflexivity|]. exfalso. apply E. apply Z.bits_inj'. intros n Hn.
      rewrite Z.land_spec, Z.testbit_0_l, Z.pow2_bits_eqb by lia. destruct (Z.eqb_spec i n) as [<-|]; [rewrite X; reflexivity|apply andb_false_r]. }
  rewrite B, negb_involutive. change 2147483648 with (2^31).
  destruct (Z.testbit x i).
  - split; [apply lor_lt; lia|]. rewrite Z.lor_spec, Z.pow2_bits_eqb, Z.shiftr_spec by lia.
    rewrite (Z.eqb_sym 31 k). destruct (Z.eqb_spec k 31) as [->|]; [apply orb_true_r|apply orb_false_r].
  - split; [lia|]. rewrite Z.shiftr_spec by lia. destruct (Z.eqb_spec k 31) as [->|]; [|reflexivity]. apply (bit_high e 32); lia.
Qed.
Lemma decode_loop_ok n : (n <= 32)%nat -> forall e o x, 0 <= e < 2^32 -> 0 <= o < 2^32 ->
  exists e' o' x', decode_loop n (e, o, x) = (e', o', x') /\ 0 <= e' < 2^32 /\ 0 <= o' < 2^32 /\
  forall j, 0 <= j < 32 ->
    Z.testbit e' j = (if j <? 32 - Z.of_nat n then Z.testbit e (j + Z.of_nat n) else Z.testbit x (2 * (j - (32 - Z.of_nat n)))) /\
    Z.testbit o' j = (if j <? 32 - Z.of_nat n then Z.testbit o (j + Z.of_nat n) else Z.testbit x (2 * (j - (32 - Z.of_nat n)) + 1)).
Proof.
  induction n as [|n IH]; intros Hn e o x He Ho.
  - exists e, o, x. split; [reflexivity|]. split; [exact He|]. split; [exact Ho|]. intros j Hj.
    replace (j <? 32 - Z.of_nat 0) with true by lia. replace (j + Z.of_nat 0) with j by lia. auto.
  - cbn [decode_loop]. unfold decode_step.
    set (e1 := if negb (Z.land x 1 =? 0) then _ else _). set (o1 := if negb (Z.land x 2 =? 0) then _ else _).
    assert (He1 : forall k, 0 <= k < 32 -> 0 <= e1 < 2^32 /\ Z.testbit e1 k = if k =? 31 then Z.testbit x 0 else Z.testbit e (k + 1)).
    { intros k Hk. exact (step_bits e x 0 k He Hk ltac:(lia)). }
    assert (Ho1 : forall k, 0 <= k < 32 -> 0 <= o1 < 2^32 /\ Z.testbit o1 k = if k =? 31 then Z.testbit x 1 else Z.testbit o (k + 1)).
    { intros k Hk. exact (step_bits o x 1 k Ho Hk ltac:(lia)). }
    destruct (IH ltac:(lia) e1 o1 (Z.shiftr x 2) (proj1 (He1 0 ltac:(lia))) (proj1 (Ho1 0 ltac:(lia)))) as (e' & o' & x' & -> & R1 & R2 & B).
    exists e', o', x'. split; [reflexivity|]. split; [exact R1|]. split; [exact R2|]. intros j Hj.
    destruct (B j Hj) as (-> & ->). clear B.
    destruct (Z.ltb_spec j (32 - Z.of_nat n)) as [L|L].
    + destruct (He1 (j + Z.of_nat n) ltac:(lia)) as (_ & ->). destruct (Ho1 (j + Z.of_nat n) ltac:(lia)) as (_ & ->).
      destruct (Z.eqb_spec (j + Z.of_nat n) 31) as [E|E].
      * replace (j <? 32 - Z.of_nat (S n)) with false by lia. replace (2 * (j - (32 - Z.of_nat (S n)))) with 0 by lia. auto.
      * replace (j <? 32 - Z.of_nat (S n)) with true by lia. replace (j + Z.of_nat (S n)) with (j + Z.of_nat n + 1) by lia. auto.
    + replace (j <? 32 - Z.of_nat (S n)) with false by lia. rewrite !Z.shiftr_spec by lia.
      replace (2 * (j - (32 - Z.of_nat n)) + 2) with (2 * (j - (32 - Z.of_nat (S n)))) by lia.
      replace (2 * (j - (32 - Z.of_nat n)) + 1 + 2) with (2 * (j - (32 - Z.of_nat (S n))) + 1) by lia. auto.
Qed.
Lemma Decode_bits x : exists e o, Decode x = (e, o) /\ is_u32 e /\ is_u32 o /\
  forall i, 0 <= i < 32 -> Z.testbit x (2 * i) = Z.testbit e i /\ Z.testbit x (2 * i + 1) = Z.testbit o i.
Proof.
  unfold Decode. destruct (decode_loop_ok 32 ltac:(lia) 0 0 x ltac:(lia) ltac:(lia)) as (e & o & x' & -> & R1 & R2 & B).
  exists e, o. split; [reflexivity|]. split; [exact R1|]. split; [exact R2|]. intros i Hi. destruct (B i Hi) as (-> & ->).
  change (32 - Z.of_nat 32) with 0. replace (i <? 0) with false by lia. rewrite Z.sub_0_r. auto.
Qed.

Lemma eq_bits a b n : 0 <= n -> 0 <= a < 2^n -> 0 <= b < 2^n -> (forall i, 0 <= i < n -> Z.testbit a i = Z.testbit b i) -> a = b.
Proof.
  intros Hn Ha Hb H. apply Z.bits_inj'. intros i Hi. destruct (Z_lt_dec i n); [apply H; lia|].
  rewrite (bit_high a n), (bit_high b n); auto; lia.
Qed.
Lemma u32_bit v i : 0 <= i < 32 -> Z.testbit (u32 v) i = Z.testbit v i.
Proof. intros H. unfold u32. apply Z.mod_pow2_bits_low. lia. Qed.
Lemma s32_bit v i : 0 <= i < 32 -> Z.testbit (s32 v) i = Z.testbit v i.
Proof.
  intros H. rewrite <- (u32_bit (s32 v)), <- (u32_bit v) by exact H. f_equal. unfold u32, s32.
  rewrite Zminus_mod_idemp_l. f_equal. lia.
Qed.
Lemma interleaves_unique e o x x' : interleaves e o x -> interleaves e o x' -> x = x'.
Proof.
  intros (R & B) (R' & B'). apply (eq_bits x x' 64); [lia|exact R|exact R'|]. intros i Hi.
  destruct (parity i ltac:(lia)) as (j & Hj & [->| ->]).
  - rewrite (proj1 (B j ltac:(lia))), (proj1 (B' j ltac:(lia))). reflexivity.
  - rewrite (proj2 (B j ltac:(lia))), (proj2 (B' j ltac:(lia))). reflexivity.
Qed.

(** C41.  For every pair of int32: encoding succeeds, the code has the documented bit
    layout and decodes to the two values; and every uint64 is the code of what it decodes
    to. *)
Lemma pC41_layout : forall e o, is_s32 e -> is_s32 o ->
  exists x, Encode e o = Ok x /\ interleaves e o x /\ Decode x = (u32 e, u32 o).
Proof.
  intros e o He Ho. destruct (Encode_ok e o) as (x & E & (R & B)). exists x. split; [exact E|]. split; [split; assumption|].
  destruct (Decode_bits x) as (e' & o' & -> & R1 & R2 & B'). f_equal.
  - apply (eq_bits _ _ 32); [lia|exact R1|apply u32_range|]. intros i Hi. rewrite u32_bit by exact Hi.
    destruct (B i Hi) as (<- & _). destruct (B' i Hi) as (<- & _). reflexivity.
  - apply (eq_bits _ _ 32); [lia|exact R2|apply u32_range|]. intros i Hi. rewrite u32_bit by exact Hi.
    destruct (B i Hi) as (_ & <-). destruct (B' i Hi) as (_ & <-). reflexivity.
Qed.
Lemma pC41_surjective : forall x, is_u64 x -> exists e o, Decode x = (e, o) /\ is_u32 e /\ is_u32 o /\ Encode (s32 e) (s32 o) = Ok x.
Proof.
  intros x Hx. destruct (Decode_bits x) as (e & o & E & R1 & R2 & B). exists e, o. split; [exact E|]. split; [exact R1|]. split; [exact R2|].
  destruct (Encode_ok (s32 e) (s32 o)) as (x' & -> & I). f_equal. apply (interleaves_unique (s32 e) (s32 o)); [exact I|].
  split; [exact Hx|]. intros i Hi. rewrite !s32_bit by exact Hi. apply B, Hi.
Qed.
Lemma pC41_ex : Encode 3 (-1) = Ok 12297829382473034415 /\ Decode 12297829382473034415 = (3, 4294967295).
Proof. vm_compute. auto. Qed.

(** ** C42 *)
Lemma s64_bit v i : 0 <= i < 64 -> Z.testbit (s64 v) i = Z.testbit v i.
Proof.
  intros H. rewrite <- (Z.mod_pow2_bits_low (s64 v) 64), <- (Z.mod_pow2_bits_low v 64) by lia. f_equal. unfold s64.
  rewrite Zminus_mod_idemp_l. f_equal. lia.
Qed.
Lemma bit_neg v n : 0 < n -> - 2^(n-1) <= v < 2^(n-1) -> Z.testbit v (n - 1) = (v <? 0).
Proof.
  intros Hn Hv. destruct (Z.ltb_spec v 0) as [L|L].
  - assert (E : v = 2^(n-1) * (-1) + (v + 2^(n-1))) by lia.
    rewrite Z.testbit_eqb by lia. replace (v / 2^(n-1)) with (-1); [reflexivity|].
    apply Z.div_unique with (v + 2^(n-1)); lia.
  - apply (bit_high v (n-1)); lia.
Qed.
Lemma lor_sign lat i : - 2^30 <= lat < 2^30 -> 0 <= i < 32 ->
  Z.testbit (Z.lor lat (-2147483648)) i = if i =? 31 then true else Z.testbit lat i.
Proof.
  intros Hl Hi. rewrite Z.lor_spec.
  assert (Z.testbit (-2147483648) i = (i =? 31)).
  { assert (F : forallb (fun i => Bool.eqb (Z.testbit (-2147483648) i) (i =? 31)) (map Z.of_nat (seq 0 32)) = true) by (vm_compute; reflexivity).
    rewrite forallb_forall in F. apply Bool.eqb_prop, F. apply in_range. lia. }
  rewrite H. destruct (i =? 31); [apply orb_true_r|apply orb_false_r].
Qed.
Lemma location_ok lon lat : is_s32 lon -> - 2^30 <= lat < 2^30 -> exists x, location lon lat = Ok x /\
  - 2^63 <= x < 0 /\ DecodeLocation (u64 x) = (lon, lat).
Proof.
  intros Hlon Hlat. unfold location. destruct (Encode_ok lon (Z.lor lat (-2147483648))) as (x & -> & (R & B)). cbn [bind].
  exists (s64 x). split; [reflexivity|].
  assert (N : s64 x < 0).
  { pose proof (s64_range x) as S. unfold is_s64 in S.
    pose proof (bit_neg (s64 x) 64 ltac:(lia) ltac:(lia)) as T. change (64 - 1) with 63 in T.
    rewrite s64_bit in T by lia. destruct (B 31 ltac:(lia)) as (_ & T'). change (2 * 31 + 1) with 63 in T'.
    rewrite T', lor_sign in T by lia. change (31 =? 31) with true in T. cbn match in T. lia. }
  split; [pose proof (s64_range x) as S; unfold is_s64 in S; lia|].
  assert (U : u64 (s64 x) = x).
  { unfold u64, s64. rewrite Zminus_mod_idemp_l. replace (x + 2^63 - 2^63) with x by lia. apply Z.mod_small. exact R. }
  rewrite U. unfold DecodeLocation. destruct (Decode_bits x) as (e & o & -> & R1 & R2 & B').
  assert (Se : s32 e = lon).
  { assert (u32 lon = e).
    { apply (eq_bits _ _ 32); [lia|apply u32_range|exact R1|]. intros i Hi. rewrite u32_bit by exact Hi.
      destruct (B i Hi) as (<- & _). destruct (B' i Hi) as (<- & _). reflexivity. }
    subst e. unfold s32, u32. rewrite Zplus_mod_idemp_l. unfold is_s32 in Hlon. rewrite Z.mod_small by lia. lia. }
  rewrite Se. f_equal.
  (* latitude *)
  set (l := s32 (Z.shiftl (s32 o) 1)).
  assert (E : l = 2 * lat).
  { assert (X : u32 l = u32 (2 * lat)).
    { apply (eq_bits _ _ 32); [lia|apply u32_range|apply u32_range|]. intros i Hi. rewrite !u32_bit by exact Hi.
      unfold l. rewrite s32_bit by exact Hi.
      destruct (Z.eq_dec i 0) as [->|N0]; [rewrite Z.shiftl_spec_low by lia; symmetry; apply Z.testbit_even_0|].
      rewrite Z.shiftl_spec by lia. replace i with ((i - 1) + 1) at 2 by lia. rewrite Z.add_1_r, Z.double_bits_succ.
      rewrite s32_bit by lia. destruct (B' (i - 1) ltac:(lia)) as (_ & <-). destruct (B (i - 1) ltac:(lia)) as (_ & ->).
      rewrite lor_sign by lia. replace (i - 1 =? 31) with false by lia. reflexivity. }
    unfold u32 in X. pose proof (s32_range (Z.shiftl (s32 o) 1)) as Y. fold l in Y. unfold is_s32 in Y.
    pose proof (Z.div_mod l (2^32) ltac:(lia)). pose proof (Z.div_mod (2 * lat) (2^32) ltac:(lia)).
    assert (Q : -1 <= l / 2^32 < 1) by (split; [apply Z.div_le_lower_bound; lia|apply Z.div_lt_upper_bound; lia]).
    assert (Q' : -1 <= (2*lat) / 2^32 < 1) by (split; [apply Z.div_le_lower_bound; lia|apply Z.div_lt_upper_bound; lia]).
    lia. }
  rewrite E. rewrite Z.shiftr_div_pow2 by lia. change (2^1) with 2. rewrite Z.mul_comm. apply Z.div_mul. lia.
Qed.

(** C42.  For every longitude and latitude: the stored location exists, is negative (so
    neither zero nor a positive id), and decodes to the same longitude and latitude. *)
Lemma pC42_location : forall lon lat, is_s32 lon -> valid_lat lat ->
  exists x, location lon lat = Ok x /\ - 2^63 <= x < 0 /\ DecodeLocation (u64 x) = (lon, lat).
Proof. intros lon lat H1 H2. apply location_ok; [exact H1|]. unfold valid_lat in H2. lia. Qed.
Lemma pC42_ex : valid_lat (-338568000) /\ location 1512153000 (-338568000) = Ok (-5057922795850832832) /\ DecodeLocation (u64 (-5057922795850832832)) = (1512153000, -338568000).
Proof. unfold valid_lat. split; [lia|]. vm_compute. auto. Qed.

(** C43.  The stored location has the longitude in its even bits and, in its odd bits, the
    low 31 bits of the latitude with bit 31 set: ENCODING.md without its shift. *)
Lemma pC43_layout_partial : forall lon lat, is_s32 lon -> valid_lat lat ->
  exists x, location lon lat = Ok x /\ interleaves lon (Z.lor (Z.land lat (2^31 - 1)) (2^31)) (u64 x).
Proof.
  intros lon lat H1 H2. unfold location. destruct (Encode_ok lon (Z.lor lat (-2147483648))) as (x & -> & (R & B)). cbn [bind].
  exists (s64 x). split; [reflexivity|].
  assert (U : u64 (s64 x) = x).
  { unfold u64, s64. rewrite Zminus_mod_idemp_l. replace (x + 2^63 - 2^63) with x by lia. apply Z.mod_small. exact R. }
  rewrite U. split; [exact R|]. intros i Hi. destruct (B i Hi) as (-> & ->). split; [reflexivity|].
  unfold valid_lat in H2. rewrite lor_sign by lia. rewrite Z.lor_spec, Z.land_spec. change (2^31 - 1) with (Z.ones 31).
  rewrite Z.testbit_ones_nonneg, Z.pow2_bits_eqb by lia. rewrite (Z.eqb_sym 31 i).
  destruct (Z.eqb_spec i 31) as [->|]; [symmetry; apply orb_true_r|]. replace (i <? 31) with true by lia. rewrite andb_true_r, orb_false_r. reflexivity.
Qed.
(** C43 as documented is false of the code: latitude 0.0000002 is stored differently. *)
Lemma pC43_documented_refuted :
  exists lon lat x, valid_lon lon /\ valid_lat lat /\ location lon lat = Ok x /\ ~ documented_location lon lat x.
Proof.
  exists 0, 2, (-9223372036854775800). split; [unfold valid_lon; lia|]. split; [unfold valid_lat; lia|].
  split; [vm_compute; reflexivity|]. intros (_ & B). destruct (B 0 ltac:(lia)) as (_ & X). vm_compute in X. discriminate.
Qed.
