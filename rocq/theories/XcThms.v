(** * XcThms: C44, C55 and C75 exactly. *)
From Verif Require Import Base PbSpec PbModel TModel HLModel MtModel MtSpec MtThms NiModel NiSpec NiThms WiModel WiSpec WiThms TrModel TrSpec TrThms.
From Verif Require Import BaseLemmas.

(** C44, exactly: for every count and every offset of 64 bits, packing refuses or both are read
    back as they were, except for the count 2^24 with an offset below 2^40. *)
Lemma pC44_exact : forall count offset, is_u64 count -> is_u64 offset ->
  ((exists m, NewCountOffset count offset = Panic (PanicMsg m)) \/
   (exists w, NewCountOffset count offset = Ok w /\ is_u64 w /\ co_Count w = count /\ co_Offset w = offset) <->
   ~ (count = 2^24 /\ offset < 2^40)).
Proof.
  intros c o Hc Ho. split.
  - intros H (-> & L). destruct (pC44_boundary_refuted o ltac:(unfold is_u64 in Ho; lia)) as (w & E & C0 & _).
    destruct H as [(m & P)|(w' & E' & _ & C' & _)]; [rewrite P in E; discriminate E|]. rewrite E in E'. injection E' as <-. rewrite C0 in C'. lia.
  - intros N. destruct (Z.eq_dec c (2^24)) as [->|D].
    + assert (2^40 <= o) by lia. left. unfold NewCountOffset. destruct (Z.leb_spec OffsetMax o) as [_|X]; [eexists; reflexivity|].
      assert (OffsetMax = 2^40) by reflexivity. lia.
    + destruct (pC44_roundtrip_partial c o Hc Ho D) as [(_ & _ & w & H)|(_ & m & H)]; [right; exists w; exact H|left; exists m; exact H].
Qed.
(** Both sides: 2^24 at offset 5, and one less. *)
Lemma pC44_exact_ex : is_u64 (2^24) /\ is_u64 5 /\ (2^24 = 2^24 /\ 5 < 2^40) /\ exists w, NewCountOffset (2^24 - 1) 5 = Ok w /\ co_Count w = 2^24 - 1 /\ co_Offset w = 5.
Proof. split; [unfold is_u64; lia|]. split; [unfold is_u64; lia|]. split; [lia|]. eexists. split; [reflexivity|]. split; reflexivity. Qed.

(** C55, exactly: for every way id and offset of 64 bits, signed, packing refuses or both are read
    back as they were, if and only if one is above its limit or both are in range: the id from 0 up to
    (not including) 2^31, the offset from 0 up to (not including) 2^33. *)
Lemma pC55_exact : forall id off, is_s64 id -> is_s64 off ->
  ((exists p, MakeIndexData id off = Panic p) \/
   (exists d, MakeIndexData id off = Ok d /\ is_u64 d /\ wd_WayID d = id /\ wd_Offset d = off) <->
   (2^31 < id \/ 2^33 < off) \/ (0 <= id < 2^31 /\ 0 <= off < 2^33)).
Proof.
  intros id off Hi Ho. split.
  - intros [(p & E)|(d & E & U & A & B)].
    + left. unfold MakeIndexData in E. destruct (Z.ltb_spec (2^31) id); [lia|]. destruct (Z.ltb_spec (2^33) off); [lia|discriminate E].
    + right. unfold is_u64 in U. split.
      * rewrite <- A. unfold wd_WayID. rewrite Z.shiftr_div_pow2 by lia.
        assert (X : 0 <= d / 2^33 < 2^31) by (split; [apply Z.div_pos; lia|apply Z.div_lt_upper_bound; lia]).
        rewrite s64_id; [exact X|unfold is_s64; lia].
      * rewrite <- B. unfold wd_Offset. change (2^33 - 1) with (Z.ones 33). rewrite Z.land_ones by lia. apply Z.mod_pos_bound. lia.
  - intros [H|(A & B)]; [left; apply pC55_rejected; exact H|right; apply pC55_packing_partial; assumption].
Qed.
Lemma pC55_exact_ex : is_s64 (2^31) /\ ~ ((2^31 < 2^31 \/ 2^33 < 5) \/ (0 <= 2^31 < 2^31 /\ 0 <= 5 < 2^33)) /\ (0 <= 2^31 - 1 < 2^31 /\ 0 <= 2^33 - 1 < 2^33).
Proof. unfold is_s64. lia. Qed.

Lemma show_short : forall m st, (List.length (show st m) <= List.length m)%nat /\ (In 37 m -> (List.length (show st m) < List.length m)%nat).
Proof.
  assert (X : forall n m, (List.length m <= n)%nat -> forall st, (List.length (show st m) <= List.length m)%nat /\ (In 37 m -> (List.length (show st m) < List.length m)%nat)).
  { induction n as [|n IH]; intros m L st.
    - destruct m; cbn [List.length] in L; [|lia]. cbn. split; [lia|intros []].
    - destruct m as [|c m]; [cbn; split; [lia|intros []]|]. cbn [List.length] in L. cbn [show]. destruct (Z.eqb_spec c 37) as [->|N].
      + destruct m as [|e m]; [cbn; lia|]. cbn [List.length] in *.
        destruct (e =? 37); cbn [List.length]; [destruct (IH m ltac:(lia) st)|destruct (IH m ltac:(lia) e)]; lia.
      + cbn [List.length]. destruct (IH m ltac:(lia) st) as (A & B). split; [lia|]. intros [E|H]; [contradiction|specialize (B H); lia]. }
  intros m st. apply (X (List.length m)). lia.
Qed.
(** C75, exactly: for every text, width and number of highlighted characters, the characters shown
    are those of the padded text (for width 0, of the text) if and only if part of the line and not all of
    it is to be highlighted (counting the empty part), or the text has no percent sign. *)
Lemma pC75_exact : forall s w pre, exists m, MarkupAsProgress s w pre = Ok m /\
  (map fst (show N_style m) = (if w =? 0 then s else padded s w) <->
   (w <> 0 /\ 0 <= pre < Z.max (zlen s) w) \/ ~ In 37 s).
Proof.
  intros s w pre. destruct (pC75_markup_partial s w pre) as (P1 & P2).
  assert (D : (w <> 0 /\ 0 <= pre < Z.max (zlen s) w) \/ (w = 0 \/ pre < 0 \/ Z.max (zlen s) w <= pre)) by lia.
  destruct D as [(W & R)|D].
  - destruct (P1 W R) as (m & E & S1). exists m. split; [exact E|]. split; [auto|]. intros _. rewrite S1. destruct (Z.eqb_spec w 0); [contradiction|].
    rewrite map_app, !map_map. cbn [fst]. rewrite !map_id. apply firstn_skipn.
  - destruct (in_dec Z.eq_dec 37 s) as [I|N].
    + assert (E : MarkupAsProgress s w pre = Ok (if w =? 0 then s else padded s w)).
      { unfold MarkupAsProgress. destruct (Z.eqb_spec w 0); [reflexivity|]. rewrite padded_if, zlen_padded. destruct (Z.ltb_spec pre 0); [reflexivity|].
        destruct (Z.leb_spec (Z.max (zlen s) w) pre); [reflexivity|lia]. }
      eexists. split; [exact E|]. split; [|intros [(W & R)|N]; [lia|contradiction]]. intros H. exfalso.
      assert (I' : In 37 (if w =? 0 then s else padded s w)) by (destruct (w =? 0); [exact I|unfold padded; apply in_or_app; left; exact I]).
      pose proof (proj2 (show_short _ N_style) I') as L. apply (f_equal (@List.length Z)) in H. rewrite map_length in H. lia.
    + destruct (P2 D N) as (m & E & S1). exists m. split; [exact E|]. split; [auto|]. intros _. rewrite S1, map_map. cbn [fst]. apply map_id.
Qed.
(** Both sides: "at 100%" at full progress, and halfway. *)
Lemma pC75_exact_ex : In 37 (bytes_of "at 100%") /\ ~ (8 <> 0 /\ 0 <= 8 < Z.max (zlen (bytes_of "at 100%")) 8) /\
  exists m, MarkupAsProgress (bytes_of "at 100%") 8 4 = Ok m /\ map fst (show N_style m) = bytes_of "at 100% ".
Proof. split; [cbn; tauto|]. split; [change (Z.max (zlen (bytes_of "at 100%")) 8) with 8; lia|]. eexists. split; reflexivity. Qed.

(** C43, exactly: for valid latitudes, the stored location is that of ENCODING.md if and only if the
    latitude is 0 or one unit (0.0000001 degrees) south of it. *)
Lemma pC43_exact : forall lon lat, is_s32 lon -> valid_lat lat ->
  exists x, location lon lat = Ok x /\ (documented_location lon lat x <-> lat = 0 \/ lat = -1).
Proof.
  intros lon lat H1 H2. destruct (pC43_layout_partial lon lat H1 H2) as (x & E & (U & B)). exists x. split; [exact E|].
  assert (T : forall k i, 0 <= i < 32 -> Z.testbit (Z.lor k 2147483648) i = (Z.testbit k i || (i =? 31))%bool).
  { intros k i Hi. rewrite Z.lor_spec. f_equal. change 2147483648 with (2^31). rewrite Z.pow2_bits_eqb by lia. apply Z.eqb_sym. }
  assert (M : forall i, 0 <= i < 32 -> Z.testbit (Z.lor (Z.land lat (2^31 - 1)) (2^31)) i = (Z.testbit lat i || (i =? 31))%bool).
  { intros i Hi. change (2^31) with 2147483648. rewrite T by exact Hi. change (2147483648 - 1) with (Z.ones 31). rewrite Z.land_spec, Z.testbit_ones_nonneg by lia.
    destruct (Z.eqb_spec i 31) as [->|N]; [rewrite !orb_true_r; reflexivity|]. replace (i <? 31) with true by lia. rewrite andb_true_r. reflexivity. }
  unfold valid_lat in H2. split.
  - intros (_ & D).
    assert (S1 : forall i, 0 <= i < 31 -> Z.testbit lat (i + 1) = Z.testbit lat i).
    { intros i Hi. destruct (D i ltac:(lia)) as (_ & A). destruct (B i ltac:(lia)) as (_ & A'). rewrite A' in A. rewrite M, T in A by lia.
      replace (i =? 31) with false in A by lia. rewrite !orb_false_r in A. rewrite Z.shiftr_spec in A by lia. symmetry. exact A. }
    assert (S0 : forall n, (n <= 31)%nat -> Z.testbit lat (Z.of_nat n) = Z.testbit lat 0).
    { induction n as [|n IH]; intros L; [reflexivity|]. rewrite <- IH by lia. replace (Z.of_nat (Datatypes.S n)) with (Z.of_nat n + 1) by lia. apply S1. lia. }
    assert (Hi : forall i, 31 <= i -> Z.testbit lat i = Z.testbit lat 31).
    { intros i Li. destruct (Z.lt_ge_cases lat 0) as [Neg|Pos].
      - assert (Lg : Z.log2 (Z.pred (- lat)) < 31).
        { destruct (Z.eq_dec lat (-1)) as [->|N1]; [reflexivity|]. apply Z.log2_lt_pow2; lia. }
        rewrite !Z.bits_above_log2_neg by lia. reflexivity.
      - destruct (Z.eq_dec lat 0) as [->|N0]; [rewrite !Z.bits_0; reflexivity|].
        assert (Z.log2 lat < 31) by (apply Z.log2_lt_pow2; lia). rewrite !Z.bits_above_log2 by lia. reflexivity. }
    assert (All : forall i, 0 <= i -> Z.testbit lat i = Z.testbit lat 0).
    { intros i Hi'. destruct (Z.le_gt_cases i 31) as [L|L]; [rewrite <- (Z2Nat.id i Hi'); apply S0; lia|].
      rewrite (Hi i) by lia. apply (S0 31%nat). lia. }
    destruct (Z.testbit lat 0) eqn:B0.
    + right. apply Z.bits_inj'. intros i Hi'. rewrite (All i Hi'), Z.bits_m1 by exact Hi'. reflexivity.
    + left. apply Z.bits_inj'. intros i Hi'. rewrite (All i Hi'), Z.bits_0. reflexivity.
  - intros H. split; [exact U|]. intros i Hi. destruct (B i Hi) as (B1 & B2). split; [exact B1|]. rewrite B2, M, T by exact Hi. f_equal.
    destruct H as [->| ->]; reflexivity.
Qed.
Lemma pC43_exact_ex : is_s32 15 /\ valid_lat (-1) /\ valid_lat 2 /\ exists x, location 15 (-1) = Ok x /\ x < 0.
Proof. split; [unfold is_s32; lia|]. split; [unfold valid_lat; lia|]. split; [unfold valid_lat; lia|]. eexists. split; [vm_compute; reflexivity|]. lia. Qed.
