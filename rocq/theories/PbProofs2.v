(** * PbProofs2: zigzag, scalars, packed lists, byte strings, embedding. *)
From Verif Require Import Base BaseLemmas PbModel PbSpec PbProofs.

(** ** ZigZag *)
Lemma lxor_ones64 y : 0 <= y < 2^64 -> Z.lxor y (2^64 - 1) = 2^64 - 1 - y.
Proof.
  intros Hy. change (2^64 - 1) with (Z.ones 64).
  assert (H : Z.lxor y (Z.ones 64) = Z.land (Z.lnot y) (Z.ones 64)).
  { apply Z.bits_inj'; intros i Hi. rewrite Z.lxor_spec, Z.land_spec, Z.lnot_spec by lia.
    destruct (Z.ltb_spec i 64).
    - rewrite Z.ones_spec_low by lia. destruct (Z.testbit y i); reflexivity.
    - rewrite Z.ones_spec_high by lia. rewrite (bits_small y 64 i) by lia. reflexivity. }
  rewrite H, Z.land_ones by lia. unfold Z.lnot.
  change (Z.ones 64) with (2^64 - 1).
  replace (Z.pred (- y)) with (2^64 - 1 - y + (-1) * 2^64) by lia.
  rewrite Z.mod_add by lia. apply Z.mod_small. lia.
Qed.

Lemma EncodeZigZag_spec x : is_s64 x -> EncodeZigZag x = zigzag x.
Proof.
  unfold is_s64. intros Hx. unfold EncodeZigZag, zigzag. rewrite u64_s64.
  rewrite Z.shiftl_mul_pow2, Z.shiftr_div_pow2 by lia. change (2 ^ 1) with 2.
  destruct (Z.ltb_spec x 0).
  - replace (x / 2 ^ 63) with (-1)
      by (apply (Z.div_unique x (2^63) (-1) (x + 2^63)); lia).
    change (u64 (-1)) with (2^64 - 1).
    assert (Hu : u64 (x * 2) = x * 2 + 2^64).
    { unfold u64. replace (x * 2) with (x * 2 + 2^64 + (-1) * 2^64) at 1 by lia.
      rewrite Z.mod_add by lia. apply Z.mod_small. lia. }
    rewrite Hu, lxor_ones64 by lia. lia.
  - replace (x / 2 ^ 63) with 0 by (symmetry; apply Z.div_small; lia).
    change (u64 0) with 0. rewrite Z.lxor_0_r. rewrite u64_id by (unfold is_u64; lia). lia.
Qed.

Lemma zigzag_range x : is_s64 x -> is_u64 (zigzag x).
Proof. unfold is_s64, is_u64, zigzag. intros; destruct (Z.ltb_spec x 0); lia. Qed.

Lemma DecodeZigZag_spec u :
  is_u64 u -> DecodeZigZag u = if Z.even u then u / 2 else - (u / 2) - 1.
Proof.
  unfold is_u64. intros Hu. unfold DecodeZigZag.
  rewrite Z.shiftr_div_pow2 by lia. change (2 ^ 1) with 2.
  assert (Hd : 0 <= u / 2 < 2^63)
    by (split; [apply Z.div_pos; lia|apply Z.div_lt_upper_bound; lia]).
  rewrite s64_id by (unfold is_s64; lia).
  assert (Hs : Z.shiftr (s64 (Z.shiftl (s64 u) 63)) 63 = if Z.even u then 0 else -1).
  { rewrite Z.shiftl_mul_pow2 by lia.
    destruct (s64_cong u) as [k ->].
    replace ((u + k * 2^64) * 2^63) with (u * 2^63 + (k * 2^63) * 2^64) by lia.
    rewrite s64_add_k.
    pose proof (Z.div_mod u 2 ltac:(lia)) as Hdm. rewrite Zmod_even in Hdm.
    destruct (Z.even u).
    - replace (u * 2^63) with (0 + (u / 2) * 2^64) by lia. rewrite s64_add_k. reflexivity.
    - replace (u * 2^63) with (2^63 + (u / 2) * 2^64) by lia. rewrite s64_add_k. reflexivity. }
  rewrite Hs. destruct (Z.even u).
  - apply Z.lxor_0_r.
  - rewrite Z.lxor_m1_r. unfold Z.lnot. lia.
Qed.

Lemma DecodeZigZag_zigzag x : is_s64 x -> DecodeZigZag (zigzag x) = x.
Proof.
  intros Hx. rewrite DecodeZigZag_spec by (apply zigzag_range; assumption).
  unfold zigzag. destruct (Z.ltb_spec x 0).
  - replace (-2 * x - 1) with (1 + 2 * (-x - 1)) by lia.
    rewrite Z.even_add_mul_2. change (Z.even 1) with false. cbv iota.
    replace ((1 + 2 * (- x - 1)) / 2) with (-x - 1); [lia|].
    apply (Z.div_unique _ 2 _ 1); lia.
  - replace (2 * x) with (0 + 2 * x) by lia. rewrite Z.even_add_mul_2.
    change (Z.even 0) with true. cbv iota.
    symmetry. apply (Z.div_unique _ 2 _ 0); lia.
Qed.

Lemma DecodeZigZag_range u : is_u64 u -> is_s64 (DecodeZigZag u).
Proof.
  intros Hu. rewrite DecodeZigZag_spec by assumption. unfold is_u64, is_s64 in *.
  assert (Hd : 0 <= u / 2 < 2^63)
    by (split; [apply Z.div_pos; lia|apply Z.div_lt_upper_bound; lia]).
  destruct (Z.even u); lia.
Qed.

Lemma zigzag_DecodeZigZag u : is_u64 u -> zigzag (DecodeZigZag u) = u.
Proof.
  intros Hu. rewrite DecodeZigZag_spec by assumption. unfold is_u64 in Hu.
  pose proof (Z.div_mod u 2 ltac:(lia)) as Hdm. rewrite Zmod_even in Hdm.
  assert (Hd : 0 <= u / 2) by (apply Z.div_pos; lia).
  unfold zigzag. destruct (Z.even u).
  - destruct (Z.ltb_spec (u / 2) 0); lia.
  - destruct (Z.ltb_spec (- (u / 2) - 1) 0); lia.
Qed.

Lemma EncodeZigZag_range x : is_s64 x -> is_u64 (EncodeZigZag x).
Proof. intros; rewrite EncodeZigZag_spec by assumption; apply zigzag_range; assumption. Qed.
Lemma zz_roundtrip x : is_s64 x -> DecodeZigZag (EncodeZigZag x) = x.
Proof. intros; rewrite EncodeZigZag_spec by assumption; apply DecodeZigZag_zigzag; assumption. Qed.

(** ** Readers at a position *)

(** [f] reads exactly [bs], wherever it stands, and yields [a]. *)
Definition reads {A} (f : slice -> Z -> res (A * Z)) (bs : list Z) (a : A) : Prop :=
  forall b pre post,
    vis b = pre ++ bs ++ post -> bytes (vis b) -> slen b < 2^63 ->
    f b (zlen pre) = Ok (a, zlen pre + zlen bs).

Lemma bytes_mid pre bs post : bytes (pre ++ bs ++ post) -> bytes pre /\ bytes bs /\ bytes post.
Proof. rewrite !bytes_app. tauto. Qed.

Lemma reads_varint v : is_u64 v -> reads DecodeVarInt (venc v) v.
Proof.
  intros Hu b pre post Hv Hb Hl. rewrite Hv in Hb. apply bytes_mid in Hb as (H1 & _ & H2).
  eapply decode_venc; eauto.
Qed.

Lemma reads_S32 x : is_s32 x -> reads DecodeS32 (venc (EncodeZigZag x)) x.
Proof.
  intros Hx b pre post Hv Hb Hl. unfold DecodeS32.
  rewrite (reads_varint (EncodeZigZag x)) with (post := post);
    [|apply EncodeZigZag_range, is_s32_s64; assumption|assumption..].
  cbn [bind]. rewrite zz_roundtrip by (apply is_s32_s64; assumption).
  rewrite s32_id by assumption. reflexivity.
Qed.
Lemma reads_I32 x : is_s32 x -> reads DecodeI32 (venc (u64 x)) x.
Proof.
  intros Hx b pre post Hv Hb Hl. unfold DecodeI32.
  rewrite (reads_varint (u64 x)) with (post := post); [|apply u64_range|assumption..].
  cbn [bind]. rewrite s32_u64, s32_id by assumption. reflexivity.
Qed.
Lemma reads_U32 x : is_u32 x -> reads DecodeU32 (venc (u64 x)) x.
Proof.
  intros Hx b pre post Hv Hb Hl. unfold DecodeU32.
  rewrite (reads_varint (u64 x)) with (post := post); [|apply u64_range|assumption..].
  cbn [bind]. rewrite u32_u64, u32_id by assumption. reflexivity.
Qed.
Lemma reads_S64 x : is_s64 x -> reads DecodeS64 (venc (EncodeZigZag x)) x.
Proof.
  intros Hx b pre post Hv Hb Hl. unfold DecodeS64.
  rewrite (reads_varint (EncodeZigZag x)) with (post := post);
    [|apply EncodeZigZag_range; assumption|assumption..].
  cbn [bind]. rewrite zz_roundtrip by assumption. reflexivity.
Qed.
Lemma reads_I64 x : is_s64 x -> reads DecodeI64 (venc (u64 x)) x.
Proof.
  intros Hx b pre post Hv Hb Hl. unfold DecodeI64.
  rewrite (reads_varint (u64 x)) with (post := post); [|apply u64_range|assumption..].
  cbn [bind]. rewrite s64_u64, s64_id by assumption. reflexivity.
Qed.
Lemma reads_U64 x : is_u64 x -> reads DecodeU64 (venc x) x.
Proof. apply reads_varint. Qed.

(** ** Length-prefixed bytes *)

(** A length-prefixed payload with any varint [lb] as its length. *)
Lemma ReadBytes_at b pre lb p post :
  vis b = pre ++ lb ++ p ++ post -> bytes (vis b) -> slen b < 2^63 ->
  is_varint lb -> (List.length lb <= 10)%nat -> leb_value lb = zlen p ->
  ReadBytes b (zlen pre) =
  Ok (mkslice p (post ++ ext b), zlen pre + zlen (lb ++ p)).
Proof.
  intros Hv Hb Hl Hvi H10 Hval. unfold ReadBytes.
  assert (Hlen : slen b = zlen pre + zlen lb + zlen p + zlen post)
    by (rewrite slen_zlen, Hv, !zlen_app; lia).
  pose proof (zlen_nonneg pre); pose proof (zlen_nonneg lb);
  pose proof (zlen_nonneg p); pose proof (zlen_nonneg post).
  rewrite (decode_at b pre lb (p ++ post)); try assumption.
  2: rewrite <- Hv; assumption. 2: rewrite Hval; lia.
  cbn [bind]. rewrite Hval. rewrite (s64_id (zlen p)) by (unfold is_s64; lia).
  rewrite s64_id by (unfold is_s64; lia).
  assert (Hs : sslice b (zlen (pre ++ lb)) (zlen (pre ++ lb) + zlen p)
               = Ok (mkslice p (post ++ ext b))).
  { apply sslice_mid. rewrite <- app_assoc. assumption. }
  rewrite zlen_app in Hs. rewrite Hs. cbn [bind]. rewrite zlen_app. f_equal. f_equal. lia.
Qed.

Lemma reads_string s :
  zlen s < 2^63 -> reads DecodeString (venc (zlen s) ++ s) s.
Proof.
  intros Hs b pre post Hv Hb Hl. unfold DecodeString, DecodeBytes.
  assert (is_u64 (zlen s)) by (unfold is_u64; pose proof (zlen_nonneg s); lia).
  rewrite (ReadBytes_at b pre (venc (zlen s)) s post); try assumption.
  - reflexivity.
  - rewrite Hv, <- app_assoc. reflexivity.
  - apply venc_varint; assumption.
  - apply venc_length; assumption.
  - apply venc_value; assumption.
Qed.

Lemma EncodeBuffer_eq buf p :
  zlen p < 2^63 -> EncodeBuffer buf p = buf ++ venc (zlen p) ++ p.
Proof.
  intros Hp. unfold EncodeBuffer. rewrite EncodeVarInt_app, <- app_assoc.
  pose proof (zlen_nonneg p).
  rewrite u64_id by (unfold is_u64; lia). reflexivity.
Qed.

(** ** Packed lists *)

Fixpoint outputs (f : Z -> Z -> Z * Z) (acc : Z) (raws : list Z) : list Z :=
  match raws with
  | [] => []
  | r :: rs => let '(acc', v) := f acc r in v :: outputs f acc' rs
  end.

Definition vencs (raws : list Z) : list Z := concat (map venc raws).

Lemma vencs_app l1 l2 : vencs (l1 ++ l2) = vencs l1 ++ vencs l2.
Proof. unfold vencs. rewrite map_app, concat_app. reflexivity. Qed.

Lemma vencs_bytes raws : Forall is_u64 raws -> bytes (vencs raws).
Proof.
  induction 1; [constructor|]. unfold vencs. simpl. apply bytes_app.
  split; [apply venc_bytes; assumption|assumption].
Qed.

Lemma vencs_len raws : Forall is_u64 raws -> zlen raws <= zlen (vencs raws).
Proof.
  induction 1 as [|x l Hx Hl IH]; [reflexivity|]. unfold vencs in *. simpl.
  rewrite zlen_cons, zlen_app. pose proof (venc_zlen x Hx). lia.
Qed.

Lemma packed_loop_from checked f innerBuf done todo acc out fuel :
  vis innerBuf = vencs (done ++ todo) -> slen innerBuf < 2^63 ->
  Forall is_u64 (done ++ todo) -> zlen out = zlen done ->
  (List.length (vencs todo) < fuel)%nat ->
  exists acc' n',
  loop fuel (packed_cond innerBuf) (packed_body checked f innerBuf)
       (zlen (vencs done), acc, out) = Ok (n', acc', out ++ outputs f acc todo).
Proof.
  revert done acc out fuel. induction todo as [|r rs IH]; intros done acc out fuel Hv Hl Hu Ho Hf.
  - destruct fuel; [lia|]. cbn [loop]. unfold packed_cond at 1.
    rewrite slen_zlen, Hv, app_nil_r. destruct (Z.ltb_spec (zlen (vencs done)) (zlen (vencs done))); [lia|].
    simpl. rewrite app_nil_r. eauto.
  - destruct fuel as [|fuel]; [lia|].
    assert (Hu' := Hu). apply Forall_app in Hu' as [Hud Hut]. inversion Hut as [|? ? Hr Hrs]; subst.
    assert (Hvr : vis innerBuf = vencs done ++ venc r ++ vencs rs).
    { rewrite Hv, vencs_app. reflexivity. }
    pose proof (venc_zlen r Hr). pose proof (vencs_len done Hud).
    pose proof (zlen_nonneg (vencs rs)).
    assert (Hlen : slen innerBuf = zlen (vencs done) + (zlen (venc r) + zlen (vencs rs))).
    { rewrite slen_zlen, Hvr, !zlen_app. reflexivity. }
    cbn [loop]. unfold packed_cond at 1.
    destruct (Z.ltb_spec (zlen (vencs done)) (slen innerBuf)); [|lia].
    unfold packed_body at 1.
    rewrite (decode_venc innerBuf (vencs done) r (vencs rs)); try assumption;
      [|apply vencs_bytes; assumption..].
    cbn [bind outputs]. destruct (f acc r) as [acc' v].
    destruct (Z.ltb_spec (zlen out) (slen innerBuf)); [|lia].
    rewrite andb_false_r. cbn [bind].
    replace (zlen (vencs done) + zlen (venc r)) with (zlen (vencs (done ++ [r]))).
    2:{ rewrite vencs_app, zlen_app. unfold vencs at 2. simpl. rewrite app_nil_r. reflexivity. }
    destruct (IH (done ++ [r]) acc' (out ++ [v]) fuel) as (acc2 & n2 & IH').
    + rewrite <- app_assoc. exact Hv.
    + exact Hl.
    + rewrite <- app_assoc. exact Hu.
    + rewrite !zlen_app, Ho. reflexivity.
    + unfold vencs in Hf. simpl in Hf. rewrite app_length in Hf.
      pose proof (venc_length r Hr). unfold vencs. lia.
    + rewrite IH'. rewrite <- app_assoc. eauto.
Qed.

Lemma packed_loop_ok checked f innerBuf raws :
  vis innerBuf = vencs raws -> slen innerBuf < 2^63 -> Forall is_u64 raws ->
  packed_loop checked f innerBuf = Ok (outputs f 0 raws).
Proof.
  intros Hv Hl Hu. unfold packed_loop.
  destruct (packed_loop_from checked f innerBuf [] raws 0 [] (S (List.length (vis innerBuf))))
    as (acc & n & H); try assumption; try reflexivity.
  { rewrite Hv. lia. }
  change (zlen (vencs [])) with 0 in H. rewrite H. reflexivity.
Qed.

Lemma reads_packed checked f raws :
  Forall is_u64 raws -> zlen (vencs raws) < 2^63 ->
  reads (decode_packed checked f) (venc (zlen (vencs raws)) ++ vencs raws) (outputs f 0 raws).
Proof.
  intros Hu Hl b pre post Hv Hb Hlb. unfold decode_packed, DecodeBytes.
  assert (is_u64 (zlen (vencs raws)))
    by (unfold is_u64; pose proof (zlen_nonneg (vencs raws)); lia).
  rewrite (ReadBytes_at b pre (venc (zlen (vencs raws))) (vencs raws) post); try assumption.
  - cbn [bind]. rewrite packed_loop_ok with (raws := raws); try assumption; reflexivity.
  - rewrite Hv, <- app_assoc. reflexivity.
  - apply venc_varint; assumption.
  - apply venc_length; assumption.
  - apply venc_value; assumption.
Qed.

(** *** The encoders write [vencs] of something *)
Lemma enc_values_eq conv buf values :
  enc_values conv buf values = buf ++ vencs (map conv values).
Proof.
  unfold enc_values. revert buf. induction values as [|v vs IH]; intros buf; simpl.
  - unfold vencs. simpl. rewrite app_nil_r. reflexivity.
  - rewrite IH, EncodeVarInt_app. unfold vencs. simpl. rewrite app_assoc. reflexivity.
Qed.

(** wrapped differences *)
Fixpoint deltas (w : Z -> Z) (last : Z) (l : list Z) : list Z :=
  match l with
  | [] => []
  | x :: r => w (x - last) :: deltas w x r
  end.

Lemma enc_deltas_gen (w : Z -> Z) buf last values :
  fst (fold_left
         (fun '(buf, last) value =>
            (EncodeVarInt buf (EncodeZigZag (w (value - last))), value))
         values (buf, last))
  = buf ++ vencs (map EncodeZigZag (deltas w last values)).
Proof.
  revert buf last. induction values as [|v vs IH]; intros buf last; simpl.
  - unfold vencs. simpl. rewrite app_nil_r. reflexivity.
  - rewrite IH, EncodeVarInt_app. unfold vencs. simpl. rewrite app_assoc. reflexivity.
Qed.

Lemma enc_deltas_eq buf values :
  enc_deltas buf values = buf ++ vencs (map EncodeZigZag (deltas s64 0 values)).
Proof. apply enc_deltas_gen. Qed.

Lemma outputs_map f g values :
  (forall acc v, In v values -> f acc (g v) = (acc, v)) ->
  forall acc, outputs f acc (map g values) = values.
Proof.
  induction values as [|v vs IH]; intros H acc; simpl; [reflexivity|].
  rewrite H by (left; reflexivity). rewrite IH; [reflexivity|].
  intros; apply H; right; assumption.
Qed.

Lemma outputs_deltas last values :
  Forall is_s64 values ->
  outputs (fun last raw => let last := s64 (last + DecodeZigZag raw) in (last, last)) last
          (map EncodeZigZag (deltas s64 last values)) = values.
Proof.
  revert last. induction values as [|v vs IH]; intros last H; [reflexivity|].
  inversion H; subst. cbn [deltas map outputs].
  rewrite zz_roundtrip by apply s64_range.
  rewrite s64_add_r. replace (last + (v - last)) with v by lia.
  rewrite s64_id by assumption. rewrite IH by assumption. reflexivity.
Qed.

Lemma zz_deltas_u64 last values : Forall is_u64 (map EncodeZigZag (deltas s64 last values)).
Proof.
  revert last; induction values; intros; simpl; constructor; auto.
  apply EncodeZigZag_range, s64_range.
Qed.
Lemma zz_u64 values : Forall is_s64 values -> Forall is_u64 (map EncodeZigZag values).
Proof. induction 1; simpl; constructor; auto. apply EncodeZigZag_range; assumption. Qed.
Lemma map_u64_u64 values : Forall is_u64 (map u64 values).
Proof. induction values; simpl; constructor; auto. apply u64_range. Qed.

(** the payload of each packed encoder *)
Definition p_delta (values : list Z) := vencs (map EncodeZigZag (deltas s64 0 values)).
Definition p_u64ext (values : list Z) := vencs (map u64 values).
Definition p_zz (values : list Z) := vencs (map EncodeZigZag values).

(** length-prefixed *)
Definition lp (p : list Z) : list Z := venc (zlen p) ++ p.

Lemma reads_S64PackedDelta values :
  Forall is_s64 values -> zlen (p_delta values) < 2^63 ->
  reads DecodeS64PackedDelta (lp (p_delta values)) values.
Proof.
  intros H Hl. pose proof (reads_packed true
    (fun last raw => let last := s64 (last + DecodeZigZag raw) in (last, last))
    (map EncodeZigZag (deltas s64 0 values)) (zz_deltas_u64 _ _) Hl) as R.
  rewrite outputs_deltas in R by assumption. exact R.
Qed.

Lemma reads_I32Packed values :
  Forall is_s32 values -> zlen (p_u64ext values) < 2^63 ->
  reads DecodeI32Packed (lp (p_u64ext values)) values.
Proof.
  intros H Hl. pose proof (reads_packed true (fun acc raw => (acc, s32 raw))
    (map u64 values) (map_u64_u64 _) Hl) as R.
  rewrite outputs_map in R; [exact R|].
  intros acc v Hin. rewrite s32_u64, s32_id; [reflexivity|].
  eapply Forall_forall in H; eauto.
Qed.

Lemma reads_U32Packed values :
  Forall is_u32 values -> zlen (p_u64ext values) < 2^63 ->
  reads DecodeU32Packed (lp (p_u64ext values)) values.
Proof.
  intros H Hl. pose proof (reads_packed true (fun acc raw => (acc, u32 raw))
    (map u64 values) (map_u64_u64 _) Hl) as R.
  rewrite outputs_map in R; [exact R|].
  intros acc v Hin. rewrite u32_u64, u32_id; [reflexivity|].
  eapply Forall_forall in H; eauto.
Qed.

Lemma reads_S32Packed values :
  Forall is_s32 values -> zlen (p_zz values) < 2^63 ->
  reads DecodeS32Packed (lp (p_zz values)) values.
Proof.
  intros H Hl.
  assert (H64 : Forall is_s64 values) by (eapply Forall_impl; [apply is_s32_s64|exact H]).
  pose proof (reads_packed true (fun acc raw => (acc, s32 (DecodeZigZag raw)))
    (map EncodeZigZag values) (zz_u64 _ H64) Hl) as R.
  rewrite outputs_map in R; [exact R|].
  intros acc v Hin. rewrite zz_roundtrip, s32_id; [reflexivity| |].
  - eapply Forall_forall in H; eauto.
  - eapply Forall_forall in H64; eauto.
Qed.

Lemma reads_S64Packed values :
  Forall is_s64 values -> zlen (p_zz values) < 2^63 ->
  reads DecodeS64Packed (lp (p_zz values)) values.
Proof.
  intros H Hl.
  pose proof (reads_packed true (fun acc raw => (acc, DecodeZigZag raw))
    (map EncodeZigZag values) (zz_u64 _ H) Hl) as R.
  rewrite outputs_map in R; [exact R|].
  intros acc v Hin. rewrite zz_roundtrip; [reflexivity|].
  eapply Forall_forall in H; eauto.
Qed.

Lemma reads_U64Packed values :
  Forall is_u64 values -> zlen (vencs values) < 2^63 ->
  reads DecodeU64Packed (lp (vencs values)) values.
Proof.
  intros H Hl.
  pose proof (reads_packed false (fun acc raw => (acc, raw)) values H Hl) as R.
  replace (outputs (fun acc raw => (acc, raw)) 0 values) with values in R; [exact R|].
  rewrite <- (map_id values) at 2. symmetry. apply outputs_map. reflexivity.
Qed.

(** *** The preallocated output is never exceeded, and the loops terminate, on any bytes. *)

Lemma leb_value_last_ub bs :
  is_varint bs -> leb_value bs < (last bs 0 + 1) * 2 ^ (7 * (zlen bs - 1)).
Proof.
  induction bs as [|b r IH]; [contradiction|]. destruct r as [|b2 r].
  - simpl. intros H. rewrite zlen_cons, (@zlen_nil Z). change (2 ^ _) with 1.
    rewrite Z.mod_small by lia. lia.
  - intros [H1 H2]. specialize (IH H2).
    change (last (b :: b2 :: r) 0) with (last (b2 :: r) 0).
    change (leb_value (b :: b2 :: r)) with (b mod 128 + 128 * leb_value (b2 :: r)).
    rewrite (zlen_cons b). pose proof (Z.mod_pos_bound b 128).
    rewrite (zlen_cons b2) in *. pose proof (zlen_nonneg r).
    replace (7 * (1 + (1 + zlen r) - 1)) with (7 + 7 * (1 + zlen r - 1)) by lia.
    rewrite Z.pow_add_r by lia. change (2 ^ 7) with 128. lia.
Qed.

Lemma DecodeVarInt_ok b s v n :
  bytes (vis b) -> slen b < 2^63 -> DecodeVarInt b s = Ok (v, n) ->
  0 <= s /\ s + 1 <= n <= s + 10 /\ n <= slen b /\ is_u64 v.
Proof.
  intros Hb Hl H. destruct (Z.ltb_spec s 0) as [Hs|Hs].
  { rewrite DecodeVarInt_neg in H by lia. discriminate. }
  rewrite DecodeVarInt_scan in H by assumption.
  destruct (scan 9 (skipn (Z.to_nat s) (vis b))) as [bs| |] eqn:E; try discriminate.
  cbn [wrap_scan] in H. injection H as <- <-.
  apply scan_got in E; [|apply bytes_skipn; assumption].
  destruct E as (post & E1 & E2 & E3 & E4).
  assert (Hlen : (List.length (skipn (Z.to_nat s) (vis b)) = List.length bs + List.length post)%nat)
    by (rewrite E1, app_length; reflexivity).
  rewrite skipn_length in Hlen. unfold zlen, slen.
  split; [lia|]. split; [lia|]. split; [lia|].
  assert (Hval : leb_value bs < 2^64).
  { destruct (Nat.eq_dec (List.length bs) 10) as [Ht|Ht].
    - specialize (E4 Ht).
      pose proof (leb_value_last_ub bs E2) as H. unfold zlen in H. rewrite Ht in H.
      change (2 ^ _) with (2^63) in H. lia.
    - pose proof (leb_value_lt bs).
      assert (2 ^ (7 * zlen bs) <= 2 ^ 63) by (apply Z.pow_le_mono_r; unfold zlen; lia). lia. }
  pose proof (leb_value_nonneg bs). unfold is_u64. lia.
Qed.

Lemma DecodeVarInt_nodiv b s : DecodeVarInt b s <> Diverge.
Proof.
  unfold DecodeVarInt.
  repeat match goal with
  | |- context [sidx b ?i] =>
      let E := fresh in
      destruct (sidx b i) eqn:E;
      [cbn [bind]|discriminate|unfold sidx in E; destruct (_ && _); discriminate]
  | |- context [if ?c then _ else _] => destruct c
  | |- Ok _ <> Diverge => discriminate
  | |- Panic _ <> Diverge => discriminate
  end.
Qed.

Lemma packed_unchecked_gen f innerBuf fuel next acc out :
  bytes (vis innerBuf) -> slen innerBuf < 2^63 -> zlen out <= next ->
  loop fuel (packed_cond innerBuf) (packed_body true f innerBuf) (next, acc, out) =
  loop fuel (packed_cond innerBuf) (packed_body false f innerBuf) (next, acc, out).
Proof.
  intros Hb Hl. revert next acc out. induction fuel as [|fuel IH]; intros next acc out Ho;
    cbn [loop]; [reflexivity|].
  unfold packed_cond at 1 3. destruct (Z.ltb_spec next (slen innerBuf)); [|reflexivity].
  unfold packed_body at 1 3.
  destruct (DecodeVarInt innerBuf next) as [[v n]|p|] eqn:E; cbn [bind]; try reflexivity.
  apply DecodeVarInt_ok in E; [|assumption..]. destruct (f acc v) as [acc' v'].
  destruct (Z.ltb_spec (zlen out) (slen innerBuf)); [|lia]. cbn [andb negb bind].
  apply IH. rewrite zlen_app. change (zlen [v']) with 1. lia.
Qed.

Lemma packed_unchecked f innerBuf :
  bytes (vis innerBuf) -> slen innerBuf < 2^63 ->
  packed_loop true f innerBuf = packed_loop false f innerBuf.
Proof.
  intros. unfold packed_loop. rewrite packed_unchecked_gen; try assumption; reflexivity.
Qed.

Lemma packed_loop_nodiv checked f innerBuf :
  bytes (vis innerBuf) -> slen innerBuf < 2^63 -> packed_loop checked f innerBuf <> Diverge.
Proof.
  intros Hb Hl. unfold packed_loop.
  assert (H : loop (S (List.length (vis innerBuf))) (packed_cond innerBuf)
     (packed_body checked f innerBuf) (0, 0, []) <> Diverge).
  { apply loop_total with (mu := fun st => Z.to_nat (slen innerBuf - fst (fst st))).
    - intros [[n a] o] _. unfold packed_body.
      pose proof (DecodeVarInt_nodiv innerBuf n).
      destruct (DecodeVarInt innerBuf n) as [[v n']|p|]; cbn [bind]; try discriminate; try contradiction.
      destruct (f a v). destruct (_ && _); discriminate.
    - intros [[n a] o] [[n' a'] o'] Hc. unfold packed_body, packed_cond in *.
      destruct (DecodeVarInt innerBuf n) as [[v n2]|p|] eqn:E; cbn [bind]; try discriminate.
      apply DecodeVarInt_ok in E; [|assumption..].
      destruct (f a v). destruct (_ && _); [discriminate|]. intros H; injection H as <- <- <-.
      simpl. lia.
    - simpl. unfold slen. lia. }
  destruct (loop _ _ _ _) as [[[? ?] ?]|p|]; cbn [bind]; congruence || discriminate.
Qed.

(** ** Zero-terminated delta lists *)

Lemma dz_from buf done todo rest last out fuel :
  vis buf = done ++ vencs (map EncodeZigZag (deltas s64 last todo)) ++ 0 :: rest ->
  bytes (vis buf) -> slen buf < 2^63 -> Forall is_s64 todo -> is_s64 last ->
  (List.length (vencs (map EncodeZigZag (deltas s64 last todo))) + 1 < fuel)%nat ->
  exists n l,
  loop fuel (dz_cond buf) (dz_body buf) (zlen done, last, out, false)
  = Ok (n, l, out ++ until_repeat last todo, true).
Proof.
  revert done last out fuel.
  induction todo as [|x xs IH]; intros done last out fuel Hv Hb Hl Hs Hlast Hf.
  - destruct fuel as [|[|fuel]]; [lia|lia|]. cbn [loop]. unfold dz_cond at 1.
    assert (Hlen : slen buf = zlen done + (1 + zlen rest)).
    { rewrite slen_zlen, Hv. unfold vencs. simpl. rewrite zlen_app, zlen_cons. reflexivity. }
    pose proof (zlen_nonneg rest).
    destruct (Z.ltb_spec (zlen done) (slen buf)); [|lia]. cbn [negb andb].
    unfold dz_body at 1.
    assert (Hd : DecodeVarInt buf (zlen done) = Ok (0, zlen done + zlen (venc 0))).
    { apply (reads_varint 0) with (post := rest); try assumption. unfold is_u64; lia. }
    rewrite Hd. cbn [bind]. change (0 =? 0) with true. cbv iota. cbn [bind].
    unfold dz_cond at 1. cbn [negb andb]. simpl. rewrite app_nil_r. eauto.
  - inversion Hs as [|? ? Hx Hxs]; subst.
    destruct fuel as [|fuel]; [lia|]. cbn [loop].
    set (d := EncodeZigZag (s64 (x - last))) in *.
    assert (Hdu : is_u64 d) by (apply EncodeZigZag_range, s64_range).
    assert (Hv' : vis buf = done ++ venc d ++
              (vencs (map EncodeZigZag (deltas s64 x xs)) ++ 0 :: rest)).
    { rewrite Hv. cbn [deltas map]. unfold vencs. cbn [map concat]. fold d.
      rewrite <- app_assoc. reflexivity. }
    pose proof (venc_zlen d Hdu).
    assert (Hlen : slen buf = zlen done + (zlen (venc d) +
              zlen (vencs (map EncodeZigZag (deltas s64 x xs)) ++ 0 :: rest))).
    { rewrite slen_zlen, Hv', !(zlen_app done), (zlen_app (venc d)). reflexivity. }
    pose proof (zlen_nonneg (vencs (map EncodeZigZag (deltas s64 x xs)) ++ 0 :: rest)).
    unfold dz_cond at 1. destruct (Z.ltb_spec (zlen done) (slen buf)); [|lia].
    cbn [negb andb]. unfold dz_body at 1.
    rewrite (reads_varint d Hdu buf done _ Hv' Hb Hl). cbn [bind].
    assert (Hd0 : (d =? 0) = (x =? last)).
    { unfold d. rewrite EncodeZigZag_spec by apply s64_range.
      destruct (Z.eqb_spec x last) as [->|Hne].
      - replace (last - last) with 0 by lia. reflexivity.
      - apply Z.eqb_neq. unfold zigzag.
        assert (s64 (x - last) <> 0).
        { destruct (s64_cong (x - last)) as [k ->]. unfold is_s64 in *. lia. }
        destruct (Z.ltb_spec (s64 (x - last)) 0); lia. }
    rewrite Hd0. cbn [until_repeat]. destruct (Z.eqb_spec x last).
    + cbn [bind]. destruct fuel; cbn [loop]; unfold dz_cond at 1; cbn [negb andb];
        rewrite app_nil_r; eauto.
    + cbn [bind]. unfold d. rewrite zz_roundtrip by apply s64_range.
      rewrite s64_add_r. replace (last + (x - last)) with x by lia.
      rewrite (s64_id x) by assumption.
      destruct (IH (done ++ venc d) x (out ++ [x]) fuel) as (n2 & l2 & IH');
        [rewrite <- app_assoc; exact Hv'|assumption..| |].
      * cbn [deltas map] in Hf. unfold vencs in Hf. cbn [map concat] in Hf. fold d in Hf.
        rewrite app_length in Hf. pose proof (venc_length d Hdu). unfold vencs. lia.
      * rewrite zlen_app in IH'. fold d. rewrite IH'. rewrite <- app_assoc. eauto.
Qed.

Lemma DecodeS64PackedDeltaZero_enc values rest e :
  Forall is_s64 values -> bytes rest ->
  zlen (EncodeS64PackedDeltaZero [] values ++ rest) < 2^63 ->
  DecodeS64PackedDeltaZero (mkslice (EncodeS64PackedDeltaZero [] values ++ rest) e)
  = Ok (until_repeat 0 values).
Proof.
  intros Hs Hr Hl. unfold EncodeS64PackedDeltaZero in *. rewrite enc_deltas_eq in *.
  unfold DecodeS64PackedDeltaZero. simpl app in *.
  set (buf := mkslice _ e).
  assert (Hb : bytes (vis buf)).
  { unfold buf; simpl. rewrite !bytes_app. split; [split|assumption].
    - apply vencs_bytes, zz_deltas_u64.
    - constructor; [unfold is_u8; lia|constructor]. }
  destruct (dz_from buf [] values rest 0 [] (S (List.length (vis buf)))) as (n & l & H);
    try assumption.
  - unfold buf; simpl. rewrite <- app_assoc. reflexivity.
  - unfold is_s64; lia.
  - unfold buf; simpl. rewrite !app_length. simpl. lia.
  - change (zlen []) with 0 in H. rewrite H. reflexivity.
Qed.

Lemma until_repeat_all p l :
  (forall l1 x y l2, p :: l = l1 ++ x :: y :: l2 -> x <> y) -> until_repeat p l = l.
Proof.
  revert p; induction l as [|x l IH]; intros p H; [reflexivity|]. simpl.
  destruct (Z.eqb_spec x p) as [->|Hne].
  - exfalso. apply (H [] p p l); reflexivity.
  - f_equal. apply IH. intros l1 a b l2 E. apply (H (p :: l1) a b l2). rewrite E. reflexivity.
Qed.

Lemma DecodeS64PackedDeltaZero_nodiv buf :
  bytes (vis buf) -> slen buf < 2^63 -> DecodeS64PackedDeltaZero buf <> Diverge.
Proof.
  intros Hb Hl. unfold DecodeS64PackedDeltaZero.
  assert (H : loop (S (List.length (vis buf))) (dz_cond buf) (dz_body buf) (0, 0, [], false)
              <> Diverge).
  { apply loop_total with (mu := fun st => Z.to_nat (slen buf - fst (fst (fst st)))).
    - intros [[[n a] o] r] _. unfold dz_body. pose proof (DecodeVarInt_nodiv buf n).
      destruct (DecodeVarInt buf n) as [[v n']|p|]; cbn [bind]; try discriminate; try contradiction.
      destruct (v =? 0); discriminate.
    - intros [[[n a] o] r] [[[n' a'] o'] r'] Hc. unfold dz_body, dz_cond in *.
      destruct (DecodeVarInt buf n) as [[v n2]|p|] eqn:E; cbn [bind]; try discriminate.
      apply DecodeVarInt_ok in E; [|assumption..].
      destruct (v =? 0); intros H; injection H as <- <- <- <-; simpl; lia.
    - simpl. unfold slen. lia. }
  destruct (loop _ _ _ _) as [[[[? ?] ?] r]|p|]; cbn [bind]; try congruence.
  destruct r; discriminate.
Qed.

(** ** Embedding *)

Lemma MakeIdType_range id t : is_u64 t -> is_u64 (MakeIdType id t).
Proof.
  intros [Ht1 Ht2]. unfold MakeIdType. pose proof (u64_range (Z.shiftl id 3)) as [H1 H2].
  unfold is_u64. split; [apply Z.lor_nonneg; lia|].
  destruct (Z.eq_dec (Z.lor (u64 (Z.shiftl id 3)) t) 0) as [->|Hn]; [lia|].
  assert (0 < Z.lor (u64 (Z.shiftl id 3)) t)
    by (assert (0 <= Z.lor (u64 (Z.shiftl id 3)) t) by (apply Z.lor_nonneg; lia); lia).
  apply Z.log2_lt_pow2; [lia|]. rewrite Z.log2_lor by lia. apply Z.max_lub_lt.
  - destruct (Z.eq_dec (u64 (Z.shiftl id 3)) 0) as [->|]; [simpl; lia|apply Z.log2_lt_pow2; lia].
  - destruct (Z.eq_dec t 0) as [->|]; [simpl; lia|apply Z.log2_lt_pow2; lia].
Qed.

(** fixed-width varint of [n] bytes *)
Fixpoint leb_fixed (n : nat) (v : Z) : list Z :=
  match n with
  | O => []
  | S O => [v]
  | S n' => (v mod 128 + 128) :: leb_fixed n' (v / 128)
  end.

Lemma leb_fixed_length n v : List.length (leb_fixed n v) = n.
Proof.
  revert v; induction n as [|n IH]; intros v; [reflexivity|].
  destruct n; [reflexivity|]. change (leb_fixed (S (S n)) v) with
    ((v mod 128 + 128) :: leb_fixed (S n) (v / 128)). cbn [List.length]. rewrite IH. reflexivity.
Qed.

Lemma leb_fixed_spec n v :
  0 <= v < 128 ^ Z.of_nat (S n) ->
  is_varint (leb_fixed (S n) v) /\ leb_value (leb_fixed (S n) v) = v.
Proof.
  revert v; induction n as [|n IH]; intros v Hv.
  - change (128 ^ Z.of_nat 1) with 128 in Hv. cbn [leb_fixed is_varint leb_value].
    rewrite Z.mod_small by lia. lia.
  - change (leb_fixed (S (S n)) v) with ((v mod 128 + 128) :: leb_fixed (S n) (v / 128)).
    destruct (IH (v / 128)) as [H1 H2].
    { split; [apply Z.div_pos; lia|]. apply Z.div_lt_upper_bound; [lia|].
      replace (Z.of_nat (S (S n))) with (1 + Z.of_nat (S n)) in Hv by lia.
      rewrite Z.pow_add_r in Hv by lia. lia. }
    pose proof (Z.mod_pos_bound v 128). pose proof (Z.div_mod v 128 ltac:(lia)).
    split.
    + pose proof (leb_fixed_length (S n) (v / 128)).
      destruct (leb_fixed (S n) (v / 128)); [discriminate|]. cbn [is_varint].
      split; [lia|exact H1].
    + cbn [leb_value]. rewrite H2.
      replace (v mod 128 + 128) with (v mod 128 + 1 * 128) by lia.
      rewrite Z.mod_add, Z.mod_mod by lia. lia.
Qed.

Definition patches (n : nat) (patch : list Z -> Z -> Z -> res (list Z)) (limit : Z) (msg : string) :=
  forall pre p v, 0 <= v ->
     patch (pre ++ repeat 0 n ++ p) (zlen pre) v =
     if limit <=? v then Panic (PanicMsg msg) else Ok (pre ++ leb_fixed n v ++ p).

Lemma lset_at pre a l x i : i = zlen pre -> lset (pre ++ a :: l) i x = Ok (pre ++ x :: l).
Proof. intros ->. apply lset_app_mid. Qed.

Lemma snoc_app {A} (l1 : list A) x l2 : l1 ++ x :: l2 = (l1 ++ [x]) ++ l2.
Proof. rewrite <- app_assoc. reflexivity. Qed.

Lemma patches_128 : patches 1 EmbedInt128 128 "128 overflow".
Proof.
  intros pre p v Hv. unfold EmbedInt128. destruct (Z.leb_spec 128 v); [reflexivity|].
  cbn [repeat app]. rewrite lset_app_mid. cbn [leb_fixed app].
  rewrite u8_id by (unfold is_u8; lia). reflexivity.
Qed.

Lemma patches_16384 : patches 2 EmbedInt16384 16384 "16384 overflow".
Proof.
  intros pre p v Hv. unfold EmbedInt16384. destruct (Z.leb_spec 16384 v); [reflexivity|].
  rewrite !cont_spec, fin_spec by lia. rewrite Z.div_1_r.
  cbn [repeat app]. rewrite lset_app_mid. cbn [bind]. rewrite snoc_app.
  rewrite lset_at by (rewrite zlen_app; reflexivity).
  rewrite <- app_assoc. reflexivity.
Qed.

Lemma patches_2097152 : patches 3 EmbedInt2097152 2097152 "2097152 overflow".
Proof.
  intros pre p v Hv. unfold EmbedInt2097152. destruct (Z.leb_spec 2097152 v); [reflexivity|].
  rewrite !cont_spec, fin_spec by lia. rewrite Z.div_1_r.
  cbn [repeat app]. rewrite lset_app_mid. cbn [bind]. rewrite snoc_app.
  rewrite lset_at by (rewrite zlen_app; reflexivity). cbn [bind]. rewrite snoc_app.
  rewrite lset_at by (rewrite !zlen_app, !zlen_cons, !(@zlen_nil Z); lia).
  rewrite <- !app_assoc. cbn [leb_fixed app].
  replace (v / 128 / 128) with (v / 2 ^ 14)
    by (change (2 ^ 14) with (128 * 128); rewrite Z.div_div by lia; reflexivity).
  reflexivity.
Qed.

Lemma patches_268435456 : patches 4 EmbedInt268435456 268435456 "268435456 overflow".
Proof.
  intros pre p v Hv. unfold EmbedInt268435456. destruct (Z.leb_spec 268435456 v); [reflexivity|].
  rewrite !cont_spec, fin_spec by lia. rewrite Z.div_1_r.
  cbn [repeat app]. rewrite lset_app_mid. cbn [bind]. rewrite snoc_app.
  rewrite lset_at by (rewrite zlen_app; reflexivity). cbn [bind]. rewrite snoc_app.
  rewrite lset_at by (rewrite !zlen_app, !zlen_cons, !(@zlen_nil Z); lia).
  cbn [bind]. rewrite snoc_app.
  rewrite lset_at by (rewrite !zlen_app, !zlen_cons, !(@zlen_nil Z); lia).
  rewrite <- !app_assoc. cbn [leb_fixed app].
  replace (v / 128 / 128) with (v / 2 ^ 14)
    by (change (2 ^ 14) with (128 * 128); rewrite Z.div_div by lia; reflexivity).
  replace (v / 2 ^ 14 / 128) with (v / 2 ^ 21) by (rewrite div128 by lia; reflexivity).
  reflexivity.
Qed.

(** [buf] extended by the key of a length-delimited field and [n] reserved bytes *)
Definition reserved (n : nat) (id : Z) (buf : list Z) : list Z :=
  buf ++ venc (MakeIdType id PbFixedBytes) ++ repeat 0 n.

Lemma embed_ok n patch limit msg id (e : Embedder) buf p :
  patches n patch limit msg ->
  e (reserved n id buf) = Ok (reserved n id buf ++ p) ->
  embed n patch id e buf =
  if limit <=? zlen p then Panic (PanicMsg msg)
  else Ok (buf ++ venc (MakeIdType id PbFixedBytes) ++ leb_fixed n (zlen p) ++ p).
Proof.
  intros Hp He. unfold embed, Reserve. rewrite EncodeVarInt_app.
  rewrite <- app_assoc. fold (reserved n id buf). rewrite He. cbn [bind].
  unfold reserved. rewrite <- !app_assoc. rewrite (app_assoc buf).
  pose proof (zlen_nonneg p).
  rewrite !zlen_app, zlen_repeat.
  replace (zlen buf + zlen (venc (MakeIdType id PbFixedBytes)) + (Z.of_nat n + zlen p) -
    (zlen buf + zlen (venc (MakeIdType id PbFixedBytes)) + Z.of_nat n)) with (zlen p) by lia.
  rewrite <- zlen_app. rewrite Hp by lia.
  destruct (limit <=? zlen p); [reflexivity|]. rewrite <- app_assoc. reflexivity.
Qed.

Lemma embed_panic n patch id (e : Embedder) buf r :
  e (reserved n id buf) = Panic r -> embed n patch id e buf = Panic r.
Proof.
  intros He. unfold embed, Reserve. rewrite EncodeVarInt_app, <- app_assoc.
  fold (reserved n id buf). rewrite He. reflexivity.
Qed.
