(** * PbThms: proofs of the properties of internal/pb (C01-C09). *)
From Verif Require Import Base BaseLemmas PbModel PbSpec PbProofs PbProofs2.

(** C01. [v] is appended to [pre]; whatever follows ([post], and [e] beyond the
    length of the slice), decoding at the end of [pre] gives [v] and leaves the
    cursor right after the encoding. *)
Lemma pC01_varint_roundtrip : forall pre post e v,
  is_u64 v -> bytes pre -> bytes post -> zlen (EncodeVarInt pre v ++ post) < 2^63 ->
  DecodeVarInt (mkslice (EncodeVarInt pre v ++ post) e) (zlen pre)
    = Ok (v, zlen (EncodeVarInt pre v))
  /\ firstn (List.length pre) (EncodeVarInt pre v) = pre.
Proof.
  intros pre post e v Hv H1 H2 Hl. rewrite EncodeVarInt_app in *. split.
  - rewrite zlen_app. eapply decode_venc; try eassumption.
    cbn [vis]. rewrite <- app_assoc. reflexivity.
  - rewrite firstn_app, Nat.sub_diag, firstn_O, app_nil_r. apply firstn_all.
Qed.

Lemma pC01_ex :
  is_u64 (2^64 - 1) /\ bytes [255; 0] /\ bytes [7] /\
  zlen (EncodeVarInt [255; 0] (2^64 - 1) ++ [7]) < 2^63 /\
  DecodeVarInt (mkslice (EncodeVarInt [255; 0] (2^64 - 1) ++ [7]) [9]) 2 = Ok (2^64 - 1, 12).
Proof.
  unfold is_u64. split; [lia|]. split; [repeat constructor; unfold is_u8; lia|].
  split; [repeat constructor; unfold is_u8; lia|]. split; vm_compute; reflexivity.
Qed.

(** C02. The encoding appends one varint with value [v], 1 to 10 bytes long, and
    no varint with that value is shorter. *)
Lemma pC02_varint_canonical : forall b v, is_u64 v ->
  exists bs, EncodeVarInt b v = b ++ bs /\ is_varint bs /\ leb_value bs = v /\
    (1 <= List.length bs <= 10)%nat /\
    (forall bs', is_varint bs' -> leb_value bs' = v ->
                 (List.length bs <= List.length bs')%nat).
Proof.
  intros b v Hv. exists (venc v). rewrite EncodeVarInt_app.
  split; [reflexivity|]. split; [apply venc_varint; assumption|].
  split; [apply venc_value; assumption|]. split; [apply venc_length; assumption|].
  intros bs' H1 H2. apply venc_minimal; assumption.
Qed.

(** C02, uniqueness: the shortest varint of a value is unique, so these are the
    bytes any canonical protobuf writer emits. *)
Lemma pC02_varint_canonical_unique : forall v bs, is_u64 v ->
  is_varint bs -> leb_value bs = v ->
  List.length bs = List.length (EncodeVarInt [] v) -> bs = EncodeVarInt [] v.
Proof.
  assert (Huniq : forall bs bs', is_varint bs -> is_varint bs' ->
            leb_value bs = leb_value bs' -> List.length bs = List.length bs' -> bs = bs').
  { induction bs as [|b r IH]; intros bs' H1 H2 He Hl; [contradiction|].
    destruct bs' as [|b' r']; [discriminate|]. cbn [leb_value] in He. injection Hl as Hl.
    destruct r as [|c r], r' as [|c' r']; try discriminate.
    - simpl in H1, H2. cbn [leb_value] in He.
      rewrite !Z.mod_small in He by lia. f_equal. lia.
    - destruct H1 as [H1 H1'], H2 as [H2 H2'].
      assert (Hm : b mod 128 = b - 128 /\ b' mod 128 = b' - 128).
      { split;
        [replace b with (b - 128 + 1 * 128) at 1 by lia
        |replace b' with (b' - 128 + 1 * 128) at 1 by lia];
        rewrite Z.mod_add by lia; apply Z.mod_small; lia. }
      destruct Hm as [-> ->] in He.
      f_equal; [lia|]. apply IH; [assumption|assumption|lia|simpl in *; lia]. }
  intros v bs Hv H1 H2 H3. apply Huniq; try assumption.
  - apply (venc_varint v Hv).
  - rewrite H2. symmetry. apply (venc_value v Hv).
Qed.

Lemma pC02_ex : EncodeVarInt [] 300 = [172; 2] /\ leb_value [172; 2] = 300 /\
  List.length (EncodeVarInt [] (2^63)) = 10%nat.
Proof. vm_compute. repeat split; reflexivity. Qed.

(** C03. Success: exactly when a varint of at most ten bytes and value below 2^64
    starts at the cursor. *)
Lemma pC03_decode_success : forall b s v n, bytes (vis b) -> slen b < 2^63 ->
  (DecodeVarInt b s = Ok (v, n) <->
   0 <= s /\ exists bs post, skipn (Z.to_nat s) (vis b) = bs ++ post /\
     is_varint bs /\ (List.length bs <= 10)%nat /\ leb_value bs = v /\ v < 2^64 /\
     n = s + zlen bs).
Proof.
  intros b s v n Hb Hl. split.
  - intros H. pose proof (DecodeVarInt_ok b s v n Hb Hl H) as (Hs & Hn & _ & Hv).
    split; [assumption|]. rewrite DecodeVarInt_scan in H by assumption.
    destruct (scan 9 (skipn (Z.to_nat s) (vis b))) as [bs| |] eqn:E; try discriminate.
    cbn [wrap_scan] in H.
    apply scan_got in E as (post & E1 & E2 & E3 & _); [|apply bytes_skipn; assumption].
    exists bs, post. injection H as H1 H2. unfold is_u64 in Hv.
    repeat split; try assumption; lia.
  - intros (Hs & bs & post & H1 & H2 & H3 & H4 & H5 & ->).
    rewrite DecodeVarInt_scan, H1 by assumption.
    rewrite scan_varint by (assumption || lia). cbn [wrap_scan]. f_equal. f_equal. lia.
Qed.

(** C03. Out-of-range panic: exactly when the cursor is outside the buffer or the
    buffer ends inside the varint (fewer than ten bytes left, all continuations). *)
Lemma pC03_decode_truncated : forall b s, bytes (vis b) -> slen b < 2^63 ->
  (DecodeVarInt b s = Panic IndexOutOfRange <->
   s < 0 \/ slen b <= s \/
   (0 <= s < slen b /\ slen b - s <= 9 /\
    Forall (fun y => 128 <= y) (skipn (Z.to_nat s) (vis b)))).
Proof.
  intros b s Hb Hl. destruct (Z.ltb_spec s 0) as [Hs|Hs].
  { rewrite DecodeVarInt_neg by lia. intuition lia. }
  rewrite DecodeVarInt_scan by assumption.
  assert (Hsc := scan_trunc 9 (skipn (Z.to_nat s) (vis b)) (bytes_skipn _ _ Hb)).
  rewrite skipn_length in Hsc. unfold slen in *.
  assert (Heq : wrap_scan s 0 1 (scan 9 (skipn (Z.to_nat s) (vis b))) = Panic IndexOutOfRange
           <-> scan 9 (skipn (Z.to_nat s) (vis b)) = Trunc).
  { destruct (scan 9 _); cbn [wrap_scan]; split; congruence || discriminate. }
  rewrite Heq, Hsc. split.
  - intros [H1 H2]. destruct (Z.ltb_spec s (Z.of_nat (List.length (vis b)))); [|lia].
    right; right. split; [lia|]. split; [lia|assumption].
  - intros [H|[H|(H1 & H2 & H3)]]; [lia| |].
    + split; [lia|]. rewrite skipn_all2 by lia. constructor.
    + split; [lia|assumption].
Qed.

(** C03. Overflow panic: exactly when nine continuation bytes are followed by a
    tenth byte greater than one. *)
Lemma pC03_decode_overflow : forall b s, bytes (vis b) -> slen b < 2^63 ->
  (DecodeVarInt b s = Panic (PanicMsg "overflow") <->
   0 <= s /\ exists cs y post, skipn (Z.to_nat s) (vis b) = cs ++ y :: post /\
     List.length cs = 9%nat /\ Forall (fun y => 128 <= y) cs /\ 2 <= y).
Proof.
  intros b s Hb Hl. destruct (Z.ltb_spec s 0) as [Hs|Hs].
  { rewrite DecodeVarInt_neg by lia. split; [discriminate|]. intros [H _]; lia. }
  rewrite DecodeVarInt_scan by assumption.
  pose proof (scan_over 9 (skipn (Z.to_nat s) (vis b)) (bytes_skipn _ _ Hb)) as Hsc.
  destruct (scan 9 _); cbn [wrap_scan]; split; intros H.
  - discriminate.
  - destruct H as [_ H]. apply Hsc in H. discriminate.
  - discriminate.
  - destruct H as [_ H]. apply Hsc in H. discriminate.
  - split; [assumption|]. apply Hsc. reflexivity.
  - reflexivity.
Qed.

(** C03. There is no fourth outcome. *)
Lemma pC03_decode_outcomes : forall b s, bytes (vis b) -> slen b < 2^63 ->
  (exists v n, DecodeVarInt b s = Ok (v, n)) \/
  DecodeVarInt b s = Panic IndexOutOfRange \/ DecodeVarInt b s = Panic (PanicMsg "overflow").
Proof.
  intros b s Hb Hl. destruct (Z.ltb_spec s 0) as [Hs|Hs].
  { rewrite DecodeVarInt_neg by lia. auto. }
  rewrite DecodeVarInt_scan by assumption.
  destruct (scan 9 _); cbn [wrap_scan]; eauto.
Qed.

Lemma pC03_ex :
  DecodeVarInt (exact [0x80; 0x80; 0]) 0 = Ok (0, 3) /\
  DecodeVarInt (mkslice [0x80; 0x80] [1]) 0 = Panic IndexOutOfRange /\
  DecodeVarInt (exact (repeat 0xff 10)) 0 = Panic (PanicMsg "overflow") /\
  DecodeVarInt (exact [1]) (-1) = Panic IndexOutOfRange.
Proof. vm_compute. repeat split; reflexivity. Qed.

(** C04. *)
Lemma pC04_zigzag :
  (forall n, is_s64 n -> EncodeZigZag n = (if n <? 0 then -2 * n - 1 else 2 * n)) /\
  (forall n, is_s64 n -> is_u64 (EncodeZigZag n) /\ DecodeZigZag (EncodeZigZag n) = n) /\
  (forall u, is_u64 u -> is_s64 (DecodeZigZag u) /\ EncodeZigZag (DecodeZigZag u) = u).
Proof.
  split; [exact EncodeZigZag_spec|]. split.
  - intros n Hn. split; [apply EncodeZigZag_range; assumption|apply zz_roundtrip; assumption].
  - intros u Hu. pose proof (DecodeZigZag_range u Hu). split; [assumption|].
    rewrite EncodeZigZag_spec by assumption. apply zigzag_DecodeZigZag; assumption.
Qed.

Lemma pC04_ex : is_s64 (-2^63) /\ EncodeZigZag (-2^63) = 2^64 - 1 /\ DecodeZigZag (2^64-1) = -2^63.
Proof. unfold is_s64. split; [lia|]. vm_compute. split; reflexivity. Qed.

(** C05.  Each scalar written in the wire form of its type is read back unchanged,
    and the cursor ends after it. *)
Lemma pC05_scalar_roundtrip : forall pre post e,
  bytes pre -> bytes post ->
  let at_ := fun (f : slice -> Z -> res (Z * Z)) raw x =>
    zlen (EncodeVarInt pre raw ++ post) < 2^63 ->
    f (mkslice (EncodeVarInt pre raw ++ post) e) (zlen pre)
      = Ok (x, zlen (EncodeVarInt pre raw)) in
  (forall x, is_s32 x -> at_ DecodeS32 (EncodeZigZag x) x) /\
  (forall x, is_s32 x -> at_ DecodeI32 (u64 x) x) /\
  (forall x, is_u32 x -> at_ DecodeU32 (u64 x) x) /\
  (forall x, is_s64 x -> at_ DecodeS64 (EncodeZigZag x) x) /\
  (forall x, is_s64 x -> at_ DecodeI64 (u64 x) x) /\
  (forall x, is_u64 x -> at_ DecodeU64 x x).
Proof.
  intros pre post e H1 H2 at_.
  assert (Hat : forall f raw x, reads f (venc raw) x -> is_u64 raw -> at_ f raw x).
  { intros f raw x R Hu Hl. rewrite EncodeVarInt_app in *. rewrite zlen_app.
    apply (R (mkslice _ e) pre post); cbn [vis].
    - rewrite <- app_assoc. reflexivity.
    - rewrite !bytes_app. auto using venc_bytes.
    - exact Hl. }
  repeat split; intros x Hx.
  - apply Hat; [apply reads_S32; assumption|apply EncodeZigZag_range, is_s32_s64; assumption].
  - apply Hat; [apply reads_I32; assumption|apply u64_range].
  - apply Hat; [apply reads_U32; assumption|apply u64_range].
  - apply Hat; [apply reads_S64; assumption|apply EncodeZigZag_range; assumption].
  - apply Hat; [apply reads_I64; assumption|apply u64_range].
  - apply Hat; [apply reads_U64; assumption|assumption].
Qed.

(** C05, narrowing: on any input the 32-bit decoders return the value the 64-bit
    decoder returns, reduced to its low 32 bits. *)
Lemma pC05_narrowing : forall b s v n, DecodeU64 b s = Ok (v, n) ->
  DecodeU32 b s = Ok (v mod 2^32, n) /\
  (exists w, DecodeI32 b s = Ok (w, n) /\ is_s32 w /\ w mod 2^32 = v mod 2^32) /\
  (exists w, DecodeS32 b s = Ok (w, n) /\ is_s32 w /\
             w mod 2^32 = DecodeZigZag v mod 2^32).
Proof.
  intros b s v n H. unfold DecodeU64 in H. unfold DecodeU32, DecodeI32, DecodeS32.
  rewrite H. cbn [bind]. split; [reflexivity|]. split; eexists; split; try reflexivity;
  split; try apply s32_range; fold (u32 (s32 v)) (u32 v) (u32 (s32 (DecodeZigZag v)));
  apply u32_s32.
Qed.

Lemma pC05_ex :
  EncodeVarInt [] (u64 (-1)) = repeat 255 9 ++ [1] /\
  DecodeI32 (exact (EncodeVarInt [] (u64 (-1)))) 0 = Ok (-1, 10) /\
  DecodeU32 (exact (EncodeVarInt [] (2^32 + 5))) 0 = Ok (5, 5).
Proof. vm_compute. repeat split; reflexivity. Qed.

(** C06. Packed lists: writing then reading gives the list back, the cursor ends
    right after the field, for any bytes around it. [fits] only says the whole
    buffer is a Go slice (length below 2^63). *)
Lemma pC06_packed_roundtrip : forall pre post e,
  bytes pre -> bytes post ->
  let rt := fun (dec : slice -> Z -> res (list Z * Z)) (w l : list Z) =>
    zlen (w ++ post) < 2^63 -> dec (mkslice (w ++ post) e) (zlen pre) = Ok (l, zlen w) in
  (forall l, Forall is_s64 l -> rt DecodeS64PackedDelta (EncodeS64PackedDelta pre l) l) /\
  (forall l, Forall is_s32 l -> rt DecodeI32Packed (EncodeI32Packed pre l) l) /\
  (forall l, Forall is_s32 l -> rt DecodeS32Packed (EncodeS32Packed pre l) l) /\
  (forall l, Forall is_u32 l ->
     rt DecodeU32Packed (EncodeBuffer pre (EncodeU32PackedFunc l [])) l) /\
  (forall l, Forall is_s32 l ->
     rt DecodeI32Packed (EncodeBuffer pre (EncodeI32PackedFunc l [])) l) /\
  (forall l, Forall is_u64 l ->
     rt DecodeU64Packed (EncodeBuffer pre (EncodeU64Packed l [])) l) /\
  (forall l, Forall is_s64 l ->
     rt DecodeS64PackedDelta (EncodeBuffer pre (EncodeS64PackedDeltaFunc l [])) l).
Proof.
  intros pre post e H1 H2 rt.
  assert (Hrt : forall dec p l, bytes p -> (zlen p < 2^63 -> reads dec (lp p) l) ->
                                rt dec (EncodeBuffer pre p) l).
  { intros dec p l Hp R Hl.
    assert (Hlp : zlen p < 2^63).
    { unfold EncodeBuffer in Hl. rewrite EncodeVarInt_app, !zlen_app in Hl.
      pose proof (zlen_nonneg pre). pose proof (zlen_nonneg post).
      pose proof (zlen_nonneg (venc (u64 (zlen p)))). lia. }
    specialize (R Hlp). rewrite EncodeBuffer_eq in * by assumption.
    rewrite !zlen_app. unfold lp in R. rewrite <- zlen_app.
    apply (R (mkslice _ e) pre post); cbn [vis].
    - rewrite <- !app_assoc. reflexivity.
    - rewrite !bytes_app. repeat split; try assumption. apply venc_bytes.
      unfold is_u64. pose proof (zlen_nonneg p). lia.
    - exact Hl. }
  repeat split; intros l Hl.
  - unfold EncodeS64PackedDelta. rewrite enc_deltas_eq. apply Hrt.
    + apply vencs_bytes, zz_deltas_u64.
    + apply reads_S64PackedDelta; assumption.
  - unfold EncodeI32Packed. rewrite enc_values_eq. apply Hrt.
    + apply vencs_bytes, map_u64_u64.
    + apply reads_I32Packed; assumption.
  - unfold EncodeS32Packed. rewrite enc_values_eq. apply Hrt.
    + apply vencs_bytes, zz_u64. eapply Forall_impl; [apply is_s32_s64|exact Hl].
    + apply reads_S32Packed; assumption.
  - unfold EncodeU32PackedFunc. rewrite enc_values_eq. apply Hrt.
    + apply vencs_bytes, map_u64_u64.
    + apply reads_U32Packed; assumption.
  - unfold EncodeI32PackedFunc. rewrite enc_values_eq. apply Hrt.
    + apply vencs_bytes, map_u64_u64.
    + apply reads_I32Packed; assumption.
  - unfold EncodeU64Packed. rewrite enc_values_eq, map_id. apply Hrt.
    + apply vencs_bytes; assumption.
    + apply reads_U64Packed; assumption.
  - unfold EncodeS64PackedDeltaFunc. rewrite enc_deltas_eq. apply Hrt.
    + apply vencs_bytes, zz_deltas_u64.
    + apply reads_S64PackedDelta; assumption.
Qed.

(** C06. On arbitrary bytes the packed decoders never store outside the output they
    preallocated: removing the bounds check on the store changes nothing (so an
    out-of-range panic can only come from a truncated varint), and they terminate. *)
Lemma pC06_packed_in_bounds : forall f buf next,
  go_slice buf ->
  decode_packed true f buf next = decode_packed false f buf next /\
  decode_packed true f buf next <> Diverge.
Proof.
  intros f buf next (Hb & He & Hc).
  assert (Hl : slen buf < 2^63) by (unfold scap in Hc; lia).
  unfold decode_packed, DecodeBytes, ReadBytes.
  pose proof (DecodeVarInt_nodiv buf next) as Hnd.
  destruct (DecodeVarInt buf next) as [[l n]|p|] eqn:E; cbn [bind];
    [|split; [reflexivity|discriminate]|congruence].
  destruct (sslice buf n (s64 (n + s64 l))) as [out|p|] eqn:Es; cbn [bind];
    [|split; [reflexivity|discriminate]|unfold sslice in Es; destruct (_ && _); discriminate].
  assert (Ho : bytes (vis out) /\ slen out < 2^63).
  { pose proof (sslice_ok _ _ _ _ Es) as (H1 & H2 & H3). split; [|rewrite slen_zlen; lia].
    unfold sslice in Es. destruct (_ && _); [|discriminate]. injection Es as <-.
    cbn [vis]. assert (Hall : bytes (vis buf ++ ext buf)) by (apply bytes_app; auto).
    apply bytes_skipn with (n := Z.to_nat n) in Hall.
    rewrite <- (firstn_skipn (Z.to_nat (s64 (n + s64 l) - n))) in Hall.
    apply bytes_app in Hall. apply Hall. }
  destruct Ho as [Ho1 Ho2]. rewrite packed_unchecked by assumption. split; [reflexivity|].
  pose proof (packed_loop_nodiv false f out Ho1 Ho2).
  destruct (packed_loop false f out); cbn [bind]; congruence || discriminate.
Qed.

Lemma pC06_ex :
  Forall is_s64 [2^63 - 1; -2^63; 0] /\
  DecodeS64PackedDelta (exact (EncodeS64PackedDelta [9] [2^63 - 1; -2^63; 0] ++ [1])) 1
  = Ok ([2^63 - 1; -2^63; 0], zlen (EncodeS64PackedDelta [9] [2^63 - 1; -2^63; 0])).
Proof. split; [repeat constructor; unfold is_s64; lia|vm_compute; reflexivity]. Qed.

(** C07. *)
Lemma pC07_delta_zero : forall values rest e,
  Forall is_s64 values -> bytes rest ->
  zlen (EncodeS64PackedDeltaZero [] values ++ rest) < 2^63 ->
  DecodeS64PackedDeltaZero (mkslice (EncodeS64PackedDeltaZero [] values ++ rest) e)
  = Ok (until_repeat 0 values).
Proof. exact DecodeS64PackedDeltaZero_enc. Qed.

(** C07. Lists without sequential duplicates and not starting with 0 round-trip. *)
Lemma pC07_delta_zero_roundtrip : forall values rest e,
  Forall is_s64 values -> bytes rest ->
  zlen (EncodeS64PackedDeltaZero [] values ++ rest) < 2^63 ->
  (forall l1 x y l2, 0 :: values = l1 ++ x :: y :: l2 -> x <> y) ->
  DecodeS64PackedDeltaZero (mkslice (EncodeS64PackedDeltaZero [] values ++ rest) e)
  = Ok values.
Proof.
  intros values rest e H1 H2 H3 H4.
  rewrite DecodeS64PackedDeltaZero_enc, until_repeat_all by assumption. reflexivity.
Qed.

(** C07. The decoder returns or panics on every byte sequence. *)
Lemma pC07_terminates : forall buf, go_slice buf -> DecodeS64PackedDeltaZero buf <> Diverge.
Proof.
  intros buf (H1 & H2 & H3). apply DecodeS64PackedDeltaZero_nodiv; [assumption|].
  unfold scap in H3. lia.
Qed.

Lemma pC07_ex :
  DecodeS64PackedDeltaZero (mkslice (EncodeS64PackedDeltaZero [] [5; 7; 7; 8] ++ [1; 2]) [3])
  = Ok [5; 7] /\
  DecodeS64PackedDeltaZero (exact (EncodeS64PackedDeltaZero [] [-5; 7; -2^63])) = Ok [-5; 7; -2^63].
Proof. vm_compute. split; reflexivity. Qed.

(** C08. *)
Lemma pC08_bytes_roundtrip : forall pre p post e,
  bytes pre -> bytes p -> bytes post -> zlen (EncodeBuffer pre p ++ post) < 2^63 ->
  (exists x, ReadBytes (mkslice (EncodeBuffer pre p ++ post) e) (zlen pre)
             = Ok (mkslice p x, zlen (EncodeBuffer pre p))) /\
  DecodeString (mkslice (EncodeString pre p ++ post) e) (zlen pre)
    = Ok (p, zlen (EncodeString pre p)).
Proof.
  intros pre p post e H1 H2 H3 Hl.
  assert (Hlp : zlen p < 2^63).
  { unfold EncodeBuffer in Hl. rewrite EncodeVarInt_app, !zlen_app in Hl.
    pose proof (zlen_nonneg pre). pose proof (zlen_nonneg post).
    pose proof (zlen_nonneg (venc (u64 (zlen p)))). lia. }
  unfold EncodeString. rewrite EncodeBuffer_eq in * by assumption.
  assert (Hu : is_u64 (zlen p)) by (unfold is_u64; pose proof (zlen_nonneg p); lia).
  assert (Hb : bytes ((pre ++ venc (zlen p) ++ p) ++ post))
    by (rewrite !bytes_app; auto using venc_bytes).
  split.
  - eexists. rewrite (ReadBytes_at _ pre (venc (zlen p)) p post);
      [rewrite (zlen_app pre); reflexivity|cbn [vis]; rewrite <- !app_assoc; reflexivity
      |exact Hb|exact Hl|apply venc_varint; assumption
      |apply venc_length; assumption|apply venc_value; assumption].
  - rewrite (zlen_app pre). apply (reads_string p Hlp (mkslice _ e) pre post).
    + cbn [vis]. rewrite <- !app_assoc. reflexivity.
    + exact Hb.
    + exact Hl.
Qed.

Lemma pC08_ex :
  DecodeString (mkslice (EncodeString [1;2] [104; 105] ++ [7]) []) 2 = Ok ([104; 105], 5).
Proof. vm_compute. reflexivity. Qed.

(** C09. [e] appends [p] to the buffer it is given.  The four embedding functions
    (n reserved bytes, limit 128^n) write key, an n-byte varint whose value is
    [zlen p], then [p]; they panic exactly when [p] does not fit. *)
Lemma pC09_embed : forall id (e : Embedder) buf p,
  (forall b, e b = Ok (b ++ p)) ->
  let key := EncodeVarInt [] (MakeIdType id PbFixedBytes) in
  let spec := fun (emb : Z -> Embedder -> list Z -> res (list Z)) n limit msg =>
    (zlen p < limit -> exists L, emb id e buf = Ok (buf ++ key ++ L ++ p) /\
       is_varint L /\ List.length L = n /\ leb_value L = zlen p) /\
    (limit <= zlen p -> emb id e buf = Panic (PanicMsg msg)) in
  spec Embed128 1%nat 128 "128 overflow"%string /\
  spec Embed16384 2%nat 16384 "16384 overflow"%string /\
  spec Embed2097152 3%nat 2097152 "2097152 overflow"%string /\
  spec Embed268435456 4%nat 268435456 "268435456 overflow"%string.
Proof.
  intros id e buf p He key spec.
  assert (Hgen : forall n patch limit msg, patches (S n) patch limit msg ->
            limit = 128 ^ Z.of_nat (S n) -> spec (embed (S n) patch) (S n) limit msg).
  { intros n patch limit msg Hp Hlim. unfold spec.
    rewrite (embed_ok (S n) patch limit msg id e buf p Hp (He _)).
    pose proof (zlen_nonneg p). split; intros H0.
    - destruct (Z.leb_spec limit (zlen p)); [lia|].
      exists (leb_fixed (S n) (zlen p)).
      destruct (leb_fixed_spec n (zlen p)) as [Ha Hb]; [lia|].
      split; [reflexivity|]. split; [exact Ha|]. split; [apply leb_fixed_length|exact Hb].
    - destruct (Z.leb_spec limit (zlen p)); [reflexivity|lia]. }
  split; [|split; [|split]]; apply Hgen; try reflexivity.
  - apply patches_128.
  - apply patches_16384.
  - apply patches_2097152.
  - apply patches_268435456.
Qed.

(** C09. An embedded field is read back as exactly its payload. *)
Lemma pC09_embed_read : forall pre key L p post e,
  bytes pre -> bytes p -> bytes post -> is_u64 key ->
  is_varint L -> (List.length L <= 10)%nat -> leb_value L = zlen p ->
  let w := pre ++ EncodeVarInt [] key ++ L ++ p in
  zlen (w ++ post) < 2^63 ->
  exists n x, DecodeVarInt (mkslice (w ++ post) e) (zlen pre) = Ok (key, n) /\
    ReadBytes (mkslice (w ++ post) e) n = Ok (mkslice p x, zlen w).
Proof.
  intros pre key L p post e H1 H2 H3 Hk HL H10 Hval w Hl.
  assert (HbL : bytes L) by (apply is_varint_bytes; assumption).
  assert (Hb : bytes (w ++ post)).
  { unfold w. rewrite !bytes_app. auto using (venc_bytes key Hk). }
  exists (zlen pre + zlen (venc key)), (post ++ e). split.
  - apply (reads_varint key Hk (mkslice (w ++ post) e) pre (L ++ p ++ post)).
    + unfold w. cbn [vis]. rewrite <- !app_assoc. reflexivity.
    + exact Hb.
    + exact Hl.
  - rewrite <- zlen_app.
    rewrite (ReadBytes_at (mkslice (w ++ post) e) (pre ++ venc key) L p post); try assumption.
    + cbn [ext]. f_equal. f_equal. unfold w. rewrite !zlen_app. unfold venc. lia.
    + unfold w. cbn [vis]. rewrite <- !app_assoc. reflexivity.
Qed.

Lemma pC09_ex :
  Embed16384 3 (fun b => Ok (b ++ [65; 66; 67])) [1] = Ok [1; 26; 131; 0; 65; 66; 67] /\
  Embed128 1 (fun b => Ok (b ++ repeat 0 128)) [] = Panic (PanicMsg "128 overflow").
Proof. vm_compute. split; reflexivity. Qed.
