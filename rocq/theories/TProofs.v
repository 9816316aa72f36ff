(** * TProofs: generic lemmas about message readers and writers. *)
From Verif Require Import Base BaseLemmas PbModel PbSpec PbProofs PbProofs2 TModel.

(** ** Writers *)

(** [e] succeeds exactly under [F], and then appends [p]. *)
Definition appender (e : Embedder) (F : Prop) (p : list Z) : Prop :=
  forall b out, e b = Ok out <-> F /\ out = b ++ p.

Lemma appender_pure p : appender (fun b => Ok (b ++ p)) True p.
Proof. intros b out. split; [intros H; injection H as <-; auto|intros [_ ->]; reflexivity]. Qed.

Lemma appender_ext e e' F p : (forall b, e b = e' b) -> appender e F p -> appender e' F p.
Proof. intros H A b out. rewrite <- H. apply A. Qed.

Lemma appender_iff e F F' p : (F <-> F') -> appender e F p -> appender e F' p.
Proof. intros H A b out. rewrite (A b out). tauto. Qed.

Lemma appender_seq e1 e2 F1 F2 p1 p2 :
  appender e1 F1 p1 -> appender e2 F2 p2 ->
  appender (fun b => x <- e1 b ;; e2 x) (F1 /\ F2) (p1 ++ p2).
Proof.
  intros A1 A2 b out. rewrite bind_ok. split.
  - intros (a & H1 & H2). apply A1 in H1 as [HF1 ->]. apply A2 in H2 as [HF2 ->].
    rewrite app_assoc. auto.
  - intros [[H1 H2] ->]. exists (b ++ p1). split; [apply A1; auto|].
    apply A2. rewrite app_assoc. auto.
Qed.

Definition fixed_field (n : nat) (id : Z) (p : list Z) : list Z :=
  venc (MakeIdType id PbFixedBytes) ++ leb_fixed n (zlen p) ++ p.

Lemma appender_embed n patch limit msg id e F p :
  patches n patch limit msg -> appender e F p ->
  appender (embed n patch id e) (F /\ zlen p < limit) (fixed_field n id p).
Proof.
  intros Hp A b out. split.
  - intros H.
    destruct (e (reserved n id b)) as [o|q|] eqn:E.
    + pose proof (proj1 (A _ _) E) as [HF ->].
      rewrite (embed_ok n patch limit msg id e b p Hp E) in H.
      destruct (Z.leb_spec limit (zlen p)); [discriminate|]. injection H as <-. auto.
    + rewrite (embed_panic _ _ _ _ _ _ E) in H. discriminate.
    + unfold embed, Reserve in H. rewrite EncodeVarInt_app, <- app_assoc in H.
      fold (reserved n id b) in H. rewrite E in H. discriminate.
  - intros [[HF Hl] ->].
    rewrite (embed_ok n patch limit msg id e b p Hp); [|apply A; auto].
    destruct (Z.leb_spec limit (zlen p)); [lia|]. reflexivity.
Qed.

Definition id_buffer (id : Z) (p : list Z) : list Z :=
  venc (MakeIdType id PbFixedBytes) ++ venc (u64 (zlen p)) ++ p.

Lemma EncodeIdBuffer_eq buf id p : EncodeIdBuffer buf id p = buf ++ id_buffer id p.
Proof.
  unfold EncodeIdBuffer, EncodeBuffer, id_buffer. rewrite !EncodeVarInt_app, <- !app_assoc.
  reflexivity.
Qed.
Lemma EncodeIdVarInt_eq buf id v :
  EncodeIdVarInt buf id v = buf ++ venc (MakeIdType id PbVarInt) ++ venc v.
Proof. unfold EncodeIdVarInt. rewrite !EncodeVarInt_app, <- app_assoc. reflexivity. Qed.

Lemma appender_fold {A} (f : list Z -> A -> res (list Z)) (F : A -> Prop) (enc : A -> list Z) l :
  (forall a, In a l -> appender (fun b => f b a) (F a) (enc a)) ->
  appender (fun b => foldm f l b) (Forall F l) (concat (map enc l)).
Proof.
  induction l as [|a l IH]; intros H b out.
  - simpl. rewrite app_nil_r. split; [intros E; injection E as <-; auto|intros [_ ->]; reflexivity].
  - assert (Ha := appender_seq _ _ _ _ _ _ (H a (or_introl eq_refl))
                    (IH (fun x Hx => H x (or_intror Hx))) b out).
    cbn [foldm map concat]. rewrite Ha. split; intros [H1 H2]; split; try assumption.
    + constructor; apply H1.
    + inversion H1; auto.
Qed.

(** ** Length prefixes *)
Definition len_prefix (L p : list Z) : Prop :=
  is_varint L /\ (List.length L <= 10)%nat /\ leb_value L = zlen p.

Lemma len_prefix_venc p : zlen p < 2^63 -> len_prefix (venc (u64 (zlen p))) p.
Proof.
  intros H. pose proof (zlen_nonneg p).
  assert (is_u64 (zlen p)) by (unfold is_u64; lia).
  rewrite u64_id by assumption.
  split; [apply venc_varint; assumption|]. split; [apply venc_length; assumption|].
  apply venc_value; assumption.
Qed.
Lemma len_prefix_fixed n p :
  (n <= 9)%nat -> zlen p < 128 ^ Z.of_nat (S n) -> len_prefix (leb_fixed (S n) (zlen p)) p.
Proof.
  intros Hn H. pose proof (zlen_nonneg p).
  destruct (leb_fixed_spec n (zlen p)) as [H1 H2]; [lia|].
  split; [exact H1|]. split; [rewrite leb_fixed_length; lia|exact H2].
Qed.
Lemma len_prefix_bytes L p : len_prefix L p -> bytes L.
Proof. intros (H & _). apply is_varint_bytes; assumption. Qed.

Lemma DecodeBytes_at b pre L p post :
  vis b = pre ++ (L ++ p) ++ post -> bytes (vis b) -> slen b < 2^63 -> len_prefix L p ->
  DecodeBytes b (zlen pre) = Ok (mkslice p (post ++ ext b), zlen pre + zlen (L ++ p)).
Proof.
  intros Hv Hb Hl (H1 & H2 & H3). unfold DecodeBytes. apply ReadBytes_at; try assumption.
  rewrite Hv, <- app_assoc. reflexivity.
Qed.

Lemma reads_packed_L checked f raws L :
  Forall is_u64 raws -> len_prefix L (vencs raws) ->
  reads (decode_packed checked f) (L ++ vencs raws) (outputs f 0 raws).
Proof.
  intros Hu HL b pre post Hv Hb Hlb. unfold decode_packed.
  rewrite (DecodeBytes_at b pre L (vencs raws) post) by assumption. cbn [bind].
  rewrite packed_loop_ok with (raws := raws); try assumption; [reflexivity|reflexivity|].
  assert (slen b = zlen pre + (zlen L + zlen (vencs raws) + zlen post))
    by (rewrite slen_zlen, Hv, !zlen_app; lia).
  pose proof (zlen_nonneg pre). pose proof (zlen_nonneg L). pose proof (zlen_nonneg post).
  rewrite slen_zlen. cbn [vis]. lia.
Qed.

Lemma reads_S64PackedDelta_L values L :
  Forall is_s64 values -> len_prefix L (p_delta values) ->
  reads DecodeS64PackedDelta (L ++ p_delta values) values.
Proof.
  intros H HL. pose proof (reads_packed_L true
    (fun last raw => let last := s64 (last + DecodeZigZag raw) in (last, last))
    (map EncodeZigZag (deltas s64 0 values)) L (zz_deltas_u64 _ _) HL) as R.
  rewrite outputs_deltas in R by assumption. exact R.
Qed.
Lemma reads_I32Packed_L values L :
  Forall is_s32 values -> len_prefix L (p_u64ext values) ->
  reads DecodeI32Packed (L ++ p_u64ext values) values.
Proof.
  intros H HL. pose proof (reads_packed_L true (fun acc raw => (acc, s32 raw))
    (map u64 values) L (map_u64_u64 _) HL) as R.
  rewrite outputs_map in R; [exact R|].
  intros acc v Hin. rewrite s32_u64, s32_id; [reflexivity|].
  eapply Forall_forall in H; eauto.
Qed.
Lemma reads_U32Packed_L values L :
  Forall is_u32 values -> len_prefix L (p_u64ext values) ->
  reads DecodeU32Packed (L ++ p_u64ext values) values.
Proof.
  intros H HL. pose proof (reads_packed_L true (fun acc raw => (acc, u32 raw))
    (map u64 values) L (map_u64_u64 _) HL) as R.
  rewrite outputs_map in R; [exact R|].
  intros acc v Hin. rewrite u32_u64, u32_id; [reflexivity|].
  eapply Forall_forall in H; eauto.
Qed.
Lemma reads_U64Packed_L values L :
  Forall is_u64 values -> len_prefix L (vencs values) ->
  reads DecodeU64Packed (L ++ vencs values) values.
Proof.
  intros H HL.
  pose proof (reads_packed_L false (fun acc raw => (acc, raw)) values L H HL) as R.
  replace (outputs (fun acc raw => (acc, raw)) 0 values) with values in R; [exact R|].
  rewrite <- (map_id values) at 2. symmetry. apply outputs_map. reflexivity.
Qed.
Lemma reads_string_L s L : len_prefix L s -> reads DecodeString (L ++ s) s.
Proof.
  intros HL b pre post Hv Hb Hl. unfold DecodeString.
  rewrite (DecodeBytes_at b pre L s post) by assumption. reflexivity.
Qed.

(** ** Readers *)

(** The loop consumes [bs] and applies [U] (which may depend on the bytes that
    follow in memory). *)
Definition consumes {St} (h : handler St) (bs : list Z) (U : list Z -> St -> St) : Prop :=
  forall b pre post st fuel,
    vis b = pre ++ bs ++ post -> bytes (vis b) -> slen b < 2^63 ->
    (List.length (bs ++ post) < fuel)%nat ->
    exists fuel', (List.length post < fuel')%nat /\
      loop fuel (msg_cond b) (msg_body h b) (zlen pre, st) =
      loop fuel' (msg_cond b) (msg_body h b) (zlen (pre ++ bs), U (post ++ ext b) st).

Lemma consumes_nil {St} (h : handler St) : consumes h [] (fun _ st => st).
Proof.
  intros b pre post st fuel Hv Hb Hl Hf. exists fuel. split; [exact Hf|].
  rewrite app_nil_r. reflexivity.
Qed.

Lemma consumes_app {St} (h : handler St) b1 b2 U1 U2 :
  consumes h b1 U1 -> consumes h b2 U2 ->
  consumes h (b1 ++ b2) (fun r st => U2 r (U1 (b2 ++ r) st)).
Proof.
  intros C1 C2 b pre post st fuel Hv Hb Hl Hf.
  destruct (C1 b pre (b2 ++ post) st fuel) as (f1 & Hf1 & E1);
    [rewrite Hv, <- app_assoc; reflexivity|assumption|assumption|rewrite app_assoc; exact Hf|].
  destruct (C2 b (pre ++ b1) post (U1 ((b2 ++ post) ++ ext b) st) f1) as (f2 & Hf2 & E2);
    [rewrite Hv, <- !app_assoc; reflexivity|assumption|assumption|exact Hf1|].
  exists f2. split; [exact Hf2|]. rewrite E1, E2. rewrite <- !app_assoc. reflexivity.
Qed.

Lemma consumes_field {St} (h : handler St) key body U :
  is_u64 key ->
  (forall b pre post, vis b = pre ++ body ++ post -> bytes (vis b) -> slen b < 2^63 ->
     h key b (zlen pre) = Ok (zlen pre + zlen body, U (post ++ ext b))) ->
  consumes h (venc key ++ body) U.
Proof.
  intros Hk H b pre post st fuel Hv Hb Hl Hf.
  pose proof (venc_zlen key Hk) as Hz.
  assert (Hlen : slen b = zlen pre + (zlen (venc key) + zlen body + zlen post))
    by (rewrite slen_zlen, Hv, !zlen_app; lia).
  pose proof (zlen_nonneg body); pose proof (zlen_nonneg post).
  destruct fuel as [|fuel]; [lia|]. exists fuel. split.
  { rewrite !app_length in Hf. unfold zlen in Hz. lia. }
  cbn [loop]. unfold msg_cond at 1. cbn [fst].
  destruct (Z.ltb_spec (zlen pre) (slen b)); [|lia].
  unfold msg_body at 1.
  rewrite (reads_varint key Hk b pre (body ++ post)); [|rewrite Hv, <- app_assoc; reflexivity|assumption..].
  cbn [bind]. rewrite <- zlen_app.
  rewrite (H b (pre ++ venc key) post); [|rewrite Hv, <- !app_assoc; reflexivity|assumption..].
  cbn [bind]. rewrite <- zlen_app, <- app_assoc. reflexivity.
Qed.

(** the common case: the field's decoder is a [reads] *)
Lemma consumes_reads {St A} (h : handler St) key (f : slice -> Z -> res (A * Z)) g body a :
  is_u64 key ->
  (forall b n, h key b n = ('(v, n) <- f b n ;; Ok (n, g v))) ->
  reads f body a -> consumes h (venc key ++ body) (fun _ => g a).
Proof.
  intros Hk Hh R. apply consumes_field; [exact Hk|]. intros b pre post Hv Hb Hl.
  rewrite Hh, (R b pre post) by assumption. reflexivity.
Qed.

Lemma read_msg_consumes {St} (h : handler St) bs e st U :
  consumes h bs U -> bytes bs -> zlen bs < 2^63 ->
  read_msg h (mkslice bs e) st = Ok (U e st).
Proof.
  intros C Hb Hl. unfold read_msg, read_fuel.
  destruct (C (mkslice bs e) [] [] st (S (List.length bs))) as (f & Hf & E);
    cbn [vis ext app]; rewrite ?app_nil_r; try assumption; try reflexivity; try lia.
  cbn [vis] in *. change (zlen []) with 0 in E. rewrite E.
  destruct f; [simpl in Hf; lia|]. cbn [loop]. unfold msg_cond at 1. cbn [fst].
  rewrite slen_zlen. cbn [vis app]. destruct (Z.ltb_spec (zlen bs) (zlen bs)); [lia|].
  reflexivity.
Qed.

Lemma consumes_ext {St} (h : handler St) bs U U' :
  (forall r st, U r st = U' r st) -> consumes h bs U -> consumes h bs U'.
Proof.
  intros H C b pre post st fuel Hv Hb Hl Hf.
  destruct (C b pre post st fuel Hv Hb Hl Hf) as (f & Hf' & E).
  exists f. split; [exact Hf'|]. rewrite E, H. reflexivity.
Qed.

(** a sequence of repeated fields *)
Lemma consumes_concat {St A} (h : handler St) (enc : A -> list Z) (g : A -> St -> St) l :
  (forall a, In a l -> consumes h (enc a) (fun _ => g a)) ->
  consumes h (concat (map enc l)) (fun _ st => fold_left (fun st a => g a st) l st).
Proof.
  induction l as [|a l IH]; intros H; [apply consumes_nil|].
  cbn [map concat fold_left].
  eapply consumes_ext; [|apply consumes_app;
    [apply (H a (or_introl eq_refl))|apply IH; intros x Hx; apply H; right; exact Hx]].
  reflexivity.
Qed.

(** ** Bytes *)
Lemma key_u64 id t : 0 <= t <= 2 -> is_u64 (MakeIdType id t).
Proof. intros. apply MakeIdType_range. unfold is_u64; lia. Qed.
Lemma fixed_field_bytes n id p :
  zlen p < 128 ^ Z.of_nat (S n) -> bytes p -> bytes (fixed_field (S n) id p).
Proof.
  intros H Hp. unfold fixed_field. rewrite !bytes_app.
  split; [apply venc_bytes, key_u64; unfold PbFixedBytes; lia|]. split; [|exact Hp].
  pose proof (zlen_nonneg p). apply is_varint_bytes. apply leb_fixed_spec. lia.
Qed.
Lemma id_buffer_bytes id p : bytes p -> bytes (id_buffer id p).
Proof.
  intros Hp. unfold id_buffer. rewrite !bytes_app.
  split; [apply venc_bytes, key_u64; unfold PbFixedBytes; lia|].
  split; [apply venc_bytes, u64_range|exact Hp].
Qed.
Lemma id_varint_bytes id v : is_u64 v -> bytes (venc (MakeIdType id PbVarInt) ++ venc v).
Proof.
  intros Hv. rewrite bytes_app.
  split; [apply venc_bytes, key_u64; unfold PbVarInt; lia|apply venc_bytes; assumption].
Qed.
Lemma p_delta_bytes l : bytes (p_delta l).
Proof. apply vencs_bytes, zz_deltas_u64. Qed.
Lemma p_u64ext_bytes l : bytes (p_u64ext l).
Proof. apply vencs_bytes, map_u64_u64. Qed.
Lemma concat_bytes {A} (enc : A -> list Z) l :
  (forall a, In a l -> bytes (enc a)) -> bytes (concat (map enc l)).
Proof.
  induction l as [|a l IH]; intros H; [constructor|]. simpl. apply bytes_app.
  split; [apply H; left; reflexivity|apply IH; intros; apply H; right; assumption].
Qed.
