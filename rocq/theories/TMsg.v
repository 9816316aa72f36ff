(** * TMsg: round trips of the individual messages of internal/t. *)
From Verif Require Import Base BaseLemmas PbModel PbSpec PbProofs PbProofs2 TModel TSpec TProofs.

Lemma app_u32 l : appender (fun b => Ok (EncodeU32PackedFunc l b)) True (p_u64ext l).
Proof.
  eapply appender_ext; [|apply appender_pure]. intros b. unfold EncodeU32PackedFunc.
  rewrite enc_values_eq. reflexivity.
Qed.
Lemma app_i32 l : appender (fun b => Ok (EncodeI32PackedFunc l b)) True (p_u64ext l).
Proof.
  eapply appender_ext; [|apply appender_pure]. intros b. unfold EncodeI32PackedFunc.
  rewrite enc_values_eq. reflexivity.
Qed.
Lemma app_delta l : appender (fun b => Ok (EncodeS64PackedDeltaFunc l b)) True (p_delta l).
Proof.
  eapply appender_ext; [|apply appender_pure]. intros b. unfold EncodeS64PackedDeltaFunc.
  rewrite enc_deltas_eq. reflexivity.
Qed.
Lemma app_u64 l : appender (fun b => Ok (EncodeU64Packed l b)) True (vencs l).
Proof.
  eapply appender_ext; [|apply appender_pure]. intros b. unfold EncodeU64Packed.
  rewrite enc_values_eq, map_id. reflexivity.
Qed.
Lemma app_id_varint id v :
  appender (fun b => Ok (EncodeIdVarInt b id v)) True (venc (MakeIdType id PbVarInt) ++ venc v).
Proof.
  eapply appender_ext; [|apply appender_pure]. intros b. cbn beta.
  rewrite EncodeIdVarInt_eq. reflexivity.
Qed.
Lemma app_id_buffer id p : appender (fun b => Ok (EncodeIdBuffer b id p)) True (id_buffer id p).
Proof.
  eapply appender_ext; [|apply appender_pure]. intros b. cbn beta.
  rewrite EncodeIdBuffer_eq. reflexivity.
Qed.
Lemma app_none : appender (fun b => Ok b) True [].
Proof.
  eapply appender_ext; [|apply appender_pure]. intros b. cbn beta. rewrite app_nil_r. reflexivity.
Qed.

Definition app_e128 id e F p := appender_embed 1 _ _ _ id e F p patches_128.
Definition app_e16384 id e F p := appender_embed 2 _ _ _ id e F p patches_16384.
Definition app_e2097152 id e F p := appender_embed 3 _ _ _ id e F p patches_2097152.
Definition app_e268435456 id e F p := appender_embed 4 _ _ _ id e F p patches_268435456.

(** fields of a handler with a fixed-width or minimal length *)
Lemma consumes_fixed {St A} (h : handler St) id (f : slice -> Z -> res (A * Z)) g n p a :
  (forall b k, h (MakeIdType id PbFixedBytes) b k = ('(v, k) <- f b k ;; Ok (k, g v))) ->
  (n <= 9)%nat -> zlen p < 128 ^ Z.of_nat (S n) ->
  (forall L, len_prefix L p -> reads f (L ++ p) a) ->
  consumes h (fixed_field (S n) id p) (fun _ => g a).
Proof.
  intros Hh Hn Hl R. unfold fixed_field.
  eapply consumes_reads; [apply key_u64; unfold PbFixedBytes; lia|exact Hh|].
  apply R, len_prefix_fixed; assumption.
Qed.

(** a nested message *)
Lemma consumes_nested {St A} (h : handler St) id (rd : slice -> res A) g L p a :
  (forall b k, h (MakeIdType id PbFixedBytes) b k =
     ('(i, k) <- DecodeBytes b k ;; v <- rd i ;; Ok (k, g v))) ->
  len_prefix L p -> (forall e, rd (mkslice p e) = Ok a) ->
  consumes h (venc (MakeIdType id PbFixedBytes) ++ L ++ p) (fun _ => g a).
Proof.
  intros Hh HL Hr. apply consumes_field; [apply key_u64; unfold PbFixedBytes; lia|].
  intros b pre post Hv Hb Hl. rewrite Hh, (DecodeBytes_at b pre L p post) by assumption.
  cbn [bind]. rewrite Hr. reflexivity.
Qed.

(** raw bytes *)
Lemma consumes_raw {St} (h : handler St) id (g : list Z -> St -> St) L p :
  (forall b k, h (MakeIdType id PbFixedBytes) b k =
     ('(i, k) <- DecodeBytes b k ;; Ok (k, g (vis i)))) ->
  len_prefix L p ->
  consumes h (venc (MakeIdType id PbFixedBytes) ++ L ++ p) (fun _ => g p).
Proof.
  intros Hh HL. apply consumes_field; [apply key_u64; unfold PbFixedBytes; lia|].
  intros b pre post Hv Hb Hl. rewrite Hh, (DecodeBytes_at b pre L p post) by assumption.
  reflexivity.
Qed.

(** ** Way *)
Definition way_fits (w : Way) : Prop :=
  (zlen (p_u64ext (way_Keys w)) < 16384) /\ (zlen (p_u64ext (way_Vals w)) < 16384) /\
  (zlen (p_delta (way_Refs w)) < 16384).
Definition way_enc (w : Way) : list Z :=
  (venc (MakeIdType wayId PbVarInt) ++ venc (u64 (way_ID w))) ++
  fixed_field 2 wayKeys (p_u64ext (way_Keys w)) ++
  fixed_field 2 wayVals (p_u64ext (way_Vals w)) ++
  fixed_field 2 wayRefs (p_delta (way_Refs w)).

Lemma Way_Write_app w : appender (Way_Write w) (way_fits w) (way_enc w).
Proof.
  unfold way_enc. eapply appender_iff.
  2:{ eapply appender_ext.
      2:{ apply appender_seq; [apply app_id_varint|].
          apply appender_seq; [apply app_e16384, app_u32|].
          apply appender_seq; [apply app_e16384, app_u32|].
          apply app_e16384, app_delta. }
      intros b. reflexivity. }
  unfold way_fits. tauto.
Qed.

Lemma way_bytes w : way_fits w -> bytes (way_enc w).
Proof.
  intros (H1 & H2 & H3). unfold way_enc. apply bytes_app. split;
    [apply id_varint_bytes, u64_range|]. rewrite !bytes_app.
  repeat split; apply fixed_field_bytes;
    first [assumption|apply p_u64ext_bytes|apply p_delta_bytes].
Qed.

Lemma ReadWay_enc w w0 e :
  way_typed w -> way_fits w -> zlen (way_enc w) < 2^63 ->
  ReadWay (mkslice (way_enc w) e) w0 = Ok w.
Proof.
  intros (T1 & T2 & T3 & T4) F Hl. pose proof (way_bytes w F) as Hb. destruct F as (F1 & F2 & F3).
  unfold ReadWay. erewrite read_msg_consumes with
    (U := fun _ st => mkWay (way_ID w) (way_Keys w) (way_Vals w) (way_Refs w));
    [destruct w; reflexivity| |exact Hb|exact Hl].
  unfold way_enc. eapply consumes_ext.
  2:{ apply consumes_app.
      { eapply consumes_reads; [apply key_u64; unfold PbVarInt; lia| |apply (reads_I64 (way_ID w) T1)].
        intros; reflexivity. }
      apply consumes_app.
      { eapply consumes_fixed with (n := 1%nat) (f := DecodeU32Packed) (a := way_Keys w);
          [intros; reflexivity|lia|exact F1|intros L HL; apply reads_U32Packed_L; assumption]. }
      apply consumes_app.
      { eapply consumes_fixed with (n := 1%nat) (f := DecodeU32Packed) (a := way_Vals w);
          [intros; reflexivity|lia|exact F2|intros L HL; apply reads_U32Packed_L; assumption]. }
      eapply consumes_fixed with (n := 1%nat) (f := DecodeS64PackedDelta) (a := way_Refs w);
          [intros; reflexivity|lia|exact F3|intros L HL; apply reads_S64PackedDelta_L; assumption]. }
  intros r st. reflexivity.
Qed.

(** ** Relation *)
Definition relation_fits (r : Relation) : Prop :=
  zlen (p_u64ext (rel_Keys r)) < 16384 /\ zlen (p_u64ext (rel_Vals r)) < 16384 /\
  zlen (p_u64ext (rel_RolesSID r)) < 2097152 /\ zlen (p_delta (rel_MemIDs r)) < 2097152 /\
  zlen (vencs (rel_MemberType r)) < 2097152.
Definition relation_enc (r : Relation) : list Z :=
  (venc (MakeIdType relationId PbVarInt) ++ venc (u64 (rel_ID r))) ++
  fixed_field 2 relationKeys (p_u64ext (rel_Keys r)) ++
  fixed_field 2 relationVals (p_u64ext (rel_Vals r)) ++
  fixed_field 3 relationRolesSID (p_u64ext (rel_RolesSID r)) ++
  fixed_field 3 relationMemIDs (p_delta (rel_MemIDs r)) ++
  fixed_field 3 relationMemberType (vencs (rel_MemberType r)).

Lemma Relation_Write_app r : appender (Relation_Write r) (relation_fits r) (relation_enc r).
Proof.
  unfold relation_enc. eapply appender_iff.
  2:{ eapply appender_ext.
      2:{ apply appender_seq; [apply app_id_varint|].
          apply appender_seq; [apply app_e16384, app_u32|].
          apply appender_seq; [apply app_e16384, app_u32|].
          apply appender_seq; [apply app_e2097152, app_i32|].
          apply appender_seq; [apply app_e2097152, app_delta|].
          apply app_e2097152, app_u64. }
      intros b. reflexivity. }
  unfold relation_fits. tauto.
Qed.

Lemma relation_bytes r : relation_typed r -> relation_fits r -> bytes (relation_enc r).
Proof.
  intros (T1 & T2 & T3 & T4 & T5 & T6) (H1 & H2 & H3 & H4 & H5).
  unfold relation_enc. apply bytes_app. split;
    [apply id_varint_bytes, u64_range|]. rewrite !bytes_app.
  repeat split; apply fixed_field_bytes;
    first [assumption|apply p_u64ext_bytes|apply p_delta_bytes|apply vencs_bytes; assumption].
Qed.

Lemma ReadRelation_enc r r0 e :
  relation_typed r -> relation_fits r -> zlen (relation_enc r) < 2^63 ->
  ReadRelation (mkslice (relation_enc r) e) r0 = Ok r.
Proof.
  intros T F Hl. pose proof (relation_bytes r T F) as Hb.
  destruct T as (T1 & T2 & T3 & T4 & T5 & T6). destruct F as (F1 & F2 & F3 & F4 & F5).
  unfold ReadRelation. erewrite read_msg_consumes with
    (U := fun _ st => mkRelation (rel_ID r) (rel_Keys r) (rel_Vals r) (rel_RolesSID r)
                                 (rel_MemIDs r) (rel_MemberType r));
    [destruct r; reflexivity| |exact Hb|exact Hl].
  unfold relation_enc. eapply consumes_ext.
  2:{ apply consumes_app.
      { eapply consumes_reads; [apply key_u64; unfold PbVarInt; lia| |apply (reads_I64 (rel_ID r) T1)].
        intros; reflexivity. }
      apply consumes_app.
      { eapply consumes_fixed with (n := 1%nat) (f := DecodeU32Packed) (a := rel_Keys r);
          [intros; reflexivity|lia|exact F1|intros L HL; apply reads_U32Packed_L; assumption]. }
      apply consumes_app.
      { eapply consumes_fixed with (n := 1%nat) (f := DecodeU32Packed) (a := rel_Vals r);
          [intros; reflexivity|lia|exact F2|intros L HL; apply reads_U32Packed_L; assumption]. }
      apply consumes_app.
      { eapply consumes_fixed with (n := 2%nat) (f := DecodeI32Packed) (a := rel_RolesSID r);
          [intros; reflexivity|lia|exact F3|intros L HL; apply reads_I32Packed_L; assumption]. }
      apply consumes_app.
      { eapply consumes_fixed with (n := 2%nat) (f := DecodeS64PackedDelta) (a := rel_MemIDs r);
          [intros; reflexivity|lia|exact F4|intros L HL; apply reads_S64PackedDelta_L; assumption]. }
      eapply consumes_fixed with (n := 2%nat) (f := DecodeU64Packed) (a := rel_MemberType r);
          [intros; reflexivity|lia|exact F5|intros L HL; apply reads_U64Packed_L; assumption]. }
  intros rr st. reflexivity.
Qed.

(** ** Dense nodes *)
Definition dense_fits (d : DenseNodes) : Prop :=
  zlen (p_delta (dn_Id d)) < 2097152 /\ zlen (p_delta (dn_Lat d)) < 2097152 /\
  zlen (p_delta (dn_Lon d)) < 2097152 /\
  (dn_KeyVals d = [] \/ zlen (p_u64ext (dn_KeyVals d)) < 268435456).
Definition kv_enc (kv : list Z) : list Z :=
  if 0 <? zlen kv then fixed_field 4 denseNodesKeyVals (p_u64ext kv) else [].
Definition dense_enc (d : DenseNodes) : list Z :=
  fixed_field 3 denseNodesId (p_delta (dn_Id d)) ++
  fixed_field 3 denseNodesLat (p_delta (dn_Lat d)) ++
  fixed_field 3 denseNodesLon (p_delta (dn_Lon d)) ++
  kv_enc (dn_KeyVals d).

Lemma kv_app kv :
  appender (fun buf => if 0 <? zlen kv then
      Embed268435456 denseNodesKeyVals (fun b => Ok (EncodeI32PackedFunc kv b)) buf
    else Ok buf) (kv = [] \/ zlen (p_u64ext kv) < 268435456) (kv_enc kv).
Proof.
  unfold kv_enc. destruct kv as [|k kv].
  - change (0 <? zlen []) with false. cbv iota.
    eapply appender_iff; [|apply app_none]. tauto.
  - assert (H : (0 <? zlen (k :: kv)) = true)
      by (rewrite zlen_cons; pose proof (zlen_nonneg kv); lia).
    rewrite H. eapply appender_iff; [|apply app_e268435456, app_i32].
    split; [tauto|]. intros [?|?]; [discriminate|auto].
Qed.

Lemma DenseNodes_Write_app d : appender (DenseNodes_Write d) (dense_fits d) (dense_enc d).
Proof.
  unfold dense_enc. eapply appender_iff.
  2:{ eapply appender_ext.
      2:{ apply appender_seq; [apply app_e2097152, app_delta|].
          apply appender_seq; [apply app_e2097152, app_delta|].
          apply appender_seq; [apply app_e2097152, app_delta|].
          apply kv_app. }
      intros b. reflexivity. }
  unfold dense_fits. tauto.
Qed.

Lemma dense_bytes d : dense_fits d -> bytes (dense_enc d).
Proof.
  intros (H1 & H2 & H3 & H4). unfold dense_enc. rewrite !bytes_app.
  repeat split; try (apply fixed_field_bytes; [assumption|apply p_delta_bytes]).
  unfold kv_enc. destruct (Z.ltb_spec 0 (zlen (dn_KeyVals d))) as [H|H]; [|constructor].
  apply fixed_field_bytes; [|apply p_u64ext_bytes].
  destruct H4 as [H4|H4]; [rewrite H4 in H; unfold zlen in H; simpl in H; lia|exact H4].
Qed.

Lemma ReadDenseNodes_enc d d0 e :
  dn_KeyVals d0 = [] ->
  dense_typed d -> dense_fits d -> zlen (dense_enc d) < 2^63 ->
  ReadDenseNodes (mkslice (dense_enc d) e) d0 =
  Ok (mkDense (dn_Id d) (dn_Lat d) (dn_Lon d) (dn_KeyVals d) (dn_cacheKeys d0) (dn_cacheVals d0)).
Proof.
  intros H0 (T1 & T2 & T3 & T4) F Hl. pose proof (dense_bytes d F) as Hb.
  destruct F as (F1 & F2 & F3 & F4).
  unfold ReadDenseNodes.
  set (kvU := fun (d1 : DenseNodes) => if 0 <? zlen (dn_KeyVals d) then
       mkDense (dn_Id d1) (dn_Lat d1) (dn_Lon d1) (dn_KeyVals d) (dn_cacheKeys d1) (dn_cacheVals d1)
       else d1).
  erewrite read_msg_consumes with
    (U := fun _ st => kvU (mkDense (dn_Id d) (dn_Lat d) (dn_Lon d) (dn_KeyVals st)
                            (dn_cacheKeys st) (dn_cacheVals st)));
    [| |exact Hb|exact Hl].
  - unfold kvU. cbn. rewrite H0. destruct (Z.ltb_spec 0 (zlen (dn_KeyVals d))) as [H|H]; [reflexivity|].
    assert (E : dn_KeyVals d = []) by (apply zlen_0; pose proof (zlen_nonneg (dn_KeyVals d)); lia).
    rewrite E. reflexivity.
  - unfold dense_enc. eapply consumes_ext.
    2:{ apply consumes_app.
      { eapply consumes_fixed with (n := 2%nat) (f := DecodeS64PackedDelta) (a := dn_Id d);
          [intros; reflexivity|lia|exact F1|intros L HL; apply reads_S64PackedDelta_L; assumption]. }
      apply consumes_app.
      { eapply consumes_fixed with (n := 2%nat) (f := DecodeS64PackedDelta) (a := dn_Lat d);
          [intros; reflexivity|lia|exact F2|intros L HL; apply reads_S64PackedDelta_L; assumption]. }
      apply consumes_app.
      { eapply consumes_fixed with (n := 2%nat) (f := DecodeS64PackedDelta) (a := dn_Lon d);
          [intros; reflexivity|lia|exact F3|intros L HL; apply reads_S64PackedDelta_L; assumption]. }
      instantiate (1 := fun _ => kvU). unfold kv_enc, kvU.
      destruct (Z.ltb_spec 0 (zlen (dn_KeyVals d))) as [H|H]; [|apply consumes_nil].
      apply (consumes_fixed dense_handler denseNodesKeyVals DecodeI32Packed
               (fun v d1 => mkDense (dn_Id d1) (dn_Lat d1) (dn_Lon d1) v
                                    (dn_cacheKeys d1) (dn_cacheVals d1))
               3%nat (p_u64ext (dn_KeyVals d)) (dn_KeyVals d));
          [intros; reflexivity|lia| |intros L HL; apply reads_I32Packed_L; assumption].
      destruct F4 as [F4|F4]; [rewrite F4 in H; unfold zlen in H; simpl in H; lia|exact F4]. }
    intros r st. reflexivity.
Qed.

(** ** String table *)
Lemma StringTable_Write_app st :
  appender (StringTable_Write st) True (concat (map (id_buffer stringTableS) st)).
Proof.
  unfold StringTable_Write. eapply appender_iff.
  2:{ apply (appender_fold _ (fun _ => True)). intros a _. apply app_id_buffer. }
  split; [auto|]. intros _. apply Forall_forall. auto.
Qed.

Lemma concat_le {A} (enc : A -> list Z) l a : In a l -> zlen (enc a) <= zlen (concat (map enc l)).
Proof.
  induction l as [|x l IH]; intros H; [contradiction|]. simpl. rewrite zlen_app.
  pose proof (zlen_nonneg (enc x)). pose proof (zlen_nonneg (concat (map enc l))).
  destruct H as [->|H]; [lia|]. specialize (IH H). lia.
Qed.

Lemma id_buffer_len id p : zlen p <= zlen (id_buffer id p).
Proof.
  unfold id_buffer. rewrite !zlen_app.
  pose proof (zlen_nonneg (venc (MakeIdType id PbFixedBytes))).
  pose proof (zlen_nonneg (venc (u64 (zlen p)))). lia.
Qed.

Lemma ReadStringTable_enc st st0 e :
  Forall bytes st -> zlen (concat (map (id_buffer stringTableS) st)) < 2^63 ->
  ReadStringTable (mkslice (concat (map (id_buffer stringTableS) st)) e) st0 = Ok (st0 ++ st).
Proof.
  intros Hb Hl. unfold ReadStringTable.
  erewrite read_msg_consumes; [| |apply concat_bytes; intros a Ha; apply id_buffer_bytes;
    eapply Forall_forall in Hb; eauto|exact Hl].
  2:{ apply consumes_concat with (g := fun s st => st ++ [s]). intros s Hs.
      unfold id_buffer.
      apply (consumes_reads st_handler (MakeIdType stringTableS PbFixedBytes) DecodeString
               (fun s st => st ++ [s]) (venc (u64 (zlen s)) ++ s) s);
        [apply key_u64; unfold PbFixedBytes; lia|intros; reflexivity|].
      apply reads_string_L, len_prefix_venc.
      pose proof (concat_le (id_buffer stringTableS) st s Hs).
      pose proof (id_buffer_len stringTableS s). lia. }
  clear Hl Hb. f_equal. revert st0. induction st as [|s st IH]; intros st0; simpl.
  - rewrite app_nil_r. reflexivity.
  - rewrite IH, <- app_assoc. reflexivity.
Qed.
