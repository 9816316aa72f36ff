(** * SzThms: exactly which groups can be written (C16). *)
From Verif Require Import Base BaseLemmas PbModel PbSpec PbProofs PbProofs2 TModel TSpec SzSpec TProofs TMsg TMsg2 T2Thms.

Lemma leb_size n : forall v, 0 <= v < 128 ^ Z.of_nat (S n) -> zlen (leb_enc n v) = vsize v.
Proof.
  assert (S7 : forall v, 0 < v < 128 -> Z.log2 v / 7 = 0).
  { intros v H. apply Z.div_small. split; [apply Z.log2_nonneg|]. apply Z.log2_lt_pow2; [lia|]. change (2^7) with 128. lia. }
  induction n as [|n IH]; intros v H; cbn [leb_enc].
  - change (128 ^ Z.of_nat 1) with 128 in H. unfold vsize. destruct (Z.eqb_spec v 0); [reflexivity|]. rewrite S7 by lia. reflexivity.
  - destruct (Z.ltb_spec v 128) as [L|L].
    + unfold vsize. destruct (Z.eqb_spec v 0); [reflexivity|]. rewrite S7 by lia. reflexivity.
    + rewrite zlen_cons, IH.
      * unfold vsize. assert (P : 0 < v / 128) by (apply Z.div_str_pos; lia).
        destruct (Z.eqb_spec (v / 128) 0); [lia|]. destruct (Z.eqb_spec v 0); [lia|].
        replace (Z.log2 v) with (7 + Z.log2 (v / 128)).
        { replace (7 + Z.log2 (v / 128)) with (Z.log2 (v / 128) + 1 * 7) by lia. rewrite Z.div_add by lia. lia. }
        assert (Lo : 2 ^ 7 <= v) by (change (2^7) with 128; lia).
        pose proof (Z.log2_le_mono _ _ Lo) as L7. rewrite Z.log2_pow2 in L7 by lia.
        change 128 with (2 ^ 7). rewrite <- Z.shiftr_div_pow2 by lia. rewrite Z.log2_shiftr by lia. lia.
      * split; [apply Z.div_pos; lia|]. apply Z.div_lt_upper_bound; [lia|].
        rewrite Nat2Z.inj_succ, Z.pow_succ_r in H by lia. lia.
Qed.
Lemma venc_vsize v : is_u64 v -> zlen (venc v) = vsize v.
Proof. intros H. rewrite venc_leb by assumption. apply leb_size. unfold is_u64 in H. change (128 ^ Z.of_nat 10) with (2^70). lia. Qed.
Lemma vencs_size l : Forall is_u64 l -> zlen (vencs l) = sum (map vsize l).
Proof.
  induction 1 as [|v l H _ IH]; [reflexivity|]. unfold vencs in *. cbn [map concat sum fold_right]. rewrite zlen_app, venc_vsize by assumption. unfold sum in IH. lia.
Qed.
Lemma u64_mod v : u64 v = v mod 2^64. Proof. reflexivity. Qed.
Lemma plain_len l : zlen (p_u64ext l) = plain_size l.
Proof.
  unfold p_u64ext, plain_size. rewrite vencs_size, map_map; [reflexivity|]. apply Forall_map, Forall_forall. intros x _. apply u64_range.
Qed.
Lemma plain_len_u64 l : Forall is_u64 l -> zlen (vencs l) = plain_size l.
Proof.
  intros H. rewrite vencs_size by assumption. unfold plain_size. f_equal. apply map_ext_in. intros a Ha. cbn beta.
  rewrite Forall_forall in H. pose proof (H a Ha) as U. unfold is_u64 in U. rewrite Z.mod_small by lia. reflexivity.
Qed.
Lemma s64_change a b : s64 (b - a) = change64 a b.
Proof. reflexivity. Qed.
Lemma changes_len l : zlen (p_delta l) = changes_size 0 l.
Proof.
  unfold p_delta. generalize 0. induction l as [|x l IH]; intros last; [reflexivity|].
  cbn [deltas map changes_size]. unfold vencs in *. cbn [map concat]. rewrite zlen_app, IH.
  rewrite EncodeZigZag_spec by apply s64_range. rewrite venc_vsize by apply zigzag_range, s64_range. rewrite s64_change. reflexivity.
Qed.

Lemma vsize_pos v : is_u64 v -> 1 <= vsize v <= 10.
Proof. intros H. rewrite <- venc_vsize by assumption. apply venc_zlen; assumption. Qed.
Lemma u64m v : is_u64 (v mod 2^64). Proof. apply u64_range. Qed.
Lemma plain_nonneg l : 0 <= plain_size l. Proof. rewrite <- plain_len. apply zlen_nonneg. Qed.
Lemma changes_nonneg l : 0 <= changes_size 0 l. Proof. rewrite <- changes_len. apply zlen_nonneg. Qed.
Lemma ffl n id p : zlen (venc (MakeIdType id PbFixedBytes)) = 1 -> zlen (fixed_field n id p) = 1 + Z.of_nat n + zlen p.
Proof.
  intros H. unfold fixed_field. rewrite !zlen_app, H.
  assert (F : zlen (leb_fixed n (zlen p)) = Z.of_nat n) by (unfold zlen; rewrite leb_fixed_length; reflexivity). rewrite F. lia.
Qed.

Lemma way_len w : zlen (way_enc w) = way_size w.
Proof.
  unfold way_enc, way_size. rewrite !zlen_app, !ffl by (vm_compute; reflexivity). rewrite !plain_len, changes_len.
  change (zlen (venc (MakeIdType wayId PbVarInt))) with 1. rewrite venc_vsize by apply u64_range. rewrite u64_mod. lia.
Qed.
Lemma way_can w : way_fits w /\ zlen (way_enc w) < 16384 <-> way_writable w.
Proof.
  rewrite way_len. unfold way_fits, way_writable, way_size. rewrite !plain_len, changes_len. change (2^14) with 16384.
  pose proof (vsize_pos _ (u64m (way_ID w))). pose proof (plain_nonneg (way_Keys w)). pose proof (plain_nonneg (way_Vals w)).
  pose proof (changes_nonneg (way_Refs w)). lia.
Qed.
Lemma relation_len r : Forall is_u64 (rel_MemberType r) -> zlen (relation_enc r) = relation_size r.
Proof.
  intros H. unfold relation_enc, relation_size. rewrite !zlen_app, !ffl by (vm_compute; reflexivity). rewrite !plain_len, changes_len, plain_len_u64 by assumption.
  change (zlen (venc (MakeIdType relationId PbVarInt))) with 1. rewrite venc_vsize by apply u64_range. rewrite u64_mod. lia.
Qed.
Lemma relation_can r : Forall is_u64 (rel_MemberType r) -> relation_fits r /\ zlen (relation_enc r) < 2097152 <-> relation_writable r.
Proof.
  intros H. rewrite relation_len by assumption. unfold relation_fits, relation_writable, relation_size. rewrite !plain_len, changes_len, plain_len_u64 by assumption.
  change (2^14) with 16384. change (2^21) with 2097152.
  pose proof (vsize_pos _ (u64m (rel_ID r))). pose proof (plain_nonneg (rel_Keys r)). pose proof (plain_nonneg (rel_Vals r)).
  pose proof (plain_nonneg (rel_RolesSID r)). pose proof (plain_nonneg (rel_MemberType r)). pose proof (changes_nonneg (rel_MemIDs r)). lia.
Qed.
Lemma dense_len d : zlen (dense_enc d) = dense_size d.
Proof.
  unfold dense_enc, dense_size. rewrite !zlen_app, !ffl by (vm_compute; reflexivity). rewrite !changes_len.
  assert (K : zlen (kv_enc (dn_KeyVals d)) = match dn_KeyVals d with [] => 0 | kv => 5 + plain_size kv end).
  { unfold kv_enc. destruct (dn_KeyVals d) as [|x kv]; [reflexivity|]. rewrite (proj2 (Z.ltb_lt 0 (zlen (x :: kv)))).
    - rewrite ffl by (vm_compute; reflexivity). rewrite plain_len. lia.
    - rewrite zlen_cons. pose proof (zlen_nonneg kv). lia. }
  rewrite K. lia.
Qed.
Lemma dense_can d : dense_fits d /\ zlen (dense_enc d) < 268435456 <-> dense_writable d.
Proof.
  rewrite dense_len. unfold dense_fits, dense_writable, dense_size. rewrite !plain_len, !changes_len.
  change (2^28) with 268435456. change (2^21) with 2097152.
  pose proof (changes_nonneg (dn_Id d)). pose proof (changes_nonneg (dn_Lat d)). pose proof (changes_nonneg (dn_Lon d)).
  pose proof (plain_nonneg (dn_KeyVals d)). destruct (dn_KeyVals d) as [|x kv].
  - split; [intros ((? & ? & ? & ?) & ?); lia|intros (? & ? & ? & ?)]. repeat split; try lia. left; reflexivity.
  - split; [intros ((? & ? & ? & [?|?]) & ?); [discriminate|lia]|intros (? & ? & ? & ?)]. repeat split; lia.
Qed.
Lemma group_can g : group_typed g -> (group_fits g <-> group_writable g).
Proof.
  intros (_ & _ & _ & _ & T & _). unfold group_fits, group_writable. split.
  - intros (D & W & R). split; [intros d E; apply dense_can, D, E|]. split.
    + intros ws w E I0. specialize (W ws E). rewrite Forall_forall in W. apply way_can, W, I0.
    + intros rs r E I0. specialize (R rs E). rewrite Forall_forall in R. apply relation_can; [|apply R, I0].
      specialize (T rs E). rewrite Forall_forall in T. apply (T r I0).
  - intros (D & W & R). split; [intros d E; apply dense_can, D, E|]. split.
    + intros ws E. apply Forall_forall. intros w I0. apply way_can, (W ws w E I0).
    + intros rs E. apply Forall_forall. intros r I0. apply relation_can; [|apply (R rs r E I0)].
      specialize (T rs E). rewrite Forall_forall in T. apply (T r I0).
Qed.

(** no embedder diverges *)
Definition halts (e : Embedder) : Prop := forall b, e b <> Diverge.
Lemma halts_bind (e1 e2 : Embedder) : halts e1 -> halts e2 -> halts (fun b => b <- e1 b ;; e2 b).
Proof. intros H1 H2 b. cbn beta. specialize (H1 b). destruct (e1 b); cbn [bind]; [apply H2|discriminate|congruence]. Qed.
Lemma halts_embed n patch id e : (forall b i l, patch b i l <> Diverge) -> halts e -> halts (embed n patch id e).
Proof. intros Hp He b. unfold embed. cbv zeta. specialize (He (Reserve n (EncodeVarInt b (MakeIdType id PbFixedBytes)))). destruct (e _); cbn [bind]; [apply Hp|discriminate|congruence]. Qed.
Lemma halts_fold {A} (f : A -> Embedder) l : (forall a, halts (f a)) -> halts (foldm (fun b a => f a b) l).
Proof. intros H. induction l as [|a l IH]; intros b; [discriminate|]. cbn [foldm]. specialize (H a b). destruct (f a b); cbn [bind]; [apply IH|discriminate|congruence]. Qed.
Lemma lset_halts (b : list Z) i v : lset b i v <> Diverge.
Proof. unfold lset. destruct (_ && _); discriminate. Qed.
Ltac halt_step := match goal with
  | |- (if ?c then _ else _) <> _ => destruct c; [discriminate|]
  | |- lset _ _ _ <> _ => apply lset_halts
  | |- bind (lset ?b ?i ?v) _ <> _ => pose proof (lset_halts b i v); destruct (lset b i v); cbn [bind]; [|discriminate|congruence]
  end.
Lemma p14_halts b i l : EmbedInt16384 b i l <> Diverge. Proof. unfold EmbedInt16384. repeat halt_step. Qed.
Lemma p21_halts b i l : EmbedInt2097152 b i l <> Diverge. Proof. unfold EmbedInt2097152. repeat halt_step. Qed.
Lemma p28_halts b i l : EmbedInt268435456 b i l <> Diverge. Proof. unfold EmbedInt268435456. repeat halt_step. Qed.
Lemma halts_ok (f : list Z -> list Z) : halts (fun b => Ok (f b)). Proof. intros b. discriminate. Qed.
Lemma halts_e14 id e : halts e -> halts (Embed16384 id e). Proof. apply halts_embed, p14_halts. Qed.
Lemma halts_e21 id e : halts e -> halts (Embed2097152 id e). Proof. apply halts_embed, p21_halts. Qed.
Lemma halts_e28 id e : halts e -> halts (Embed268435456 id e). Proof. apply halts_embed, p28_halts. Qed.
Lemma halts_seq (e1 e2 : Embedder) b : halts e1 -> halts e2 -> bind (e1 b) e2 <> Diverge.
Proof. intros H1 H2. exact (halts_bind e1 e2 H1 H2 b). Qed.
Lemma way_halts w : halts (Way_Write w).
Proof.
  intros b. unfold Way_Write. cbv zeta. apply halts_seq; [apply halts_e14, halts_ok|]. intros b1. apply halts_seq; [apply halts_e14, halts_ok|]. apply halts_e14, halts_ok.
Qed.
Lemma relation_halts r : halts (Relation_Write r).
Proof.
  intros b. unfold Relation_Write. cbv zeta. do 2 (apply halts_seq; [apply halts_e14, halts_ok|]; intros ?).
  do 2 (apply halts_seq; [apply halts_e21, halts_ok|]; intros ?). apply halts_e21, halts_ok.
Qed.
Lemma dense_halts d : halts (DenseNodes_Write d).
Proof.
  intros b. unfold DenseNodes_Write. do 3 (apply halts_seq; [apply halts_e21, halts_ok|]; intros ?).
  destruct (0 <? zlen (dn_KeyVals d)); [apply halts_e28, halts_ok|discriminate].
Qed.
Lemma group_halts g : halts (PrimitiveGroup_Write g).
Proof.
  intros b. unfold PrimitiveGroup_Write.
  apply (halts_seq (fun buf => match pg_Dense g with
         | Some d => Embed268435456 primitiveGroupDenseNodes (DenseNodes_Write d) buf
         | None => match pg_RawDense g with Some raw => Ok (EncodeIdBuffer buf primitiveGroupDenseNodes raw) | None => Ok buf end end)).
  { intros b1. destruct (pg_Dense g) as [d|]; [apply halts_e28, dense_halts|]. destruct (pg_RawDense g); discriminate. }
  intros b1. apply (halts_seq (fun buf => match pg_Ways g with
         | Some ws => foldm (fun buf w => Embed16384 primitiveGroupWays (Way_Write w) buf) ws buf
         | None => foldm (fun buf w => Ok (EncodeIdBuffer buf primitiveGroupWays w)) (pg_RawWays g) buf end)).
  { intros b2. destruct (pg_Ways g) as [ws|].
    - apply (halts_fold (fun w => Embed16384 primitiveGroupWays (Way_Write w))). intros w. apply halts_e14, way_halts.
    - apply (halts_fold (fun w b => Ok (EncodeIdBuffer b primitiveGroupWays w))). intros w. apply halts_ok. }
  intros b2. destruct (pg_Relations g) as [rs|].
  - apply (halts_fold (fun r => Embed2097152 primitiveGroupRelations (Relation_Write r))). intros w. apply halts_e21, relation_halts.
  - apply (halts_fold (fun w b => Ok (EncodeIdBuffer b primitiveGroupRelations w))). intros w. apply halts_ok.
Qed.
Lemma block_halts p : halts (PrimitiveBlock_Write p).
Proof.
  intros b. unfold PrimitiveBlock_Write.
  apply (halts_seq (fun buf => match pblk_StringTable p with
         | Some st => Embed268435456 primitiveBlockStringTable (StringTable_Write st) buf
         | None => match pblk_StringTableRaw p with Some raw => Ok (EncodeIdBuffer buf primitiveBlockStringTable raw) | None => Ok buf end end)).
  { intros b1. destruct (pblk_StringTable p) as [d|].
    - apply halts_e28. apply (halts_fold (fun w b => Ok (EncodeIdBuffer b stringTableS w))). intros w. apply halts_ok.
    - destruct (pblk_StringTableRaw p); discriminate. }
  intros b1. apply (halts_seq (foldm (fun buf g => Embed268435456 primitiveBlockPrimitiveGroup (PrimitiveGroup_Write g) buf) (pblk_PrimitiveGroup p))).
  - apply (halts_fold (fun g => Embed268435456 primitiveBlockPrimitiveGroup (PrimitiveGroup_Write g))). intros w. apply halts_e28, group_halts.
  - intros b2. discriminate.
Qed.

(** *** lengths of groups and blocks *)
Lemma field_len id s : zlen (venc (MakeIdType id PbFixedBytes)) = 1 -> zlen s < 2^63 -> zlen (id_buffer id s) = field_size s.
Proof.
  intros H L. unfold id_buffer, field_size. rewrite !zlen_app, H. rewrite venc_vsize by apply u64_range.
  pose proof (zlen_nonneg s). rewrite u64_id by (unfold is_u64; lia). lia.
Qed.
Lemma concat_len {A} (f : A -> list Z) (g : A -> Z) l : (forall a, In a l -> zlen (f a) = g a) -> zlen (concat (map f l)) = sum (map g l).
Proof.
  intros H. induction l as [|a l IH]; [reflexivity|]. cbn [map concat]. unfold sum in *. cbn [fold_right]. rewrite zlen_app, H, IH; [reflexivity|intros; apply H; right; assumption|left; reflexivity].
Qed.
Lemma group_len g : group_typed g ->
  (forall raw, pg_RawDense g = Some raw -> zlen raw < 2^63) -> (forall w, In w (pg_RawWays g) -> zlen w < 2^63) ->
  (forall r, In r (pg_RawRelations g) -> zlen r < 2^63) -> zlen (group_enc g) = group_size g.
Proof.
  intros (_ & _ & _ & _ & T & _) D W R. unfold group_enc, group_size. rewrite !zlen_app. rewrite Z.add_assoc. f_equal; [f_equal|].
  - unfold dense_part. destruct (pg_Dense g) as [d|]; [rewrite ffl by (vm_compute; reflexivity); rewrite dense_len; lia|].
    destruct (pg_RawDense g) as [raw|]; [apply field_len; [vm_compute; reflexivity|apply D; reflexivity]|reflexivity].
  - unfold ways_part. destruct (pg_Ways g) as [ws|].
    + apply concat_len. intros w _. unfold way_field. rewrite ffl by (vm_compute; reflexivity). rewrite way_len. lia.
    + apply concat_len. intros w I0. apply field_len; [vm_compute; reflexivity|apply W, I0].
  - unfold rels_part. destruct (pg_Relations g) as [rs|].
    + apply concat_len. intros r I0. unfold rel_field. rewrite ffl by (vm_compute; reflexivity). rewrite relation_len; [lia|].
      specialize (T rs eq_refl). rewrite Forall_forall in T. apply (T r I0).
    + apply concat_len. intros w I0. apply field_len; [vm_compute; reflexivity|apply R, I0].
Qed.
Lemma opt_len dflt id v : zlen (venc (MakeIdType id PbVarInt)) = 2 -> zlen (opt_varint dflt id v) = option_size dflt v.
Proof.
  intros H. unfold opt_varint, option_size. destruct (v =? dflt); cbn [negb]; [reflexivity|]. rewrite zlen_app, H, venc_vsize by apply u64_range. reflexivity.
Qed.
Lemma st_len st : (forall s, In s st -> zlen s < 2^63) -> zlen (st_enc st) = strings_size st.
Proof. intros H. apply concat_len. intros s I0. apply field_len; [vm_compute; reflexivity|apply H, I0]. Qed.
Lemma group_len_in b g : block_typed b -> strings_sane b -> In g (pblk_PrimitiveGroup b) -> zlen (group_enc g) = group_size g.
Proof.
  intros (_ & _ & T & _) (_ & _ & S) I0. rewrite Forall_forall in T. destruct (S g I0) as (? & ? & ?). apply group_len; auto.
Qed.
Lemma block_len b : block_typed b -> strings_sane b -> zlen (block_enc b) = block_size b.
Proof.
  intros T S. unfold block_enc, block_size. rewrite !zlen_app, !opt_len by (vm_compute; reflexivity).
  assert (A : zlen (st_part b) = match pblk_StringTable b with Some st => 5 + strings_size st | None => match pblk_StringTableRaw b with Some raw => field_size raw | None => 0 end end).
  { unfold st_part. destruct S as (S1 & S2 & _). destruct (pblk_StringTable b) as [st|].
    - rewrite ffl by (vm_compute; reflexivity). rewrite st_len; [lia|]. intros s. apply S1. reflexivity.
    - destruct (pblk_StringTableRaw b); [apply field_len; [vm_compute; reflexivity|apply S2; reflexivity]|reflexivity]. }
  assert (B : zlen (concat (map group_field (pblk_PrimitiveGroup b))) = sum (map (fun g => 5 + group_size g) (pblk_PrimitiveGroup b))).
  { apply concat_len. intros g I0. unfold group_field. rewrite ffl by (vm_compute; reflexivity). rewrite (group_len_in b g T S I0). lia. }
  rewrite A, B. lia.
Qed.
Lemma block_can b : block_typed b -> strings_sane b -> (block_fits b <-> block_writable b).
Proof.
  intros T S. unfold block_fits, block_writable. change (2^28) with 268435456. rewrite Forall_forall.
  assert (X : forall st, pblk_StringTable b = Some st -> zlen (st_enc st) = strings_size st).
  { intros st E. apply st_len. intros s. destruct S as (S1 & _). apply (S1 st s E). }
  assert (G : forall g, In g (pblk_PrimitiveGroup b) -> (group_fits g <-> group_writable g)).
  { intros g I0. apply group_can. destruct T as (_ & _ & T & _). rewrite Forall_forall in T. apply T, I0. }
  split; intros (A & B); (split; [intros st E; specialize (A st E); rewrite X in * by assumption; assumption|]);
    intros g I0; destruct (B g I0) as [B1 B2]; (split; [apply G; assumption|]); rewrite (group_len_in b g T S I0) in *; assumption.
Qed.

(** C16, exactly: a group can be written if and only if every way of it needs fewer than
    16384 bytes, every relation fewer than 2097152 (and its keys and its values fewer
    than 16384 each), the dense section fewer than 268435456 (and its ids, latitudes and
    longitudes fewer than 2097152 each); otherwise the writer panics. *)
Lemma pC16_exact : forall g buf, group_typed g ->
  ((exists out, PrimitiveGroup_Write g buf = Ok out) <-> group_writable g) /\
  (~ group_writable g <-> exists p, PrimitiveGroup_Write g buf = Panic p).
Proof.
  intros g buf T. pose proof (group_can g T) as C.
  assert (A : (exists out, PrimitiveGroup_Write g buf = Ok out) <-> group_writable g).
  { rewrite <- C. split; [intros (out & E); apply PrimitiveGroup_Write_app in E; tauto|intros F; eexists; apply PrimitiveGroup_Write_app; split; [exact F|reflexivity]]. }
  split; [exact A|]. pose proof (group_halts g buf) as Hh. destruct (PrimitiveGroup_Write g buf) as [o|p|] eqn:E.
  - split; [intros N; exfalso; apply N, A; exists o; reflexivity|intros (p & Q); discriminate].
  - split; [intros _; exists p; reflexivity|]. intros _ N. apply A in N. destruct N as (o & Q). discriminate.
  - congruence.
Qed.

(** C16, whatever the refs are: up to 1636 refs (the worst case is ten bytes each), and no
    more in general. *)
Lemma plain_le l k : Forall (fun v => 0 <= v < 2^32) l -> k = 5 -> plain_size l <= k * zlen l.
Proof.
  intros H ->. induction H as [|v l Hv _ IH]; [vm_compute; discriminate|]. unfold plain_size, sum in *. cbn [map fold_right]. rewrite zlen_cons.
  assert (V : vsize (v mod 2^64) <= 5).
  { rewrite Z.mod_small by lia. unfold vsize. destruct (Z.eqb_spec v 0); [lia|]. assert (L : Z.log2 v < 32) by (apply Z.log2_lt_pow2; lia).
    assert (Z.log2 v / 7 < 5) by (apply Z.div_lt_upper_bound; lia). lia. }
  lia.
Qed.
Lemma changes_le l : forall last, changes_size last l <= 10 * zlen l.
Proof.
  induction l as [|x l IH]; intros last; [vm_compute; discriminate|]. cbn [changes_size]. rewrite zlen_cons. specialize (IH x).
  assert (is_u64 (zigzag (change64 last x))) as U by (apply zigzag_range; rewrite <- s64_change; apply s64_range). pose proof (vsize_pos _ U). lia.
Qed.
Lemma pC16_any_refs : forall ws buf,
  (forall w, In w ws -> way_typed w /\ 5 * zlen (way_Keys w) + 5 * zlen (way_Vals w) + 10 * zlen (way_Refs w) <= 16363) ->
  exists out, PrimitiveGroup_Write (mkGroup None None (Some ws) [] None []) buf = Ok out.
Proof.
  intros ws buf A. apply pC16_exact.
  - split; [discriminate|]. split; [discriminate|]. split; [|split; [constructor|split; [discriminate|constructor]]].
    intros ws' E. injection E as <-. apply Forall_forall. intros w I0. apply (A w I0).
  - split; [discriminate|]. split; [|discriminate]. intros ws' w E I0. injection E as <-. destruct (A w I0) as ((_ & K & V & _) & H).
    unfold way_writable, way_size. change (2^14) with 16384. pose proof (vsize_pos _ (u64m (way_ID w))).
    pose proof (plain_le (way_Keys w) 5 K eq_refl). pose proof (plain_le (way_Vals w) 5 V eq_refl). pose proof (changes_le (way_Refs w) 0). lia.
Qed.
Lemma pC16_any_refs_ex :
  way_typed (mkWay (-1) [] [] (alternating 818)) /\ way_writable (mkWay (-1) [] [] (alternating 818)) /\ zlen (alternating 818) = 1636 /\
  way_size (mkWay (-1) [] [] (alternating 818)) = 16379 /\ ~ way_writable (mkWay (-1) [] [] (alternating 818 ++ [-2^62])).
Proof.
  split; [|split; [vm_compute; reflexivity|split; [vm_compute; reflexivity|split; [vm_compute; reflexivity|intros N; vm_compute in N; discriminate]]]].
  split; [split; vm_compute; discriminate || reflexivity|]. split; [constructor|]. split; [constructor|]. unfold way_Refs, alternating.
  generalize 818%nat. induction n; [constructor|]. cbn [repeat concat app]. repeat constructor; try assumption; vm_compute; discriminate.
Qed.

(** C111: exactly which blocks can be written, and how many bytes are written. *)
Lemma pC111_exact : forall b buf, block_typed b -> strings_sane b ->
  (block_writable b -> exists out, PrimitiveBlock_Write b buf = Ok (buf ++ out) /\ zlen out = block_size b) /\
  (~ block_writable b -> exists p, PrimitiveBlock_Write b buf = Panic p).
Proof.
  intros b buf T S. pose proof (block_can b T S) as C. split.
  - intros W. exists (block_enc b). split; [apply PrimitiveBlock_Write_app; split; [apply C, W|reflexivity]|]. apply block_len; assumption.
  - intros N. pose proof (block_halts b buf) as Hh. destruct (PrimitiveBlock_Write b buf) as [o|p|] eqn:E; [|exists p; reflexivity|congruence].
    exfalso. apply N, C. apply PrimitiveBlock_Write_app in E. tauto.
Qed.

Definition sz_ex : PrimitiveBlock :=
  mkBlock None (Some [[]; [104; 105]]) [mkGroup None None (Some [mkWay 300 [1] [1] [128; -1]]) [] None []] 100 1000 (-1) 0.
Lemma pC111_ex : block_typed sz_ex /\ strings_sane sz_ex /\ block_writable sz_ex /\ block_size sz_ex = 49 /\
  (match PrimitiveBlock_Write sz_ex [] with Ok out => zlen out = 49 | _ => False end).
Proof.
  split; [|split; [|split; [|split; [vm_compute; reflexivity|vm_compute; reflexivity]]]].
  - split; [intros st E; injection E as <-; repeat constructor; unfold is_u8; lia|]. split; [discriminate|].
    split; [constructor; [|constructor]|cbn; unfold is_s32, is_s64; lia].
    split; [discriminate|]. split; [discriminate|]. split; [|split; [constructor|split; [discriminate|constructor]]].
    intros ws E. injection E as <-. constructor; [|constructor]. repeat split; repeat constructor; cbn; unfold is_u32, is_s64; lia.
  - split; [|split; [discriminate|]].
    + intros st s E I0. injection E as <-. destruct I0 as [<-|[<-|[]]]; vm_compute; reflexivity.
    + intros g [<-|[]]. split; [discriminate|]. split; intros w [].
  - split; [intros st E; injection E as <-; vm_compute; reflexivity|]. intros g [<-|[]]. split; [|vm_compute; reflexivity].
    split; [discriminate|]. split; [|discriminate]. intros ws w E I0. injection E as <-. destruct I0 as [<-|[]]. vm_compute. reflexivity.
Qed.
