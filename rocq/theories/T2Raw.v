(** * T2Raw: skipped sections are preserved byte for byte. *)
From Verif Require Import Base BaseLemmas PbModel PbSpec PbProofs PbProofs2 TModel TSpec TProofs TMsg TMsg2 T2Proofs T2Items.

Lemma key_at id : 1 <= id < 16 -> MakeIdType id PbFixedBytes = 8 * id + 2.
Proof.
  intros H. assert (id = 1 \/ id = 2 \/ id = 3 \/ id = 4 \/ id = 5 \/ id = 6 \/ id = 7 \/ id = 8 \/
    id = 9 \/ id = 10 \/ id = 11 \/ id = 12 \/ id = 13 \/ id = 14 \/ id = 15) as E by lia.
  repeat (destruct E as [->|E]; [reflexivity|]). subst. reflexivity.
Qed.

Lemma field_len f : field_wf f -> len_prefix (f_len f) (f_payload f).
Proof. intros H. exact H. Qed.

Lemma last_of_cons {A} (a : A) l : last_of (a :: l) = Some (match last_of l with Some x => x | None => a end).
Proof.
  unfold last_of. cbn [rev]. destruct (rev l) as [|x r] eqn:E; reflexivity.
Qed.

Lemma SkipBytes_at b pre L p post :
  vis b = pre ++ (L ++ p) ++ post -> bytes (vis b) -> slen b < 2^63 -> len_prefix L p ->
  SkipBytes b (zlen pre) = Ok (zlen pre + zlen (L ++ p)).
Proof.
  intros Hv Hb Hl (H1 & H2 & H3). unfold SkipBytes.
  assert (Hlen : slen b = zlen pre + (zlen L + zlen p) + zlen post)
    by (rewrite slen_zlen, Hv, !zlen_app; lia).
  pose proof (zlen_nonneg pre). pose proof (zlen_nonneg L). pose proof (zlen_nonneg p). pose proof (zlen_nonneg post).
  assert (Hv2 : vis b = pre ++ L ++ p ++ post) by (rewrite Hv, <- app_assoc; reflexivity).
  rewrite (decode_at b pre L (p ++ post)); try assumption; [|rewrite <- Hv2; assumption|lia].
  - cbn [bind]. rewrite H3, zlen_app. rewrite (s64_id (zlen p)) by (unfold is_s64; lia).
    rewrite s64_id by (unfold is_s64; lia). f_equal. lia.
Qed.

Definition opt_or {A} (o : option A) (d : option A) : option A := match o with Some x => Some x | None => d end.
Definition pick {A} (b : bool) (x y : A) := if b then x else y.

(** what reading the fields does to the raw and parsed sections *)
Definition raw_spec (pbr : PBReader) (fs : list field) (st st' : PrimitiveGroup) : Prop :=
  (if SkipDenseNodes pbr
   then pg_RawDense st' = opt_or (last_payload 2 fs) (pg_RawDense st) /\ pg_Dense st' = pg_Dense st
   else pg_RawDense st' = pg_RawDense st) /\
  (if SkipWays pbr
   then pg_RawWays st' = pg_RawWays st ++ payloads 3 fs /\ pg_Ways st' = pg_Ways st
   else pg_RawWays st' = pg_RawWays st) /\
  (if SkipRelations pbr
   then pg_RawRelations st' = pg_RawRelations st ++ payloads 4 fs /\ pg_Relations st' = pg_Relations st
   else pg_RawRelations st' = pg_RawRelations st).

Lemma raw_spec_nil pbr st : raw_spec pbr [] st st.
Proof.
  unfold raw_spec. cbn.
  destruct (SkipDenseNodes pbr), (SkipWays pbr), (SkipRelations pbr); rewrite ?app_nil_r; auto.
Qed.

Lemma payloads_cons id f fs :
  payloads id (f :: fs) = if f_id f =? id then f_payload f :: payloads id fs else payloads id fs.
Proof. unfold payloads. cbn [filter]. destruct (f_id f =? id); reflexivity. Qed.

Lemma raw_spec_cons pbr f fs st st1 st2 :
  raw_spec pbr [f] st st1 -> raw_spec pbr fs st1 st2 -> raw_spec pbr (f :: fs) st st2.
Proof.
  unfold raw_spec, last_payload. rewrite !payloads_cons. intros (A & B & C) (D & E & F).
  change (payloads ?i []) with (@nil (list Z)) in *.
  split; [|split].
  - destruct (SkipDenseNodes pbr); [|congruence]. destruct A as [A1 A2], D as [D1 D2].
    split; [|congruence]. rewrite D1, A1.
    destruct (f_id f =? 2); [|reflexivity]. rewrite !last_of_cons. cbn.
    destruct (last_of (payloads 2 fs)); reflexivity.
  - destruct (SkipWays pbr); [|congruence]. destruct B as [B1 B2], E as [E1 E2].
    split; [|congruence]. rewrite E1, B1. destruct (f_id f =? 3); rewrite <- app_assoc; reflexivity.
  - destruct (SkipRelations pbr); [|congruence]. destruct C as [C1 C2], F as [F1 F2].
    split; [|congruence]. rewrite F1, C1. destruct (f_id f =? 4); rewrite <- app_assoc; reflexivity.
Qed.

Lemma group_step pbr b pre f post n' u :
  field_wf f -> 1 <= f_id f < 16 ->
  vis b = pre ++ (f_len f ++ f_payload f) ++ post -> bytes (vis b) -> slen b < 2^63 ->
  group_handler pbr (8 * f_id f + 2) b (zlen pre) = Ok (n', u) ->
  n' = zlen pre + zlen (f_len f ++ f_payload f) /\ forall st, raw_spec pbr [f] st (u st).
Proof.
  intros Hf Hid Hv Hb Hl H. apply field_len in Hf.
  unfold group_handler in H.
  rewrite (DecodeBytes_at b pre (f_len f) (f_payload f) post Hv Hb Hl Hf) in H.
  rewrite (SkipBytes_at b pre (f_len f) (f_payload f) post Hv Hb Hl Hf) in H.
  cbn [bind vis] in H.
  rewrite (key_at primitiveGroupNodes) in H by (unfold primitiveGroupNodes; lia).
  rewrite (key_at primitiveGroupDenseNodes) in H by (unfold primitiveGroupDenseNodes; lia).
  rewrite (key_at primitiveGroupWays) in H by (unfold primitiveGroupWays; lia).
  rewrite (key_at primitiveGroupRelations) in H by (unfold primitiveGroupRelations; lia).
  rewrite (key_at primitiveGroupChangeSets) in H by (unfold primitiveGroupChangeSets; lia).
  assert (K : forall k, (8 * f_id f + 2 =? 8 * k + 2) = (f_id f =? k))
    by (intros k; destruct (Z.eqb_spec (f_id f) k); lia).
  rewrite !K in H. unfold raw_spec, last_payload. cbn [payloads filter].
  destruct (Z.eqb_spec (f_id f) primitiveGroupNodes) as [E|E]; [discriminate|].
  destruct (Z.eqb_spec (f_id f) primitiveGroupDenseNodes) as [E1|E1].
  { destruct (SkipDenseNodes pbr).
    - injection H as <- <-. split; [reflexivity|]. intros st.
      unfold payloads. cbn [filter]. rewrite E1. cbn. rewrite !app_nil_r.
      destruct (SkipWays pbr), (SkipRelations pbr); auto.
    - match type of H with (bind ?x _) = _ => destruct x; cbn [bind] in H; try discriminate end.
      injection H as <- <-. split; [reflexivity|]. intros st.
      unfold payloads. cbn [filter]. rewrite E1. cbn. rewrite !app_nil_r.
      destruct (SkipWays pbr), (SkipRelations pbr); auto. }
  destruct (Z.eqb_spec (f_id f) primitiveGroupWays) as [E2|E2].
  { destruct (SkipWays pbr).
    - injection H as <- <-. split; [reflexivity|]. intros st.
      unfold payloads. cbn [filter]. rewrite E2. cbn. rewrite !app_nil_r.
      destruct (SkipDenseNodes pbr), (SkipRelations pbr); auto.
    - match type of H with (bind ?x _) = _ => destruct x; cbn [bind] in H; try discriminate end.
      injection H as <- <-. split; [reflexivity|]. intros st.
      unfold payloads. cbn [filter]. rewrite E2. cbn. rewrite !app_nil_r.
      destruct (SkipDenseNodes pbr), (SkipRelations pbr); auto. }
  destruct (Z.eqb_spec (f_id f) primitiveGroupRelations) as [E3|E3].
  { destruct (SkipRelations pbr).
    - injection H as <- <-. split; [reflexivity|]. intros st.
      unfold payloads. cbn [filter]. rewrite E3. cbn. rewrite !app_nil_r.
      destruct (SkipDenseNodes pbr), (SkipWays pbr); auto.
    - match type of H with (bind ?x _) = _ => destruct x; cbn [bind] in H; try discriminate end.
      injection H as <- <-. split; [reflexivity|]. intros st.
      unfold payloads. cbn [filter]. rewrite E3. cbn. rewrite !app_nil_r.
      destruct (SkipDenseNodes pbr), (SkipWays pbr); auto. }
  destruct (Z.eqb_spec (f_id f) primitiveGroupChangeSets) as [E4|E4]; [|discriminate].
  injection H as <- <-. split; [reflexivity|]. intros st.
  unfold payloads. cbn [filter]. rewrite E4. cbn. rewrite !app_nil_r.
  destruct (SkipDenseNodes pbr), (SkipWays pbr), (SkipRelations pbr); auto.
Qed.

Lemma group_fields_loop pbr b : bytes (vis b) -> slen b < 2^63 ->
  forall fs fuel pre st n' st', fields_wf fs ->
  vis b = pre ++ fields_bytes fs ->
  loop fuel (msg_cond b) (msg_body (group_handler pbr) b) (zlen pre, st) = Ok (n', st') ->
  raw_spec pbr fs st st'.
Proof.
  intros Hb Hl. induction fs as [|f fs IH]; intros fuel pre st n' st' [W1 W2] Hv H.
  - unfold fields_bytes in Hv. cbn in Hv. rewrite app_nil_r in Hv.
    assert (E : msg_cond b (zlen pre, st) = false).
    { unfold msg_cond. cbn [fst]. rewrite slen_zlen, Hv. lia. }
    destruct fuel; cbn [loop] in H; rewrite E in H; injection H as <- <-; apply raw_spec_nil.
  - apply Forall_cons_iff in W1 as [Wf W1]. apply Forall_cons_iff in W2 as [Wi W2].
    unfold fields_bytes in Hv. cbn [map concat] in Hv. fold (fields_bytes fs) in Hv.
    unfold field_bytes at 1 in Hv.
    assert (E : msg_cond b (zlen pre, st) = true).
    { unfold msg_cond. cbn [fst]. rewrite slen_zlen, Hv, zlen_app. cbn [app]. rewrite zlen_cons.
      pose proof (zlen_nonneg ((f_len f ++ f_payload f) ++ fields_bytes fs)). lia. }
    destruct fuel; cbn [loop] in H; rewrite E in H; [discriminate|].
    change (msg_body (group_handler pbr) b (zlen pre, st)) with
      ('(id, n1) <- DecodeVarInt b (zlen pre) ;; '(n1, u) <- group_handler pbr id b n1 ;; Ok (n1, u st)) in H.
    assert (Hk : DecodeVarInt b (zlen pre) = Ok (8 * f_id f + 2, zlen (pre ++ [8 * f_id f + 2]))).
    { rewrite (decode_at b pre [8 * f_id f + 2] ((f_len f ++ f_payload f) ++ fields_bytes fs)).
      - cbn [leb_value]. rewrite Z.mod_small by lia. rewrite zlen_app. do 2 f_equal; lia.
      - exact Hv.
      - rewrite Hv in Hb. exact Hb.
      - exact Hl.
      - simpl. lia.
      - simpl. lia.
      - cbn [leb_value]. rewrite Z.mod_small by lia. lia. }
    rewrite Hk in H. cbn [bind] in H.
    destruct (group_handler pbr (8 * f_id f + 2) b (zlen (pre ++ [8 * f_id f + 2]))) as [[n2 u]|p|] eqn:Eh;
      cbn [bind] in H; try discriminate.
    eapply (group_step pbr b (pre ++ [8 * f_id f + 2]) f (fields_bytes fs)) in Eh; try assumption;
      [|rewrite Hv, <- !app_assoc; cbn [app]; rewrite <- ?app_assoc; reflexivity].
    destruct Eh as [-> Hu]. apply raw_spec_cons with (st1 := u st); [apply Hu|].
    rewrite <- zlen_app in H. eapply IH; [split; assumption| |exact H].
    rewrite Hv. cbn [app]. rewrite <- !app_assoc. reflexivity.
Qed.

(** what is written *)
Definition canon (id : Z) (p : list Z) : field := mkField id (venc (u64 (zlen p))) p.
Definition fixedf (n : nat) (id : Z) (p : list Z) : field := mkField id (leb_fixed n (zlen p)) p.
Lemma canon_bytes id p : 1 <= id < 16 -> id_buffer id p = field_bytes (canon id p).
Proof.
  intros H. unfold id_buffer, field_bytes, canon. cbn [f_id f_len f_payload]. rewrite key_at by assumption.
  unfold venc at 1, EncodeVarInt. replace (8 * id + 2 <? Z.shiftl 1 7) with true by (change (Z.shiftl 1 7) with 128; lia).
  cbn [app]. rewrite u8_id by (unfold is_u8; lia). reflexivity.
Qed.
Lemma fixedf_bytes n id p : 1 <= id < 16 -> fixed_field n id p = field_bytes (fixedf n id p).
Proof.
  intros H. unfold fixed_field, field_bytes, fixedf. cbn [f_id f_len f_payload]. rewrite key_at by assumption.
  unfold venc at 1, EncodeVarInt. replace (8 * id + 2 <? Z.shiftl 1 7) with true by (change (Z.shiftl 1 7) with 128; lia).
  cbn [app]. rewrite u8_id by (unfold is_u8; lia). reflexivity.
Qed.
Definition dense_fs (g : PrimitiveGroup) : list field :=
  match pg_Dense g with
  | Some d => [fixedf 4 2 (dense_enc d)]
  | None => match pg_RawDense g with Some raw => [canon 2 raw] | None => [] end
  end.
Definition ways_fs (g : PrimitiveGroup) : list field :=
  match pg_Ways g with
  | Some ws => map (fun w => fixedf 2 3 (way_enc w)) ws
  | None => map (canon 3) (pg_RawWays g)
  end.
Definition rels_fs (g : PrimitiveGroup) : list field :=
  match pg_Relations g with
  | Some rs => map (fun r => fixedf 3 4 (relation_enc r)) rs
  | None => map (canon 4) (pg_RawRelations g)
  end.
Definition group_fs (g : PrimitiveGroup) := dense_fs g ++ ways_fs g ++ rels_fs g.

Lemma concat_map_map {A B} (e : B -> list Z) (g : A -> B) l :
  concat (map e (map g l)) = concat (map (fun a => e (g a)) l).
Proof. rewrite map_map. reflexivity. Qed.
Lemma group_fs_bytes g : group_enc g = fields_bytes (group_fs g).
Proof.
  unfold group_enc, group_fs, fields_bytes. rewrite !map_app, !concat_app.
  f_equal; [|f_equal].
  - unfold dense_part, dense_fs. destruct (pg_Dense g); [|destruct (pg_RawDense g)];
      cbn [map concat]; rewrite ?app_nil_r; [| |reflexivity].
    + apply fixedf_bytes; unfold primitiveGroupDenseNodes; lia.
    + apply canon_bytes; unfold primitiveGroupDenseNodes; lia.
  - unfold ways_part, ways_fs. destruct (pg_Ways g); rewrite map_map; f_equal.
  - unfold rels_part, rels_fs. destruct (pg_Relations g); rewrite map_map; f_equal.
Qed.
Lemma fs_len_le fs f : In f fs -> zlen (f_payload f) <= zlen (fields_bytes fs).
Proof.
  intros H. pose proof (concat_le field_bytes fs f H) as L. unfold fields_bytes.
  unfold field_bytes at 1 in L. rewrite zlen_cons, zlen_app in L.
  pose proof (zlen_nonneg (f_len f)). lia.
Qed.
Lemma group_fs_wf g : group_fits g -> zlen (group_enc g) < 2^63 -> fields_wf (group_fs g).
Proof.
  intros (F1 & F2 & F3) Hl.
  assert (Hid : Forall (fun f => 1 <= f_id f < 16) (group_fs g)).
  { unfold group_fs, dense_fs, ways_fs, rels_fs. rewrite !Forall_app. repeat split.
    - destruct (pg_Dense g); [|destruct (pg_RawDense g)]; repeat constructor; cbn; lia.
    - destruct (pg_Ways g); apply Forall_map, Forall_forall; intros; cbn; lia.
    - destruct (pg_Relations g); apply Forall_map, Forall_forall; intros; cbn; lia. }
  split; [|exact Hid].
  assert (Hc : forall id p, In (canon id p) (group_fs g) -> field_wf (canon id p)).
  { intros id p Hin. apply len_prefix_venc. rewrite group_fs_bytes in Hl.
    pose proof (fs_len_le _ _ Hin) as L. unfold canon in L. cbn [f_payload] in L.
    eapply Z.le_lt_trans; [exact L|exact Hl]. }
  apply Forall_forall. intros f Hin. pose proof Hin as Hin0. unfold group_fs in Hin. rewrite !in_app_iff in Hin.
  destruct Hin as [Hin|[Hin|Hin]].
  - unfold dense_fs in Hin. destruct (pg_Dense g) as [d|].
    + destruct Hin as [<-|[]]. apply len_prefix_fixed4, F1. reflexivity.
    + destruct (pg_RawDense g); [|contradiction]. destruct Hin as [<-|[]]. apply Hc, Hin0.
  - unfold ways_fs in Hin. destruct (pg_Ways g) as [ws|]; apply in_map_iff in Hin as (w & <- & Hw).
    + specialize (F2 ws eq_refl). eapply Forall_forall in F2; [|exact Hw]. apply len_prefix_fixed2, F2.
    + apply Hc, Hin0.
  - unfold rels_fs in Hin. destruct (pg_Relations g) as [ws|]; apply in_map_iff in Hin as (w & <- & Hw).
    + specialize (F3 ws eq_refl). eapply Forall_forall in F3; [|exact Hw]. apply len_prefix_fixed3, F3.
    + apply Hc, Hin0.
Qed.

Lemma payloads_app id l1 l2 : payloads id (l1 ++ l2) = payloads id l1 ++ payloads id l2.
Proof. unfold payloads. rewrite filter_app, map_app. reflexivity. Qed.
Lemma payloads_all id {A} (g : A -> field) l : (forall a, f_id (g a) = id) ->
  payloads id (map g l) = map (fun a => f_payload (g a)) l.
Proof.
  intros H. induction l as [|a l IH]; [reflexivity|]. cbn [map]. rewrite payloads_cons, H, Z.eqb_refl, IH. reflexivity.
Qed.
Lemma payloads_none id fs : Forall (fun f => f_id f <> id) fs -> payloads id fs = [].
Proof.
  induction fs as [|f fs IH]; intros H; [reflexivity|]. apply Forall_cons_iff in H as [Hf H].
  rewrite payloads_cons. destruct (Z.eqb_spec (f_id f) id); [contradiction|]. auto.
Qed.
Lemma dense_fs_id g : Forall (fun f => f_id f = 2) (dense_fs g).
Proof. unfold dense_fs. destruct (pg_Dense g); [|destruct (pg_RawDense g)]; repeat constructor. Qed.
Lemma ways_fs_id g : Forall (fun f => f_id f = 3) (ways_fs g).
Proof. unfold ways_fs. destruct (pg_Ways g); apply Forall_map, Forall_forall; reflexivity. Qed.
Lemma rels_fs_id g : Forall (fun f => f_id f = 4) (rels_fs g).
Proof. unfold rels_fs. destruct (pg_Relations g); apply Forall_map, Forall_forall; reflexivity. Qed.
Lemma other_id k k' fs : Forall (fun f => f_id f = k) fs -> k <> k' -> payloads k' fs = [].
Proof.
  intros H Hk. apply payloads_none. eapply Forall_impl; [|exact H]. cbn. intros f ->. exact Hk.
Qed.

Lemma group_raw pbr fs e g out :
  fields_wf fs -> bytes (fields_bytes fs) -> zlen (fields_bytes fs) < 2^63 ->
  ReadPrimitiveGroup pbr (mkslice (fields_bytes fs) e) PrimitiveGroup0 = Ok g ->
  PrimitiveGroup_Write g [] = Ok out -> zlen out < 2^63 ->
  exists fs', out = fields_bytes fs' /\ fields_wf fs' /\ raw_preserved pbr fs fs'.
Proof.
  intros W Hb Hl Hr Hw Hlo. apply PrimitiveGroup_Write_app in Hw as [F ->]. cbn [app] in *.
  exists (group_fs g). split; [apply group_fs_bytes|]. split; [apply group_fs_wf; assumption|].
  unfold ReadPrimitiveGroup, read_msg, read_fuel in Hr.
  destruct (loop _ _ _ _) as [[n st]|p|] eqn:E; cbn [bind] in Hr; try discriminate. injection Hr as ->.
  apply (group_fields_loop pbr (mkslice (fields_bytes fs) e) Hb Hl fs _ [] _ _ _ W eq_refl) in E.
  destruct E as (R1 & R2 & R3). unfold raw_preserved, last_payload, group_fs.
  rewrite !payloads_app.
  rewrite (other_id 3 2 (ways_fs g) (ways_fs_id g)), (other_id 4 2 (rels_fs g) (rels_fs_id g)) by lia.
  rewrite (other_id 2 3 (dense_fs g) (dense_fs_id g)), (other_id 4 3 (rels_fs g) (rels_fs_id g)) by lia.
  rewrite (other_id 2 4 (dense_fs g) (dense_fs_id g)), (other_id 3 4 (ways_fs g) (ways_fs_id g)) by lia.
  rewrite !app_nil_r. cbn [app].
  split; [|split].
  - intros Es. rewrite Es in R1. destruct R1 as [R1 R1']. unfold dense_fs. rewrite R1', R1. cbn.
    unfold last_payload. destruct (last_of (payloads 2 fs)) as [x|]; reflexivity.
  - intros Es. rewrite Es in R2. destruct R2 as [R2 R2']. unfold ways_fs. rewrite R2', R2.
    cbn [PrimitiveGroup0 pg_Ways pg_RawWays app]. rewrite payloads_all by reflexivity. apply map_id.
  - intros Es. rewrite Es in R3. destruct R3 as [R3 R3']. unfold rels_fs. rewrite R3', R3.
    cbn [PrimitiveGroup0 pg_Relations pg_RawRelations app]. rewrite payloads_all by reflexivity. apply map_id.
Qed.

(** ** blocks *)
Definition braw_spec (pbr : PBReader) (l : list bitem) (st st' : PrimitiveBlock) : Prop :=
  (if SkipStringTable pbr
   then pblk_StringTableRaw st' = opt_or (last_payload 1 (bfields l)) (pblk_StringTableRaw st) /\
        pblk_StringTable st' = pblk_StringTable st
   else pblk_StringTableRaw st' = pblk_StringTableRaw st) /\
  exists gs, pblk_PrimitiveGroup st' = pblk_PrimitiveGroup st ++ gs /\
    Forall2 (fun p g => exists e, ReadPrimitiveGroup pbr (mkslice p e) PrimitiveGroup0 = Ok g)
            (payloads 2 (bfields l)) gs.
Lemma braw_nil pbr st : braw_spec pbr [] st st.
Proof.
  split; [destruct (SkipStringTable pbr); auto|]. exists []. rewrite app_nil_r. split; [reflexivity|constructor].
Qed.
Lemma bfields_cons i l : bfields (i :: l) = match i with BF f => f :: bfields l | BV _ _ => bfields l end.
Proof. destruct i; reflexivity. Qed.
Lemma braw_cons pbr i l st st1 st2 :
  braw_spec pbr [i] st st1 -> braw_spec pbr l st1 st2 -> braw_spec pbr (i :: l) st st2.
Proof.
  unfold braw_spec, last_payload. rewrite !bfields_cons.
  intros (A & ga & A1 & A2) (B & gb & B1 & B2).
  split.
  - destruct (SkipStringTable pbr); [|congruence]. destruct A as [A3 A4], B as [B3 B4].
    split; [|congruence]. rewrite B3, A3. destruct i as [f|]; [|reflexivity].
    rewrite !payloads_cons. change (payloads 1 (bfields [])) with (@nil (list Z)).
    destruct (f_id f =? 1); [|reflexivity]. rewrite !last_of_cons. cbn.
    destruct (last_of (payloads 1 (bfields l))); reflexivity.
  - exists (ga ++ gb). split; [rewrite B1, A1, <- app_assoc; reflexivity|].
    replace (payloads 2 match i with BF f => f :: bfields l | BV _ _ => bfields l end) with
      (payloads 2 match i with BF f => f :: bfields [] | BV _ _ => bfields [] end ++ payloads 2 (bfields l)).
    + apply Forall2_app; assumption.
    + destruct i as [f|]; [|reflexivity]. rewrite !payloads_cons. destruct (f_id f =? 2); reflexivity.
Qed.

Definition bkey (i : bitem) : list Z :=
  match i with BF f => [8 * f_id f + 2] | BV id _ => [(8 * id) mod 128 + 128; (8 * id) / 128] end.
Definition bbody (i : bitem) : list Z :=
  match i with BF f => f_len f ++ f_payload f | BV _ v => v end.
Definition bid (i : bitem) : Z := match i with BF f => 8 * f_id f + 2 | BV id _ => 8 * id end.
Lemma bitem_split i : bitem_bytes i = bkey i ++ bbody i.
Proof. destruct i; reflexivity. Qed.
Lemma bkey_varint i : bitem_wf i ->
  is_varint (bkey i) /\ (List.length (bkey i) <= 2)%nat /\ leb_value (bkey i) = bid i.
Proof.
  destruct i as [f|id v]; intros H; cbn [bkey bid].
  - destruct H as [_ H]. cbn [is_varint leb_value List.length]. rewrite Z.mod_small by lia. lia.
  - destruct H as [H _].
    pose proof (Z.mod_pos_bound (8 * id) 128 ltac:(lia)).
    assert (0 <= (8 * id) / 128 < 128).
    { split; [apply Z.div_pos; lia|]. apply Z.div_lt_upper_bound; lia. }
    cbn [is_varint leb_value List.length].
    assert (E : ((8 * id) mod 128 + 128) mod 128 = (8 * id) mod 128).
    { replace ((8 * id) mod 128 + 128) with ((8 * id) mod 128 + 1 * 128) by lia.
      rewrite Z.mod_add, Z.mod_mod by lia. reflexivity. }
    rewrite E, (Z.mod_small ((8 * id) / 128)) by lia.
    pose proof (Z.div_mod (8 * id) 128 ltac:(lia)). lia.
Qed.

Lemma block_keys : MakeIdType primitiveBlockStringTable PbFixedBytes = 10 /\
  MakeIdType primitiveBlockPrimitiveGroup PbFixedBytes = 18 /\
  MakeIdType primitiveBlockGranularity PbVarInt = 136 /\ MakeIdType primitiveBlockDateGranularity PbVarInt = 144 /\
  MakeIdType primitiveBlockLatOffset PbVarInt = 152 /\ MakeIdType primitiveBlockLonOffset PbVarInt = 160.
Proof. repeat split. Qed.

Lemma block_step pbr b pre i post n' u :
  bitem_wf i ->
  vis b = pre ++ bbody i ++ post -> bytes (vis b) -> slen b < 2^63 ->
  block_handler pbr (bid i) b (zlen pre) = Ok (n', u) ->
  n' = zlen pre + zlen (bbody i) /\ forall st, braw_spec pbr [i] st (u st).
Proof.
  intros W Hv Hb Hl H. unfold block_handler in H.
  destruct block_keys as (K1 & K2 & K3 & K4 & K5 & K6). rewrite K1, K2, K3, K4, K5, K6 in H.
  destruct i as [f|id v]; cbn [bid bbody] in *.
  - destruct W as [Hf Hid]. apply field_len in Hf.
    rewrite (DecodeBytes_at b pre (f_len f) (f_payload f) post Hv Hb Hl Hf) in H.
    cbn [bind] in H. unfold braw_spec, last_payload. cbn [bfields map concat app].
    rewrite !payloads_cons. change (payloads ?k []) with (@nil (list Z)).
    destruct (Z.eqb_spec (8 * f_id f + 2) 10) as [E|E].
    { assert (f_id f = 1) by lia. rewrite H0 in *. cbn [Z.eqb Pos.eqb].
      change (1 =? 2) with false. change (1 =? 1) with true. cbv iota.
      destruct (SkipStringTable pbr).
      - injection H as <- <-. split; [reflexivity|]. intros st. cbn. split; [auto|]. exists []. rewrite app_nil_r. auto.
      - match type of H with (bind ?x _) = _ => destruct x; cbn [bind] in H; try discriminate end.
        injection H as <- <-. split; [reflexivity|]. intros st. cbn. split; [auto|]. exists []. rewrite app_nil_r. auto. }
    destruct (Z.eqb_spec (8 * f_id f + 2) 18) as [E2|E2].
    { assert (f_id f = 2) by lia. rewrite H0 in *.
      change (2 =? 2) with true. change (2 =? 1) with false. cbv iota.
      match type of H with (bind ?x _) = _ => destruct x as [g|?|] eqn:Eg; cbn [bind] in H; try discriminate end.
      injection H as <- <-. split; [reflexivity|]. intros st. cbn. split; [destruct (SkipStringTable pbr); auto|].
      exists [g]. split; [reflexivity|]. constructor; [eauto|constructor]. }
    destruct (Z.eqb_spec (8 * f_id f + 2) 136) as [?|?]; [lia|].
    destruct (Z.eqb_spec (8 * f_id f + 2) 144) as [?|?]; [lia|].
    destruct (Z.eqb_spec (8 * f_id f + 2) 152) as [?|?]; [lia|].
    destruct (Z.eqb_spec (8 * f_id f + 2) 160) as [?|?]; [lia|]. discriminate.
  - destruct W as (Hid & Wv & Wl).
    assert (Hd : forall w m, DecodeVarInt b (zlen pre) = Ok (w, m) -> m = zlen pre + zlen v).
    { intros w m Hd. rewrite DecodeVarInt_scan in Hd by (try assumption; apply zlen_nonneg).
      rewrite Hv in Hd. unfold zlen in Hd at 2. rewrite Nat2Z.id, skipn_app, skipn_all, Nat.sub_diag in Hd.
      cbn [skipn app] in Hd.
      destruct (scan 9 (v ++ post)) as [bs| |] eqn:Es; cbn [wrap_scan] in Hd; try discriminate.
      injection Hd as _ <-. apply scan_got in Es.
      - destruct Es as (post' & E1 & E2 & _).
        assert (bs = v); [|subst; lia].
        clear -E1 E2 Wv. revert v Wv E1. induction bs as [|x bs IH]; intros v Wv E1; [contradiction|].
        destruct v as [|y v]; [contradiction|]. injection E1 as <- E1.
        destruct bs as [|x2 bs], v as [|y2 v].
        + reflexivity.
        + cbn [is_varint] in *. lia.
        + cbn [is_varint] in *. lia.
        + f_equal. apply IH; [apply E2|apply Wv|exact E1].
      - rewrite Hv, !bytes_app in Hb. apply bytes_app. tauto. }
    unfold DecodeI32, DecodeI64 in H.
    destruct (Z.eqb_spec (8 * id) 10) as [?|_]; [lia|].
    destruct (Z.eqb_spec (8 * id) 18) as [?|_]; [lia|].
    destruct (8 * id =? 136); [|destruct (8 * id =? 144); [|destruct (8 * id =? 152); [|destruct (8 * id =? 160); [|discriminate]]]].
    all: destruct (DecodeVarInt b (zlen pre)) as [[w m]|p|]; cbn [bind] in H; try discriminate;
      injection H as <- <-; (split; [eapply Hd; reflexivity|]); intros st; split; cbn;
      [destruct (SkipStringTable pbr); auto|exists []; rewrite app_nil_r; split; [reflexivity|constructor]].
Qed.

Lemma block_items_loop pbr b : bytes (vis b) -> slen b < 2^63 ->
  forall l fuel pre st n' st', Forall bitem_wf l ->
  vis b = pre ++ block_bytes_of l ->
  loop fuel (msg_cond b) (msg_body (block_handler pbr) b) (zlen pre, st) = Ok (n', st') ->
  braw_spec pbr l st st'.
Proof.
  intros Hb Hl. induction l as [|i l IH]; intros fuel pre st n' st' W Hv H.
  - unfold block_bytes_of in Hv. cbn in Hv. rewrite app_nil_r in Hv.
    assert (E : msg_cond b (zlen pre, st) = false).
    { unfold msg_cond. cbn [fst]. rewrite slen_zlen, Hv. lia. }
    destruct fuel; cbn [loop] in H; rewrite E in H; injection H as <- <-; apply braw_nil.
  - apply Forall_cons_iff in W as [Wi W].
    unfold block_bytes_of in Hv. cbn [map concat] in Hv. fold (block_bytes_of l) in Hv.
    rewrite bitem_split, <- app_assoc in Hv.
    destruct (bkey_varint i Wi) as (V1 & V2 & V3).
    assert (Hlen : slen b = zlen pre + (zlen (bkey i) + (zlen (bbody i) + zlen (block_bytes_of l))))
      by (rewrite slen_zlen, Hv, !zlen_app; lia).
    pose proof (zlen_nonneg (bbody i)). pose proof (zlen_nonneg (block_bytes_of l)).
    assert (1 <= zlen (bkey i)) by (destruct i; cbn [bkey]; rewrite ?zlen_cons; unfold zlen; cbn; lia).
    assert (E : msg_cond b (zlen pre, st) = true) by (unfold msg_cond; cbn [fst]; lia).
    destruct fuel; cbn [loop] in H; rewrite E in H; [discriminate|].
    change (msg_body (block_handler pbr) b (zlen pre, st)) with
      ('(id, n1) <- DecodeVarInt b (zlen pre) ;; '(n1, u) <- block_handler pbr id b n1 ;; Ok (n1, u st)) in H.
    assert (Hbid : bid i < 2^64) by (destruct i as [f|id v]; cbn [bitem_wf bid] in *; lia).
    rewrite (decode_at b pre (bkey i) (bbody i ++ block_bytes_of l)) in H; try assumption;
      [|rewrite <- Hv; assumption|lia|rewrite V3; exact Hbid].
    cbn [bind] in H. rewrite V3, <- zlen_app in H.
    destruct (block_handler pbr (bid i) b (zlen (pre ++ bkey i))) as [[n2 u]|p|] eqn:Eh;
      cbn [bind] in H; try discriminate.
    eapply (block_step pbr b (pre ++ bkey i) i (block_bytes_of l)) in Eh; try assumption;
      [|rewrite Hv, <- !app_assoc; reflexivity].
    destruct Eh as [-> Hu]. apply braw_cons with (st1 := u st); [apply Hu|].
    rewrite <- zlen_app in H. eapply IH; [assumption| |exact H].
    rewrite Hv, <- !app_assoc. reflexivity.
Qed.

(** what is written *)
Definition st_bi (p : PrimitiveBlock) : list bitem :=
  match pblk_StringTable p with
  | Some st => [BF (fixedf 4 1 (st_enc st))]
  | None => match pblk_StringTableRaw p with Some raw => [BF (canon 1 raw)] | None => [] end
  end.
Definition ov_bi (dflt id v : Z) : list bitem :=
  if negb (v =? dflt) then [BV id (venc (u64 v))] else [].
Definition block_bi (p : PrimitiveBlock) : list bitem :=
  st_bi p ++ map (fun g => BF (fixedf 4 2 (group_enc g))) (pblk_PrimitiveGroup p) ++
  ov_bi 100 17 (pblk_Granularity p) ++ ov_bi 1000 18 (pblk_DateGranularity p) ++
  ov_bi 0 19 (pblk_LatOffset p) ++ ov_bi 0 20 (pblk_LonOffset p).
Lemma ov_bytes dflt id v : 17 <= id <= 20 ->
  opt_varint dflt id v = block_bytes_of (ov_bi dflt id v).
Proof.
  intros H. unfold opt_varint, ov_bi, block_bytes_of. destruct (negb (v =? dflt)); [|reflexivity].
  cbn [map concat bitem_bytes]. rewrite app_nil_r.
  assert (id = 17 \/ id = 18 \/ id = 19 \/ id = 20) as E by lia.
  repeat (destruct E as [->|E]; [reflexivity|]). subst. reflexivity.
Qed.
Lemma block_bytes_app l1 l2 : block_bytes_of (l1 ++ l2) = block_bytes_of l1 ++ block_bytes_of l2.
Proof. unfold block_bytes_of. rewrite map_app, concat_app. reflexivity. Qed.
Lemma block_bi_bytes p : block_enc p = block_bytes_of (block_bi p).
Proof.
  unfold block_enc, block_bi. rewrite !block_bytes_app, <- !ov_bytes by lia.
  f_equal; [|f_equal].
  - unfold st_part, st_bi. destruct (pblk_StringTable p); [|destruct (pblk_StringTableRaw p); [|reflexivity]];
      unfold block_bytes_of; cbn [map concat bitem_bytes]; rewrite app_nil_r.
    + apply fixedf_bytes; unfold primitiveBlockStringTable; lia.
    + apply canon_bytes; unfold primitiveBlockStringTable; lia.
  - unfold block_bytes_of. rewrite map_map. reflexivity.
Qed.
Lemma bi_len_le l f : In (BF f) l -> zlen (f_payload f) <= zlen (block_bytes_of l).
Proof.
  intros H. pose proof (concat_le bitem_bytes l (BF f) H) as L. unfold block_bytes_of.
  cbn [bitem_bytes] in L. unfold field_bytes at 1 in L. rewrite zlen_cons, zlen_app in L.
  pose proof (zlen_nonneg (f_len f)). lia.
Qed.
Lemma ov_wf d id v : 17 <= id <= 20 -> Forall bitem_wf (ov_bi d id v).
Proof.
  intros H. unfold ov_bi. destruct (negb _); [|constructor]. constructor; [|constructor].
  pose proof (venc_length (u64 v) (u64_range v)). cbn [bitem_wf]. split; [lia|]. split; [|lia].
  apply venc_varint, u64_range.
Qed.
Lemma block_bi_wf p : block_fits p -> zlen (block_enc p) < 2^63 -> Forall bitem_wf (block_bi p).
Proof.
  intros (F1 & F2) Hl. unfold block_bi. rewrite !Forall_app.
  split; [|split; [|repeat split; apply ov_wf; lia]].
  - unfold st_bi. destruct (pblk_StringTable p) as [st|] eqn:E.
    + constructor; [|constructor]. split; [|cbn; lia]. apply len_prefix_fixed4, F1. reflexivity.
    + destruct (pblk_StringTableRaw p) as [raw|] eqn:E2; [|constructor].
      constructor; [|constructor]. split; [|cbn; lia]. apply len_prefix_venc.
      rewrite block_bi_bytes in Hl. pose proof (bi_len_le (block_bi p) (canon 1 raw)) as L.
      cbn [canon f_payload] in L. enough (In (BF (canon 1 raw)) (block_bi p)) as Hin by (eapply Z.le_lt_trans; [exact (L Hin)|exact Hl]).
      unfold block_bi, st_bi. rewrite E, E2. left. reflexivity.
  - apply Forall_map, Forall_forall. intros g Hg. eapply Forall_forall in F2 as [_ F]; [|exact Hg].
    split; [|cbn; lia]. apply len_prefix_fixed4, F.
Qed.
Lemma bfields_app l1 l2 : bfields (l1 ++ l2) = bfields l1 ++ bfields l2.
Proof. unfold bfields. rewrite map_app, concat_app. reflexivity. Qed.
Lemma bfields_ov d id v : bfields (ov_bi d id v) = [].
Proof. unfold ov_bi. destruct (negb _); reflexivity. Qed.
Lemma bfields_map {A} (g : A -> field) l : bfields (map (fun a => BF (g a)) l) = map g l.
Proof. induction l; [reflexivity|]. cbn [map]. rewrite bfields_cons, IHl. reflexivity. Qed.
Lemma block_bi_fields p : bfields (block_bi p) =
  bfields (st_bi p) ++ map (fun g => fixedf 4 2 (group_enc g)) (pblk_PrimitiveGroup p).
Proof.
  unfold block_bi. rewrite !bfields_app, !bfields_ov, bfields_map, !app_nil_r. reflexivity.
Qed.
Lemma st_bi_id p : Forall (fun f => f_id f = 1) (bfields (st_bi p)).
Proof.
  unfold st_bi. destruct (pblk_StringTable p); [|destruct (pblk_StringTableRaw p)]; repeat constructor.
Qed.

Lemma block_raw pbr l e p out :
  Forall bitem_wf l -> bytes (block_bytes_of l) -> zlen (block_bytes_of l) < 2^63 ->
  ReadPrimitiveBlock pbr (mkslice (block_bytes_of l) e) PrimitiveBlock0 = Ok p ->
  PrimitiveBlock_Write p [] = Ok out -> zlen out < 2^63 ->
  exists l', out = block_bytes_of l' /\ Forall bitem_wf l' /\
    (SkipStringTable pbr = true -> last_payload 1 (bfields l') = last_payload 1 (bfields l)) /\
    Forall2 (fun q q' => forall fs, q = fields_bytes fs -> fields_wf fs ->
       exists fs', q' = fields_bytes fs' /\ fields_wf fs' /\ raw_preserved pbr fs fs')
      (payloads 2 (bfields l)) (payloads 2 (bfields l')).
Proof.
  intros W Hb Hl Hr Hw Hlo. apply PrimitiveBlock_Write_app in Hw as [F ->]. cbn [app] in *.
  exists (block_bi p). split; [apply block_bi_bytes|]. split; [apply block_bi_wf; assumption|].
  unfold ReadPrimitiveBlock, read_msg, read_fuel in Hr.
  destruct (loop _ _ _ _) as [[n st]|q|] eqn:E; cbn [bind] in Hr; try discriminate. injection Hr as ->.
  apply (block_items_loop pbr (mkslice (block_bytes_of l) e) Hb Hl l _ [] _ _ _ W eq_refl) in E.
  destruct E as (R1 & gs & R2 & R3). cbn in R1, R2. unfold last_payload. rewrite block_bi_fields, !payloads_app.
  split.
  - intros Es. rewrite Es in R1. destruct R1 as [R1 R1'].
    rewrite (other_id 2 1 (map _ _)) by (try lia; apply Forall_map, Forall_forall; reflexivity).
    rewrite app_nil_r. unfold st_bi. rewrite R1', R1. unfold last_payload, opt_or.
    destruct (last_of (payloads 1 (bfields l))); reflexivity.
  - rewrite (other_id 1 2 (bfields (st_bi p)) (st_bi_id p)) by lia. cbn [app].
    rewrite payloads_all by reflexivity. rewrite R2. cbn [f_payload fixedf].
    destruct F as [_ F]. rewrite R2 in F.
    assert (Hpl : Forall (fun q => bytes q /\ zlen q < 2^63) (payloads 2 (bfields l))).
    { apply Forall_forall. intros q Hq. unfold payloads in Hq. apply in_map_iff in Hq as (f & <- & Hf).
      apply filter_In in Hf as [Hf _].
      assert (Hin : In (BF f) l).
      { unfold bfields in Hf. apply in_concat in Hf as (x & Hx & Hf). apply in_map_iff in Hx as (i & <- & Hi).
        destruct i as [f'|]; [|contradiction]. destruct Hf as [->|[]]. exact Hi. }
      split; [|pose proof (bi_len_le l f Hin); lia].
      assert (Hbb : bytes (bitem_bytes (BF f))).
      { unfold block_bytes_of in Hb. apply Forall_forall. intros x Hx.
        unfold bytes in Hb. rewrite Forall_forall in Hb. apply Hb. apply in_concat.
        exists (bitem_bytes (BF f)). split; [apply in_map; exact Hin|exact Hx]. }
      cbn [bitem_bytes] in Hbb. unfold field_bytes in Hbb. apply bytes_cons in Hbb as [_ Hbb].
      apply bytes_app in Hbb. tauto. }
    revert R3 F Hpl. clear. intros R3. induction R3 as [|q g qs gs [e He] R IH]; intros F Hpl; [constructor|].
    apply Forall_cons_iff in F as [[Fg Fl] F]. apply Forall_cons_iff in Hpl as [[Pb Pl] Hpl].
    cbn [map]. constructor; [|apply IH; assumption].
    intros fs -> Wf. eapply group_raw; [exact Wf|exact Pb|exact Pl|exact He| |lia].
    apply PrimitiveGroup_Write_app. split; [exact Fg|reflexivity].
Qed.
