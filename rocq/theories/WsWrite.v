(** * WsWrite: the writers produce messages of the schema. *)
From Verif Require Import Base BaseLemmas PbModel PbSpec PbProofs PbProofs2 PbThms TModel TSpec TProofs TMsg TMsg2 T2Raw WsSpec WsProofs WsRead.

Lemma msg_nil : message [] [].
Proof. split; [reflexivity|constructor]. Qed.
Lemma msg_app p q fs gs : message p fs -> message q gs -> message (p ++ q) (fs ++ gs).
Proof. intros [-> A] [-> B]. split; [rewrite map_app, concat_app; reflexivity|apply Forall_app; split; assumption]. Qed.
Definition fV (n v : Z) : pbfield := PV n (venc (8 * n + 0)) (venc v).
Definition fB (n : Z) (L p : list Z) : pbfield := PB n (venc (8 * n + 2)) L p.
Lemma msg_fV n v : 1 <= n < 2^29 -> is_u64 v -> message (venc (8 * n + 0) ++ venc v) [fV n v].
Proof.
  intros Hn Hv. split; [cbn; rewrite app_nil_r; reflexivity|]. constructor; [|constructor]. split; [exact Hn|].
  split; [apply vof_venc; unfold is_u64; lia|]. rewrite venc_value by exact Hv. apply vof_venc, Hv.
Qed.
Lemma msg_fB n L p : 1 <= n < 2^29 -> bytes p -> zlen p < 2^64 -> len_prefix L p -> message (venc (8 * n + 2) ++ L ++ p) [fB n L p].
Proof.
  intros Hn Hb Hp HL. split; [cbn; rewrite app_nil_r; reflexivity|]. constructor; [|constructor]. split; [exact Hn|].
  split; [apply vof_venc; unfold is_u64; lia|]. split; [apply vof_lenprefix; assumption|exact Hb].
Qed.
Lemma lp_pow n : (n <= 3)%nat -> 128 ^ Z.of_nat (S n) < 2^64.
Proof. intros H. do 4 (destruct n as [|n]; [reflexivity|]). lia. Qed.
(** fields as the writers put them *)
Lemma msg_fixed n id p : 1 <= id <= 20 -> (n <= 3)%nat -> zlen p < 128 ^ Z.of_nat (S n) -> bytes p ->
  message (fixed_field (S n) id p) [fB id (leb_fixed (S n) (zlen p)) p].
Proof.
  intros Hi Hn Hl Hb. unfold fixed_field. replace (MakeIdType id PbFixedBytes) with (8 * id + 2).
  - apply msg_fB; [lia|exact Hb|pose proof (lp_pow n Hn); lia|apply len_prefix_fixed; [lia|exact Hl]].
  - assert (H : In id [1;2;3;4;5;6;7;8;9;10;11;12;13;14;15;16;17;18;19;20]) by (cbn; lia).
    repeat (destruct H as [<-|H]; [reflexivity|]). destruct H.
Qed.
Lemma key_v id : 1 <= id <= 20 -> MakeIdType id PbVarInt = 8 * id + 0.
Proof.
  intros Hi. assert (H : In id [1;2;3;4;5;6;7;8;9;10;11;12;13;14;15;16;17;18;19;20]) by (cbn; lia).
  repeat (destruct H as [<-|H]; [reflexivity|]). destruct H.
Qed.
Lemma key_b id : 1 <= id <= 20 -> MakeIdType id PbFixedBytes = 8 * id + 2.
Proof.
  intros Hi. assert (H : In id [1;2;3;4;5;6;7;8;9;10;11;12;13;14;15;16;17;18;19;20]) by (cbn; lia).
  repeat (destruct H as [<-|H]; [reflexivity|]). destruct H.
Qed.
Lemma msg_idbuf id p : 1 <= id <= 20 -> bytes p -> zlen p < 2^63 -> message (id_buffer id p) [fB id (venc (u64 (zlen p))) p].
Proof.
  intros Hi Hb Hl. unfold id_buffer. rewrite key_b by exact Hi. apply msg_fB; [lia|exact Hb|lia|]. apply len_prefix_venc. lia.
Qed.
Lemma msg_varint id v : 1 <= id <= 20 -> message (venc (MakeIdType id PbVarInt) ++ venc (u64 v)) [fV id (u64 v)].
Proof. intros Hi. rewrite key_v by exact Hi. apply msg_fV; [lia|apply u64_range]. Qed.

(** values *)
Lemma seq_vencs us : Forall is_u64 us -> sequence_of us (vencs us).
Proof.
  intros F. exists (map venc us). split; [reflexivity|]. induction F; [constructor|]. cbn [map]. constructor; [apply vof_venc; assumption|assumption].
Qed.
Lemma u64s l : Forall is_u64 (map u64 l).
Proof. apply Forall_forall. intros x H. apply in_map_iff in H as (y & <- & _). apply u64_range. Qed.
Lemma rep_w_u32 n fs l : Forall is_u32 l -> elements n fs = p_u64ext l -> repeated uint32_of n fs l.
Proof.
  intros F E. exists (map u64 l). rewrite E. split; [apply seq_vencs, u64s|]. clear E. induction F as [|x l H F IH]; [constructor|].
  cbn [map]. constructor; [|exact IH]. unfold uint32_of. unfold is_u32 in H. rewrite u64_id by (unfold is_u64; lia). rewrite Z.mod_small by lia. reflexivity.
Qed.
Lemma rep_w_i32 n fs l : Forall is_s32 l -> elements n fs = p_u64ext l -> repeated int32_of n fs l.
Proof.
  intros F E. exists (map u64 l). rewrite E. split; [apply seq_vencs, u64s|]. clear E. induction F as [|x l H F IH]; [constructor|].
  cbn [map]. constructor; [|exact IH]. split; [exact H|]. unfold u64. rewrite <- Znumtheory.Zmod_div_mod; [reflexivity|lia|lia|exists (2^32); reflexivity].
Qed.
Lemma rep_w_u64 n fs l : Forall is_u64 l -> elements n fs = vencs l -> repeated uint64_of n fs l.
Proof.
  intros F E. exists l. rewrite E. split; [apply seq_vencs, F|]. clear. induction l; constructor; [reflexivity|assumption].
Qed.
Lemma deltas_s64 : forall l last, Forall is_s64 (deltas s64 last l).
Proof. induction l as [|x l IH]; intros last; cbn [deltas]; constructor; [apply s64_range|apply IH]. Qed.
Lemma sums_deltas : forall l last, Forall is_s64 l -> sums last (deltas s64 last l) = l.
Proof.
  induction l as [|x l IH]; intros last F; [reflexivity|]. inversion F; subst. cbn [deltas sums].
  assert (E : s64 (last + s64 (x - last)) = x). { rewrite s64_add_r. replace (last + (x - last)) with x by lia. apply s64_id. assumption. }
  rewrite E, IH by assumption. reflexivity.
Qed.
Lemma delta_w n fs l : Forall is_s64 l -> elements n fs = p_delta l -> delta_coded n fs l.
Proof.
  intros F E. exists (map EncodeZigZag (deltas s64 0 l)), (deltas s64 0 l). rewrite E. destruct pC04_zigzag as (A & B & _).
  pose proof (deltas_s64 l 0) as D. split; [apply seq_vencs|split].
  - apply Forall_forall. intros u H. apply in_map_iff in H as (d & <- & H). rewrite Forall_forall in D. apply B, D, H.
  - induction D as [|d ds H D IH]; [constructor|]. cbn [map]. constructor; [|exact IH]. unfold sint64_of, zigzag. apply A, H.
  - symmetry. apply sums_deltas, F.
Qed.
Lemma int64_w x : is_s64 x -> int64_of (leb_value (venc (u64 x))) x.
Proof. intros H. rewrite venc_value by apply u64_range. split; [exact H|reflexivity]. Qed.
Lemma int32_w x : is_s32 x -> int32_of (leb_value (venc (u64 x))) x.
Proof.
  intros H. rewrite venc_value by apply u64_range. split; [exact H|]. unfold u64.
  rewrite <- Znumtheory.Zmod_div_mod; [reflexivity|lia|lia|exists (2^32); reflexivity].
Qed.

Ltac idr := split; vm_compute; congruence.
Ltac inl := lazy beta iota zeta delta [fV fB In]; first [left; reflexivity | right; inl].
Ltac occ := cbn [app]; repeat first [apply Forall_nil | apply Forall_cons; [first [solve [inl] | lazy -[Z.le venc leb_fixed p_u64ext p_delta vencs u64]; lia]|]].
(** ** Way, relation, dense nodes, strings *)
Lemma way_w w : way_typed w -> way_fits w -> way_msg (way_enc w) w.
Proof.
  intros (T1 & T2 & T3 & T4) (F1 & F2 & F3).
  eexists. split; [|split].
  - unfold way_enc. apply msg_app; [apply msg_varint; idr|]. apply msg_app; [apply (msg_fixed 1); [idr|lia|exact F1|apply p_u64ext_bytes]|].
    apply msg_app; [apply (msg_fixed 1); [idr|lia|exact F2|apply p_u64ext_bytes]|]. apply (msg_fixed 1); [idr|lia|exact F3|apply p_delta_bytes].
  - split; [occ|occ].
  - split; [|split; [|split]].
    + cbn. apply int64_w, T1.
    + apply rep_w_u32; [exact T2|]. cbn. rewrite ?app_nil_r. reflexivity.
    + apply rep_w_u32; [exact T3|]. cbn. rewrite ?app_nil_r. reflexivity.
    + apply delta_w; [exact T4|]. cbn. rewrite ?app_nil_r. reflexivity.
Qed.
Lemma relation_w r : relation_typed r -> relation_fits r -> relation_msg (relation_enc r) r.
Proof.
  intros (T1 & T2 & T3 & T4 & T5 & T6) (F1 & F2 & F3 & F4 & F5).
  eexists. split; [|split].
  - unfold relation_enc. apply msg_app; [apply msg_varint; idr|]. apply msg_app; [apply (msg_fixed 1); [idr|lia|exact F1|apply p_u64ext_bytes]|].
    apply msg_app; [apply (msg_fixed 1); [idr|lia|exact F2|apply p_u64ext_bytes]|].
    apply msg_app; [apply (msg_fixed 2); [idr|lia|exact F3|apply p_u64ext_bytes]|].
    apply msg_app; [apply (msg_fixed 2); [idr|lia|exact F4|apply p_delta_bytes]|].
    apply (msg_fixed 2); [idr|lia|exact F5|]. apply (seq_bytes _ _ (seq_vencs _ T6)).
  - split; [occ|occ].
  - split; [|split; [|split; [|split; [|split]]]].
    + cbn. apply int64_w, T1.
    + apply rep_w_u32; [exact T2|]. cbn. rewrite ?app_nil_r. reflexivity.
    + apply rep_w_u32; [exact T3|]. cbn. rewrite ?app_nil_r. reflexivity.
    + apply rep_w_i32; [exact T4|]. cbn. rewrite ?app_nil_r. reflexivity.
    + apply delta_w; [exact T5|]. cbn. rewrite ?app_nil_r. reflexivity.
    + apply rep_w_u64; [exact T6|]. cbn. rewrite ?app_nil_r. reflexivity.
Qed.
Lemma dense_w d : dense_typed d -> dense_fits d -> dense_msg (dense_enc d) d.
Proof.
  intros (T1 & T2 & T3 & T4) (F1 & F2 & F3 & F4).
  assert (K : exists fs, message (kv_enc (dn_KeyVals d)) fs /\ (fs = [] /\ dn_KeyVals d = [] \/ exists L, fs = [fB 10 L (p_u64ext (dn_KeyVals d))])).
  { unfold kv_enc. destruct (dn_KeyVals d) as [|k kv] eqn:Ek; [exists []; split; [apply msg_nil|auto]|].
    destruct F4 as [F4|F4]; [discriminate|]. assert (H : (0 <? zlen (k :: kv)) = true) by (rewrite zlen_cons; pose proof (zlen_nonneg kv); lia). rewrite H.
    eexists. split; [apply (msg_fixed 3); [idr|lia|exact F4|apply p_u64ext_bytes]|]. right. eexists. reflexivity. }
  destruct K as (ks & K1 & K2).
  eexists. split; [|split].
  - unfold dense_enc. apply msg_app; [apply (msg_fixed 2); [idr|lia|exact F1|apply p_delta_bytes]|].
    apply msg_app; [apply (msg_fixed 2); [idr|lia|exact F2|apply p_delta_bytes]|].
    apply msg_app; [apply (msg_fixed 2); [idr|lia|exact F3|apply p_delta_bytes]|]. exact K1.
  - destruct K2 as [[-> _]|(L & ->)]; (split; [occ|occ]).
  - split; [|split; [|split]].
    + apply delta_w; [exact T1|]. destruct K2 as [[-> _]|(L & ->)]; cbn; rewrite ?app_nil_r; reflexivity.
    + apply delta_w; [exact T2|]. destruct K2 as [[-> _]|(L & ->)]; cbn; rewrite ?app_nil_r; reflexivity.
    + apply delta_w; [exact T3|]. destruct K2 as [[-> _]|(L & ->)]; cbn; rewrite ?app_nil_r; reflexivity.
    + apply rep_w_i32; [exact T4|]. destruct K2 as [[-> ->]|(L & ->)]; cbn; rewrite ?app_nil_r; reflexivity.
Qed.

(** many fields with the same number *)
Lemma chunks_app n a b : chunks n (a ++ b) = chunks n a ++ chunks n b.
Proof. unfold chunks. rewrite map_app, concat_app. reflexivity. Qed.
Lemma varints_app n a b : varints n (a ++ b) = varints n a ++ varints n b.
Proof. unfold varints. rewrite map_app, concat_app. reflexivity. Qed.
Lemma occurs_app n a b : occurs n (a ++ b) = occurs n a + occurs n b.
Proof. unfold occurs. rewrite filter_app, zlen_app. reflexivity. Qed.
Lemma chunks_cons n f fs : chunks n (f :: fs) = chunk1 n f ++ chunks n fs.
Proof. reflexivity. Qed.
Lemma varints_cons n f fs : varints n (f :: fs) = var1 n f ++ varints n fs.
Proof. reflexivity. Qed.
Lemma occurs_cons n f fs : occurs n (f :: fs) = occurs n [f] + occurs n fs.
Proof. apply (occurs_app n [f] fs). Qed.
Lemma chunks_map {A} n m (F L : A -> list Z) (l : list A) : chunks n (map (fun x => fB m (F x) (L x)) l) = if m =? n then map L l else [].
Proof.
  induction l as [|x l IH]; [destruct (m =? n); reflexivity|]. cbn [map]. rewrite chunks_cons, IH. cbn. destruct (m =? n); reflexivity.
Qed.
Lemma varints_map {A} n m (F L : A -> list Z) (l : list A) : varints n (map (fun x => fB m (F x) (L x)) l) = [].
Proof. induction l as [|x l IH]; [reflexivity|]. cbn [map]. rewrite varints_cons, IH. reflexivity. Qed.
Lemma occurs_map {A} n m (F L : A -> list Z) (l : list A) : m <> n -> occurs n (map (fun x => fB m (F x) (L x)) l) = 0.
Proof. intros H. induction l as [|x l IH]; [reflexivity|]. cbn [map]. rewrite occurs_cons, IH. unfold occurs, fB. cbn [filter]. destruct (Z.eqb_spec m n); [contradiction|reflexivity]. Qed.
Lemma msg_map {A} m (F L enc : A -> list Z) (l : list A) : (forall x, In x l -> message (enc x) [fB m (F x) (L x)]) -> message (concat (map enc l)) (map (fun x => fB m (F x) (L x)) l).
Proof.
  induction l as [|x l IH]; intros H; [apply msg_nil|]. cbn [map concat]. apply (msg_app (enc x) _ [_]); [apply H; left; reflexivity|].
  apply IH. intros y Hy. apply H. right. exact Hy.
Qed.
Lemma in_bytes_map {A} m bs (F L : A -> list Z) (l : list A) vs : In m bs -> Forall (fun f => match f with PV n _ _ => In n vs | PB n _ _ _ => In n bs end) (map (fun x => fB m (F x) (L x)) l).
Proof. intros H. apply Forall_forall. intros f Hf. apply in_map_iff in Hf as (x & <- & _). exact H. Qed.

Lemma strings_w st : Forall bytes st -> zlen (st_enc st) < 2^63 -> strings_msg (st_enc st) st.
Proof.
  intros T Hl. exists (map (fun x => fB 1 (venc (u64 (zlen x))) ((fun y => y) x)) st). split; [|split].
  - unfold st_enc. apply (msg_map 1 (fun x => venc (u64 (zlen x))) (fun y => y) (id_buffer stringTableS)). intros s Hs.
    apply msg_idbuf; [idr|rewrite Forall_forall in T; apply T, Hs|]. pose proof (concat_le (id_buffer stringTableS) st s Hs). pose proof (id_buffer_len stringTableS s). unfold st_enc in Hl. lia.
  - split; [|constructor]. apply (in_bytes_map 1 [1] (fun x => venc (u64 (zlen x))) (fun y => y) st). cbn. auto.
  - unfold strings_of. rewrite (chunks_map 1 1 (fun x => venc (u64 (zlen x))) (fun y => y)). cbn. rewrite map_id. reflexivity.
Qed.

(** ** PrimitiveGroup *)
Definition waysf (ws : list Way) := map (fun w => fB 3 (leb_fixed 2 (zlen (way_enc w))) (way_enc w)) ws.
Definition relsf (rs : list Relation) := map (fun r => fB 4 (leb_fixed 3 (zlen (relation_enc r))) (relation_enc r)) rs.
Definition rawf (n : Z) (ps : list (list Z)) := map (fun x => fB n (venc (u64 (zlen x))) ((fun y => y) x)) ps.
Lemma rawf_msg n ps : 1 <= n <= 20 -> Forall bytes ps -> zlen (concat (map (id_buffer n) ps)) < 2^63 -> message (concat (map (id_buffer n) ps)) (rawf n ps).
Proof.
  intros Hn T Hl. apply (msg_map n (fun x => venc (u64 (zlen x))) (fun y => y) (id_buffer n)). intros s Hs. cbn beta.
  apply msg_idbuf; [exact Hn|rewrite Forall_forall in T; apply T, Hs|]. pose proof (concat_le (id_buffer n) ps s Hs). pose proof (id_buffer_len n s). lia.
Qed.
Lemma rawf_chunks n m ps : chunks n (rawf m ps) = if m =? n then ps else [].
Proof. unfold rawf. rewrite (chunks_map n m (fun x => venc (u64 (zlen x))) (fun y => y)), map_id. reflexivity. Qed.
Lemma rawf_occurs n m ps : m <> n -> occurs n (rawf m ps) = 0.
Proof. apply (occurs_map n m (fun x => venc (u64 (zlen x))) (fun y => y)). Qed.
Lemma rawf_in m bs ps vs : In m bs -> Forall (fun f => match f with PV n _ _ => In n vs | PB n _ _ _ => In n bs end) (rawf m ps).
Proof. apply (in_bytes_map m bs (fun x => venc (u64 (zlen x))) (fun y => y)). Qed.

Lemma group_w pbr g : group_typed g -> group_fits g -> group_form pbr g -> zlen (group_enc g) < 2^63 -> group_msg pbr (group_enc g) g.
Proof.
  intros (T1 & T2 & T3 & T4 & T5 & T6) (F1 & F2 & F3) (G1 & G2 & G3) Hl. unfold group_enc in Hl. rewrite !zlen_app in Hl.
  pose proof (zlen_nonneg (dense_part g)). pose proof (zlen_nonneg (ways_part g)). pose proof (zlen_nonneg (rels_part g)).
  assert (D : exists fs, message (dense_part g) fs /\ Forall (fun f => match f with PV n _ _ => In n [] | PB n _ _ _ => In n [2; 3; 4; 5] end) fs /\ occurs 2 fs <= 1 /\
    chunks 3 fs = [] /\ chunks 4 fs = [] /\
    (if SkipDenseNodes pbr then pg_Dense g = None /\ opt_list (pg_RawDense g) = chunks 2 fs
     else pg_RawDense g = None /\ Forall2 dense_msg (chunks 2 fs) (opt_list (pg_Dense g)))).
  { unfold dense_part in *. destruct (pg_Dense g) as [d|] eqn:Ed.
    - destruct (F1 d eq_refl) as [Fd Fl]. specialize (T1 d eq_refl). destruct (SkipDenseNodes pbr); [discriminate|].
      eexists. split; [apply (msg_fixed 3); [idr|lia|exact Fl|apply dense_bytes; assumption]|]. split; [occ|]. split; [apply Z.eq_le_incl; reflexivity|].
      split; [reflexivity|]. split; [reflexivity|]. split; [exact G1|]. cbn. constructor; [apply dense_w; assumption|constructor].
    - destruct (pg_RawDense g) as [raw|] eqn:Er.
      + destruct (SkipDenseNodes pbr); [|discriminate].
        eexists. split; [apply msg_idbuf; [idr|apply T2; reflexivity|]|].
        { pose proof (id_buffer_len primitiveGroupDenseNodes raw). lia. }
        split; [occ|]. split; [apply Z.eq_le_incl; reflexivity|]. repeat split.
      + exists []. split; [apply msg_nil|]. split; [constructor|]. split; [exact Z.le_0_1|]. split; [reflexivity|]. split; [reflexivity|].
        destruct (SkipDenseNodes pbr); (split; [reflexivity|]); [reflexivity|constructor]. }
  assert (W : exists fs, message (ways_part g) fs /\ Forall (fun f => match f with PV n _ _ => In n [] | PB n _ _ _ => In n [2; 3; 4; 5] end) fs /\ occurs 2 fs = 0 /\
    chunks 2 fs = [] /\ chunks 4 fs = [] /\
    (if SkipWays pbr then pg_Ways g = None /\ pg_RawWays g = chunks 3 fs
     else pg_RawWays g = [] /\ Forall2 way_msg (chunks 3 fs) (elems (pg_Ways g)))).
  { unfold ways_part in *. destruct (pg_Ways g) as [ws|] eqn:Ed.
    - specialize (F2 ws eq_refl). specialize (T3 ws eq_refl). destruct (SkipWays pbr); [discriminate|]. rewrite Forall_forall in F2, T3.
      exists (waysf ws). split; [|split; [apply in_bytes_map; cbn; auto|split; [apply occurs_map; lia|]]].
      + apply (msg_map 3 (fun w => leb_fixed 2 (zlen (way_enc w))) way_enc way_field). intros w Hw. destruct (F2 w Hw) as [Fa Fb].
        apply (msg_fixed 1); [idr|lia|exact Fb|apply way_bytes; assumption].
      + unfold waysf. rewrite !chunks_map. cbn [Z.eqb Pos.eqb]. split; [reflexivity|]. split; [reflexivity|]. split; [exact G2|]. cbn [elems]. clear - F2 T3.
        induction ws as [|w ws IH]; [constructor|]. cbn [map]. constructor; [apply way_w; [apply T3; left; reflexivity|apply F2; left; reflexivity]|].
        apply IH; intros x Hx; [apply T3|apply F2]; right; exact Hx.
    - exists (rawf 3 (pg_RawWays g)). split; [apply rawf_msg; [idr|exact T4|unfold primitiveGroupWays in *; lia]|]. split; [apply rawf_in; cbn; auto|]. split; [apply rawf_occurs; lia|].
      rewrite !rawf_chunks. cbn [Z.eqb Pos.eqb]. split; [reflexivity|]. split; [reflexivity|].
      destruct (SkipWays pbr); [split; reflexivity|]. rewrite G2. split; [reflexivity|constructor]. }
  assert (R : exists fs, message (rels_part g) fs /\ Forall (fun f => match f with PV n _ _ => In n [] | PB n _ _ _ => In n [2; 3; 4; 5] end) fs /\ occurs 2 fs = 0 /\
    chunks 2 fs = [] /\ chunks 3 fs = [] /\
    (if SkipRelations pbr then pg_Relations g = None /\ pg_RawRelations g = chunks 4 fs
     else pg_RawRelations g = [] /\ Forall2 relation_msg (chunks 4 fs) (elems (pg_Relations g)))).
  { unfold rels_part in *. destruct (pg_Relations g) as [ws|] eqn:Ed.
    - specialize (F3 ws eq_refl). specialize (T5 ws eq_refl). destruct (SkipRelations pbr); [discriminate|]. rewrite Forall_forall in F3, T5.
      exists (relsf ws). split; [|split; [apply in_bytes_map; cbn; auto|split; [apply occurs_map; lia|]]].
      + apply (msg_map 4 (fun w => leb_fixed 3 (zlen (relation_enc w))) relation_enc rel_field). intros w Hw. destruct (F3 w Hw) as [Fa Fb].
        apply (msg_fixed 2); [idr|lia|exact Fb|apply relation_bytes; [apply T5, Hw|assumption]].
      + unfold relsf. rewrite !chunks_map. cbn [Z.eqb Pos.eqb]. split; [reflexivity|]. split; [reflexivity|]. split; [exact G3|]. cbn [elems]. clear - F3 T5.
        induction ws as [|w ws IH]; [constructor|]. cbn [map]. constructor; [apply relation_w; [apply T5; left; reflexivity|apply F3; left; reflexivity]|].
        apply IH; intros x Hx; [apply T5|apply F3]; right; exact Hx.
    - exists (rawf 4 (pg_RawRelations g)). split; [apply rawf_msg; [idr|exact T6|unfold primitiveGroupRelations in *; lia]|]. split; [apply rawf_in; cbn; auto|]. split; [apply rawf_occurs; lia|].
      rewrite !rawf_chunks. cbn [Z.eqb Pos.eqb]. split; [reflexivity|]. split; [reflexivity|].
      destruct (SkipRelations pbr); [split; reflexivity|]. rewrite G3. split; [reflexivity|constructor]. }
  destruct D as (fd & D1 & D2 & D3 & D4 & D5 & D6), W as (fw & W1 & W2 & W3 & W4 & W5 & W6), R as (fr & R1 & R2 & R3 & R4 & R5 & R6).
  exists (fd ++ fw ++ fr). split; [apply msg_app; [exact D1|apply msg_app; assumption]|]. split.
  - split; [apply Forall_app; split; [exact D2|apply Forall_app; split; assumption]|]. constructor; [|constructor]. rewrite !occurs_app, W3, R3. lia.
  - unfold group_of. rewrite !chunks_app, D4, D5, W4, W5, R4, R5. cbn [app]. rewrite !app_nil_r. split; [exact D6|]. split; assumption.
Qed.

(** ** PrimitiveBlock *)
Lemma opt_varint_w dflt id v : 1 <= id <= 20 -> exists fs, message (opt_varint dflt id v) fs /\
  (v = dflt /\ fs = [] \/ fs = [fV id (u64 v)]).
Proof.
  intros Hi. unfold opt_varint. destruct (Z.eqb_spec v dflt) as [E|E]; cbn [negb]; [exists []; split; [apply msg_nil|auto]|].
  exists [fV id (u64 v)]. split; [apply msg_varint, Hi|auto].
Qed.
Definition groupsf (gs : list PrimitiveGroup) := map (fun g => fB 2 (leb_fixed 4 (zlen (group_enc g))) (group_enc g)) gs.
Lemma fB_v n m k l (L : list Z) : varints n [PB m k l L] = [].
Proof. reflexivity. Qed.
Lemma block_w pbr b : block_typed b -> block_fits b -> block_form pbr b -> zlen (block_enc b) < 2^63 -> block_msg pbr (block_enc b) b.
Proof.
  intros (T1 & T2 & T3 & T4 & T5 & T6 & T7) (F1 & F2) (G1 & G2) Hl. unfold block_enc in Hl. rewrite !zlen_app in Hl.
  assert (S : exists fs, message (st_part b) fs /\ Forall (fun f => match f with PV n _ _ => In n [17;18;19;20] | PB n _ _ _ => In n [1; 2] end) fs /\ occurs 1 fs <= 1 /\
    chunks 2 fs = [] /\ (forall n, varints n fs = []) /\
    (if SkipStringTable pbr then pblk_StringTable b = None /\ opt_list (pblk_StringTableRaw b) = chunks 1 fs
     else pblk_StringTableRaw b = None /\ Forall2 strings_msg (chunks 1 fs) (opt_list (pblk_StringTable b)))).
  { assert (Hs : zlen (st_part b) < 2^63).
    { match type of Hl with _ + (?a + (?c + (?d + (?e + ?f)))) < _ => assert (0 <= a /\ 0 <= c /\ 0 <= d /\ 0 <= e /\ 0 <= f) by (repeat split; apply zlen_nonneg) end. lia. }
    unfold st_part in *. destruct (pblk_StringTable b) as [d|] eqn:Ed.
    - specialize (F1 d eq_refl). specialize (T1 d eq_refl). destruct (SkipStringTable pbr); [discriminate|].
      eexists. split; [apply (msg_fixed 3); [idr|lia|exact F1|apply st_bytes; assumption]|]. split; [occ|]. split; [apply Z.eq_le_incl; reflexivity|].
      split; [reflexivity|]. split; [reflexivity|]. split; [exact G1|]. cbn. constructor; [apply strings_w; [assumption|lia]|constructor].
    - destruct (pblk_StringTableRaw b) as [raw|] eqn:Er.
      + destruct (SkipStringTable pbr); [|discriminate].
        eexists. split; [apply msg_idbuf; [idr|apply T2; reflexivity|]|].
        { pose proof (id_buffer_len primitiveBlockStringTable raw). lia. }
        split; [occ|]. split; [apply Z.eq_le_incl; reflexivity|]. repeat split.
      + exists []. split; [apply msg_nil|]. split; [constructor|]. split; [exact Z.le_0_1|]. split; [reflexivity|]. split; [reflexivity|].
        destruct (SkipStringTable pbr); (split; [reflexivity|]); [reflexivity|constructor]. }
  destruct S as (fs & S1 & S2 & S3 & S4 & S5 & S6).
  destruct (opt_varint_w 100 primitiveBlockGranularity (pblk_Granularity b)) as (v1 & A1 & B1); [idr|].
  destruct (opt_varint_w 1000 primitiveBlockDateGranularity (pblk_DateGranularity b)) as (v2 & A2 & B2); [idr|].
  destruct (opt_varint_w 0 primitiveBlockLatOffset (pblk_LatOffset b)) as (v3 & A3 & B3); [idr|].
  destruct (opt_varint_w 0 primitiveBlockLonOffset (pblk_LonOffset b)) as (v4 & A4 & B4); [idr|].
  rewrite Forall_forall in F2, G2, T3.
  assert (P : Forall2 (group_msg pbr) (map group_enc (pblk_PrimitiveGroup b)) (pblk_PrimitiveGroup b)).
  { assert (X : forall g, In g (pblk_PrimitiveGroup b) -> group_msg pbr (group_enc g) g).
    { intros g Hg. destruct (F2 g Hg) as [Fa Fb]. apply group_w; [apply T3, Hg|exact Fa|apply G2, Hg|lia]. }
    clear - X. induction (pblk_PrimitiveGroup b) as [|g gs IH]; [constructor|]. cbn [map]. constructor; [apply X; left; reflexivity|].
    apply IH. intros x Hx. apply X. right. exact Hx. }
  assert (Q : message (concat (map group_field (pblk_PrimitiveGroup b))) (groupsf (pblk_PrimitiveGroup b))).
  { apply (msg_map 2 (fun g => leb_fixed 4 (zlen (group_enc g))) group_enc group_field). intros g Hg. destruct (F2 g Hg) as [Fa Fb].
    apply (msg_fixed 3); [idr|lia|exact Fb|apply group_bytes; [apply T3, Hg|exact Fa]]. }
  exists (fs ++ groupsf (pblk_PrimitiveGroup b) ++ v1 ++ v2 ++ v3 ++ v4). split; [|split].
  - unfold block_enc. repeat (apply msg_app; [assumption|]). assumption.
  - split.
    + apply Forall_app; split; [exact S2|]. apply Forall_app; split; [apply in_bytes_map; cbn; auto|].
      rewrite !Forall_app. destruct B1 as [[_ ->] | ->], B2 as [[_ ->] | ->], B3 as [[_ ->] | ->], B4 as [[_ ->] | ->]; (repeat split); occ.
    + constructor; [|constructor]. rewrite !occurs_app. unfold groupsf. rewrite occurs_map by lia.
      assert (Z1 : occurs 1 v1 = 0) by (destruct B1 as [[_ ->] | ->]; reflexivity). assert (Z2 : occurs 1 v2 = 0) by (destruct B2 as [[_ ->] | ->]; reflexivity).
      assert (Z3 : occurs 1 v3 = 0) by (destruct B3 as [[_ ->] | ->]; reflexivity). assert (Z4 : occurs 1 v4 = 0) by (destruct B4 as [[_ ->] | ->]; reflexivity). lia.
  - unfold block_of, scalar. rewrite !chunks_app, !varints_app, !S5, S4. unfold groupsf. rewrite !chunks_map, !varints_map. cbn [Z.eqb Pos.eqb app].
    assert (C : forall n, n < 17 -> chunks n v1 = [] /\ chunks n v2 = [] /\ chunks n v3 = [] /\ chunks n v4 = []).
    { intros n _. destruct B1 as [[_ ->] | ->], B2 as [[_ ->] | ->], B3 as [[_ ->] | ->], B4 as [[_ ->] | ->]; repeat split; reflexivity. }
    destruct (C 1) as (-> & -> & -> & ->); [lia|]. destruct (C 2) as (-> & -> & -> & ->); [lia|]. rewrite !app_nil_r.
    split; [exact S6|]. split; [exact P|].
    assert (V2 : forall n, n <> 18 -> varints n v2 = []).
    { intros n Hn. destruct B2 as [[_ ->] | ->]; [reflexivity|]. unfold varints, fV; cbn [map concat app]. destruct (Z.eqb_spec primitiveBlockDateGranularity n) as [X|X]; [exfalso; apply Hn; rewrite <- X; reflexivity|reflexivity]. }
    assert (V3 : forall n, n <> 19 -> varints n v3 = []).
    { intros n Hn. destruct B3 as [[_ ->] | ->]; [reflexivity|]. unfold varints, fV; cbn [map concat app]. destruct (Z.eqb_spec primitiveBlockLatOffset n) as [X|X]; [exfalso; apply Hn; rewrite <- X; reflexivity|reflexivity]. }
    assert (V4 : forall n, n <> 20 -> varints n v4 = []).
    { intros n Hn. destruct B4 as [[_ ->] | ->]; [reflexivity|]. unfold varints, fV; cbn [map concat app]. destruct (Z.eqb_spec primitiveBlockLonOffset n) as [X|X]; [exfalso; apply Hn; rewrite <- X; reflexivity|reflexivity]. }
    assert (V1' : forall n, n <> 17 -> varints n v1 = []).
    { intros n Hn. destruct B1 as [[_ ->] | ->]; [reflexivity|]. unfold varints, fV; cbn [map concat app]. destruct (Z.eqb_spec primitiveBlockGranularity n) as [X|X]; [exfalso; apply Hn; rewrite <- X; reflexivity|reflexivity]. }
    rewrite (V1' 18), (V1' 19), (V1' 20), (V2 17), (V2 19), (V2 20), (V3 17), (V3 18), (V3 20), (V4 17), (V4 18), (V4 19) by lia.
    rewrite ?app_nil_r. cbn [app]. rewrite ?app_nil_r.
    split; [|split; [|split]].
    + destruct B1 as [[E ->] | ->]; [exact E|]. apply int32_w, T4.
    + destruct B2 as [[E ->] | ->]; [exact E|]. apply int32_w, T5.
    + destruct B3 as [[E ->] | ->]; [exact E|]. apply int64_w, T6.
    + destruct B4 as [[E ->] | ->]; [exact E|]. apply int64_w, T7.
Qed.

(** ** BlobHeader, Blob *)
Lemma header_w h : bytes (bh_Type h) -> is_s32 (bh_DataSize h) -> zlen (bh_enc h) < 2^63 -> header_msg (bh_enc h) h.
Proof.
  intros T1 T2 Hl. unfold bh_enc in Hl. rewrite zlen_app in Hl.
  destruct (opt_varint_w 0 blobHeaderDataSize (bh_DataSize h)) as (v & A & B); [idr|].
  assert (S : exists fs, message (if negb (zlen (bh_Type h) =? 0) then id_buffer blobHeaderType (bh_Type h) else []) fs /\
     (bh_Type h = [] /\ fs = [] \/ exists L, fs = [fB 1 L (bh_Type h)])).
  { destruct (Z.eqb_spec (zlen (bh_Type h)) 0) as [E|E]; cbn [negb] in *.
    - exists []. split; [apply msg_nil|]. left. split; [apply zlen_0, E|reflexivity].
    - eexists. split; [apply msg_idbuf; [idr|exact T1|]|right; eexists; reflexivity].
      pose proof (id_buffer_len blobHeaderType (bh_Type h)). pose proof (zlen_nonneg (opt_varint 0 blobHeaderDataSize (bh_DataSize h))). lia. }
  destruct S as (fs & S1 & S2). exists (fs ++ v). split; [apply msg_app; assumption|]. split.
  - split; [|constructor]. apply Forall_app. destruct S2 as [[_ ->]|(L & ->)], B as [[_ ->] | ->]; (split; occ).
  - split.
    + destruct S2 as [[-> ->]|(L & ->)], B as [[_ ->] | ->]; reflexivity.
    + destruct S2 as [[_ ->]|(L & ->)], B as [[E ->] | ->]; try exact E; cbn; apply int32_w, T2.
Qed.
Lemma last3 {A} (a b c : list A) : last_of (a ++ b ++ c) = match last_of c with Some x => Some x | None => match last_of b with Some x => Some x | None => last_of a end end.
Proof. rewrite !last_app. destruct (last_of c); [reflexivity|]. destruct (last_of b); reflexivity. Qed.
Lemma blob_w praw raw size zlib : (forall n, size = Some n -> is_s32 n) -> (forall z, zlib = Some z -> bytes z) ->
  message praw (match raw with Some r => [fB 1 (fst r) (snd r)] | None => [] end) ->
  (forall z, zlib = Some z -> zlen z < 2^63) ->
  let b := mkBlob None size zlib None in
  blob_msg (praw ++ blob_size_part b ++ blob_zlib_part b) (option_map snd raw) size (match zlib with Some z => if 0 <? zlen z then Some z else None | None => None end).
Proof.
  intros T1 T2 M Hz b.
  assert (S : message (blob_size_part b) (match size with Some n => [fV 2 (u64 n)] | None => [] end)).
  { unfold blob_size_part, b; cbn [blob_RawSize]. destruct size; [apply msg_varint; idr|apply msg_nil]. }
  assert (Zm : message (blob_zlib_part b) (match zlib with Some z => if 0 <? zlen z then [fB 3 (venc (u64 (zlen z))) z] else [] | None => [] end)).
  { unfold blob_zlib_part, b; cbn [blob_ZLibData]. destruct zlib as [z|]; [|apply msg_nil]. destruct (0 <? zlen z); [|apply msg_nil]. apply msg_idbuf; [idr|apply T2; reflexivity|apply Hz; reflexivity]. }
  eexists. split; [apply msg_app; [exact M|apply msg_app; [exact S|exact Zm]]|]. split.
  - split; [|constructor]. rewrite !Forall_app. split; [destruct raw; occ|split; [destruct size; occ|]]. destruct zlib as [z|]; [|constructor]. destruct (0 <? zlen z); occ.
  - unfold blob_of. rewrite !chunks_app, !varints_app, !last3.
    destruct raw as [[L r]|]; (destruct size as [n|]; (destruct zlib as [z|]; [destruct (0 <? zlen z)|]));
      (split; [reflexivity|split; [reflexivity|]]); try exact I; cbn [varints map concat app fB fV last_of rev]; try (apply int32_w, T1; reflexivity).
Qed.
