(** * TTyped: whatever bytes are read, every message read has values that fit their Go
    types, and so have the entities made from it. *)
From Verif Require Import Base BaseLemmas PbModel PbSpec PbProofs PbProofs2 TModel TSpec TProofs TMsg HLModel HLSpec HLProofs HLProofs2 FrProofs.

Definition sbytes (b : slice) : Prop := go_slice b.

Lemma sslice_sbytes b i j o : sbytes b -> sslice b i j = Ok o -> sbytes o.
Proof.
  intros (H1 & H2 & H3) H. apply sslice_all in H as (pre & E).
  assert (B : bytes (vis b ++ ext b)) by (apply Forall_app; split; assumption).
  assert (L : zlen (vis b ++ ext b) < 2^63) by (rewrite zlen_app; unfold scap, slen, zlen in *; lia).
  rewrite E in B, L. apply bytes_app_inv in B as [_ B]. apply bytes_app_inv in B as [B1 B2]. split; [exact B1|]. split; [exact B2|].
  rewrite !zlen_app in L. pose proof (zlen_nonneg pre). unfold scap, slen, zlen in *. lia.
Qed.
Lemma DecodeBytes_sbytes b n o n' : sbytes b -> DecodeBytes b n = Ok (o, n') -> sbytes o.
Proof.
  intros Hb H. unfold DecodeBytes, ReadBytes in H. destruct (DecodeVarInt b n) as [[v m]| |]; try discriminate. cbn [bind] in H.
  destruct (sslice b m _) as [s| |] eqn:E; try discriminate. cbn [bind] in H. injection H as <- _.
  eapply sslice_sbytes; eauto.
Qed.
Lemma read_msg_typed {St} (P : St -> Prop) h buf st r :
  (forall id n n' upd, h id buf n = Ok (n', upd) -> forall s, P s -> P (upd s)) ->
  P st -> read_msg h buf st = Ok r -> P r.
Proof.
  intros Hh H0 H. unfold read_msg, read_fuel in H.
  destruct (loop _ _ _ _) as [[n s]| |] eqn:E; try discriminate. injection H as <-.
  apply (loop_inv (fun x => P (snd x))) in E as [E _]; [exact E| |exact H0].
  intros [n1 s1] [n2 s2] HP _ Hb. unfold msg_body in Hb. destruct (DecodeVarInt buf n1) as [[id m]| |]; try discriminate.
  cbn [bind] in Hb. destruct (h id buf m) as [[n3 upd]| |] eqn:Eh; try discriminate. cbn [bind] in Hb. injection Hb as <- <-.
  cbn [snd]. eapply Hh; eauto.
Qed.
Lemma DecodeVarInt_u64 b s v n : sbytes b -> DecodeVarInt b s = Ok (v, n) -> is_u64 v.
Proof. intros (Hb & _ & Hl) H. eapply DecodeVarInt_ok in H; [tauto|exact Hb|]. unfold scap, slen in *. lia. Qed.
Lemma packed_typed (P : Z -> Prop) c f buf n l n' : sbytes buf ->
  (forall acc raw, is_u64 raw -> P (snd (f acc raw))) -> decode_packed c f buf n = Ok (l, n') -> Forall P l.
Proof.
  intros Hb Hf H. unfold decode_packed in H. destruct (DecodeBytes buf n) as [[ib m]| |] eqn:Ed; try discriminate.
  apply DecodeBytes_sbytes in Ed; [|exact Hb].
  cbn [bind] in H. unfold packed_loop in H. destruct (loop _ _ _ _) as [[[i a] o]| |] eqn:E; try discriminate. cbn [bind] in H. injection H as <- <-.
  apply (loop_inv (fun x => Forall P (snd x))) in E as [E _]; [exact E| |constructor].
  intros [[i1 a1] o1] [[i2 a2] o2] HP _ Hs. unfold packed_body in Hs.
  destruct (DecodeVarInt ib i1) as [[raw j]| |] eqn:Ev; try discriminate. cbn [bind] in Hs.
  pose proof (Hf a1 raw (DecodeVarInt_u64 _ _ _ _ Ed Ev)) as Hv.
  destruct (f a1 raw) as [a3 v]. destruct (c && _) in Hs; [discriminate|]. injection Hs as <- <- <-. cbn [snd] in *.
  apply Forall_app. split; [exact HP|]. constructor; [exact Hv|constructor].
Qed.
Lemma DecodeI64_s64 b n v n' : DecodeI64 b n = Ok (v, n') -> is_s64 v.
Proof. unfold DecodeI64. destruct (DecodeVarInt b n) as [[w m]| |]; try discriminate. cbn [bind]. intros H. injection H as <- _. apply s64_range. Qed.
Lemma DecodeI32_s32 b n v n' : DecodeI32 b n = Ok (v, n') -> is_s32 v.
Proof. unfold DecodeI32. destruct (DecodeVarInt b n) as [[w m]| |]; try discriminate. cbn [bind]. intros H. injection H as <- _. apply s32_range. Qed.

Ltac hstep H :=
  match type of H with
  | (if ?c then _ else _) = Ok _ => destruct c
  | Panic _ = Ok _ => discriminate H
  | bind ?m _ = Ok _ => let E := fresh "E" in destruct m as [?x| |] eqn:E; cbn [bind] in H; [|discriminate H|discriminate H]
  | (let '(_, _) := ?p in _) = Ok _ => destruct p
  | (match ?p with (_, _) => _ end) = Ok _ => destruct p
  | Ok _ = Ok _ => injection H as <- <-
  end.
Ltac pk := eapply packed_typed; [eassumption| |eassumption]; intros; cbn [snd];
  first [apply u32_range|apply s32_range|apply s64_range|assumption].

Lemma ReadWay_typed b w : sbytes b -> ReadWay b Way0 = Ok w -> way_typed w.
Proof.
  intros Hb H. revert H. apply read_msg_typed; [|repeat split; constructor || (unfold is_s64; cbn; lia)].
  intros id n n' upd H s (S1 & S2 & S3 & S4). unfold way_handler in H.
  repeat hstep H; unfold way_typed; cbn [way_ID way_Keys way_Vals way_Refs]; (split; [|split; [|split]]); try assumption;
    try (eapply DecodeI64_s64; eassumption); try pk.
Qed.
Lemma ReadRelation_typed b w : sbytes b -> ReadRelation b Relation0 = Ok w -> relation_typed w.
Proof.
  intros Hb H. revert H. apply read_msg_typed; [|repeat split; constructor || (unfold is_s64; cbn; lia)].
  intros id n n' upd H s (S1 & S2 & S3 & S4 & S5 & S6). unfold relation_handler in H.
  repeat hstep H; unfold relation_typed; cbn [rel_ID rel_Keys rel_Vals rel_RolesSID rel_MemIDs rel_MemberType]; (split; [|split; [|split; [|split; [|split]]]]); try assumption;
    try (eapply DecodeI64_s64; eassumption); try pk.
Qed.
Lemma ReadDense_typed b w : sbytes b -> ReadDenseNodes b DenseNodes0 = Ok w -> dense_typed w.
Proof.
  intros Hb H. revert H. apply read_msg_typed; [|repeat split; constructor].
  intros id n n' upd H s (S1 & S2 & S3 & S4). unfold dense_handler in H.
  repeat hstep H; unfold dense_typed; cbn [dn_Id dn_Lat dn_Lon dn_KeyVals]; repeat split; try assumption; try pk.
Qed.
Lemma ReadStringTable_typed b st : sbytes b -> ReadStringTable b [] = Ok st -> Forall bytes st.
Proof.
  intros Hb H. revert H. apply read_msg_typed; [|constructor].
  intros id n n' upd H s Hs. unfold st_handler in H. repeat hstep H.
  unfold DecodeString in E. repeat hstep E. apply Forall_app. split; [exact Hs|]. constructor; [|constructor].
  match goal with E : DecodeBytes _ _ = _ |- _ => apply DecodeBytes_sbytes in E; [apply E|exact Hb] end.
Qed.
Lemma opt_append_typed {A} (P : A -> Prop) o x : (forall l, o = Some l -> Forall P l) -> P x ->
  forall l, opt_append o x = Some l -> Forall P l.
Proof.
  intros H Hx l E. destruct o as [l0|]; cbn in E; injection E as <-; [apply Forall_app; split; [auto|]|]; repeat constructor; auto.
Qed.
Lemma ReadGroup_typed pbr b g : sbytes b -> ReadPrimitiveGroup pbr b PrimitiveGroup0 = Ok g -> group_typed g.
Proof.
  intros Hb H. revert H. apply read_msg_typed; [|repeat split; try discriminate; constructor].
  intros id n n' upd H s (S1 & S2 & S3 & S4 & S5 & S6). unfold group_handler in H.
  repeat hstep H; try (match goal with E : DecodeBytes _ _ = _ |- _ => apply DecodeBytes_sbytes in E; [|exact Hb]; rename E into B end);
    unfold group_typed; cbn [pg_Dense pg_RawDense pg_Ways pg_RawWays pg_Relations pg_RawRelations];
    (split; [|split; [|split; [|split; [|split]]]]); try assumption.
  - intros l X. injection X as <-. apply B.
  - intros l X. injection X as <-. eapply ReadDense_typed; eauto.
  - apply Forall_app. split; [assumption|]. constructor; [apply B|constructor].
  - apply opt_append_typed; [exact S3|eapply ReadWay_typed; eauto].
  - apply Forall_app. split; [assumption|]. constructor; [apply B|constructor].
  - apply opt_append_typed; [exact S5|eapply ReadRelation_typed; eauto].
Qed.
Lemma ReadBlock_typed pbr b p : sbytes b -> ReadPrimitiveBlock pbr b PrimitiveBlock0 = Ok p -> block_typed p.
Proof.
  intros Hb H. revert H. apply read_msg_typed; [|unfold block_typed, is_s32, is_s64; cbn; repeat split; try discriminate; try lia; constructor].
  intros id n n' upd H s (S1 & S2 & S3 & S4 & S5 & S6 & S7). unfold block_handler in H.
  repeat hstep H; try (match goal with E : DecodeBytes _ _ = _ |- _ => apply DecodeBytes_sbytes in E; [|exact Hb]; rename E into B end);
    unfold block_typed; cbn [pblk_StringTable pblk_StringTableRaw pblk_PrimitiveGroup pblk_Granularity pblk_DateGranularity pblk_LatOffset pblk_LonOffset];
    (split; [|split; [|split; [|split; [|split; [|split]]]]]); try assumption;
    try (eapply DecodeI64_s64; eassumption); try (eapply DecodeI32_s32; eassumption).
  - intros l X. injection X as <-. apply B.
  - intros l X. injection X as <-. eapply ReadStringTable_typed; eauto.
  - apply Forall_app. split; [assumption|]. constructor; [|constructor]. eapply ReadGroup_typed; eauto.
Qed.
Lemma ReadBlob_sbytes buf b : sbytes buf -> ReadBlob buf Blob0 = Ok b ->
  (forall raw, blob_Raw b = Some raw -> sbytes raw) /\ (forall n, blob_RawSize b = Some n -> is_s32 n) /\
  (forall z, blob_ZLibData b = Some z -> bytes z) /\ blob_RawFunc b = None.
Proof.
  intros Hb H. revert H.
  apply (read_msg_typed (fun b => (forall raw, blob_Raw b = Some raw -> sbytes raw) /\ (forall n, blob_RawSize b = Some n -> is_s32 n) /\
  (forall z, blob_ZLibData b = Some z -> bytes z) /\ blob_RawFunc b = None)); [|cbn; repeat split; try discriminate].
  intros id n n' upd H s (S1 & S2 & S3 & S4). unfold blob_handler in H.
  repeat hstep H; cbn [blob_Raw blob_RawSize blob_ZLibData blob_RawFunc]; (split; [|split; [|split]]); try assumption.
  - intros rr X. injection X as <-. eapply DecodeBytes_sbytes; eauto.
  - intros k X. injection X as <-. eapply DecodeI32_s32; eauto.
  - intros zz X. injection X as <-. apply (DecodeBytes_sbytes _ _ _ _ Hb E).
Qed.

(** ** entities *)
Lemma GetString_bytes p id s : block_typed p -> GetString p id = Ok s -> bytes s.
Proof.
  intros (H & _) E. unfold GetString in E. destruct (pblk_StringTable p) as [st|]; [|discriminate].
  specialize (H st eq_refl). unfold lidx in E. destruct (_ && _) in E; [|discriminate].
  destruct (nth_error st _) as [x|] eqn:En; [|discriminate]. injection E as <-.
  apply (proj1 (Forall_forall bytes st) H). eapply nth_error_In; eauto.
Qed.
Lemma mset_fst_in {V} (m : smap V) k v x : In x (map fst (mset m k v)) -> x = k \/ In x (map fst m).
Proof.
  induction m as [|[k' v'] m IH]; cbn [mset map fst]; [intros [->|[]]; auto|].
  destruct (seqb k' k) eqn:E; cbn [map fst].
  - intros [->|H]; cbn [In]; auto.
  - intros [->|H]; cbn [In]; [auto|]. apply IH in H as [H|H]; auto.
Qed.
Lemma mset_is_map {V} (m : smap V) k v : is_map m -> is_map (mset m k v).
Proof.
  unfold is_map. induction m as [|[k' v'] m IH]; cbn [mset map fst]; intros H; [constructor; [intros []|constructor]|].
  apply NoDup_cons_iff in H as [H1 H2]. destruct (seqb k' k) eqn:E; cbn [map fst]; [constructor; assumption|].
  constructor; [|auto]. intros Hi. apply mset_fst_in in Hi as [->|Hi]; [|contradiction].
  unfold seqb in E. destruct (list_eq_dec Z.eq_dec k k); congruence.
Qed.
Lemma mset_Forall {V} (P : list Z * V -> Prop) m k v : (forall k' v', P (k', v') -> P (k', v)) ->
  Forall P m -> P (k, v) -> Forall P (mset m k v).
Proof.
  intros Hv H Hk. induction H as [|[k' v'] m Hp H IH]; cbn [mset]; [repeat constructor; assumption|].
  destruct (seqb k' k); constructor; try assumption. eapply Hv; eauto.
Qed.
Lemma tag_loop_typed p : block_typed p -> forall ks vs idx tags tags', tags_typed tags ->
  tag_loop p ks vs idx tags = Ok tags' -> tags_typed tags'.
Proof.
  intros Hp. induction ks as [|k ks IH]; intros vs idx tags tags' Ht H; cbn [tag_loop] in H; [injection H as <-; exact Ht|].
  destruct (GetString p k) as [ks'| |] eqn:E1; cbn [bind] in H; try discriminate.
  destruct (lidx vs idx) as [vi| |] eqn:E2; cbn [bind] in H; try discriminate.
  destruct (GetString p vi) as [v'| |] eqn:E3; cbn [bind] in H; try discriminate.
  apply IH in H; [exact H|]. destruct Ht as [T1 T2]. split; [apply mset_is_map, T1|].
  apply GetString_bytes in E1; [|exact Hp]. apply GetString_bytes in E3; [|exact Hp].
  apply mset_Forall; [|exact T2|cbn; auto]. cbn. intros a b [A _]. auto.
Qed.
Lemma tags_typed_nil : tags_typed [].
Proof. split; constructor. Qed.
Lemma dense_loop_typed p : block_typed p -> forall idxs d ns, dense_loop p d idxs = Ok ns -> Forall node_typed ns.
Proof.
  intros Hp. induction idxs as [|i idxs IH]; intros d ns H; cbn [dense_loop] in H; [injection H as <-; constructor|].
  destruct (GetKeyVals d i) as [[[ks vs] d']| |] eqn:E0; cbn [bind] in H; try discriminate.
  destruct (tag_loop p ks vs 0 []) as [tags| |] eqn:E1; cbn [bind] in H; try discriminate.
  destruct (lidx (dn_Id d') i) as [id| |]; cbn [bind] in H; try discriminate.
  destruct (lidx (dn_Lat d') i) as [lat| |]; cbn [bind] in H; try discriminate.
  destruct (lidx (dn_Lon d') i) as [lon| |]; cbn [bind] in H; try discriminate.
  destruct (dense_loop p d' idxs) as [r| |] eqn:E2; cbn [bind] in H; try discriminate.
  injection H as <-. constructor; [|eapply IH; eauto].
  unfold node_typed. cbn [hn_Id hn_Tags hn_Lat hn_Lon]. split; [apply u64_range|]. split; [|split; apply s64_range].
  eapply tag_loop_typed; eauto using tags_typed_nil.
Qed.
Lemma foldm_Forall {A B} (P : B -> Prop) (f : list B -> A -> res (list B)) l : forall acc out,
  (forall acc a out, In a l -> f acc a = Ok out -> Forall P acc -> Forall P out) ->
  Forall P acc -> foldm f l acc = Ok out -> Forall P out.
Proof.
  induction l as [|a l IH]; intros acc out Hf Ha H; cbn [foldm] in H; [injection H as <-; exact Ha|].
  destruct (f acc a) as [s| |] eqn:E; cbn [bind] in H; try discriminate.
  eapply IH; [|eapply Hf; [left; reflexivity|exact E|exact Ha]|exact H]. intros acc' a' out' Hin. apply Hf. right. exact Hin.
Qed.
Lemma mapm_Forall {A B} (P : B -> Prop) (f : A -> res B) l : forall out,
  (forall a b, In a l -> f a = Ok b -> P b) -> mapm f l = Ok out -> Forall P out.
Proof.
  induction l as [|a l IH]; intros out Hf H; cbn [mapm] in H; [injection H as <-; constructor|].
  destruct (f a) as [b| |] eqn:E; cbn [bind] in H; try discriminate.
  destruct (mapm f l) as [bs| |] eqn:E2; cbn [bind] in H; try discriminate. injection H as <-.
  constructor; [apply (Hf a); [left; reflexivity|exact E]|]. apply IH; [|reflexivity]. intros a' b' Hin. apply Hf. right. exact Hin.
Qed.
Lemma ToNodes_typed p ns : block_typed p -> ToNodes p = Ok ns -> Forall node_typed ns.
Proof.
  intros Hp. apply foldm_Forall; [|constructor]. intros acc g out _ H Ha. destruct (pg_Dense g) as [d|]; [|injection H as <-; exact Ha].
  destruct (dense_loop p d (indexes (dn_Id d))) as [new| |] eqn:E; cbn [bind] in H; try discriminate. injection H as <-.
  apply Forall_app. split; [exact Ha|]. eapply dense_loop_typed; eauto.
Qed.
Lemma ToWays_typed p ws : block_typed p -> ToWays p = Ok ws -> Forall hway_typed ws.
Proof.
  intros Hp. apply foldm_Forall; [|constructor]. intros acc g out Hin H Ha.
  destruct (mapm _ _) as [new| |] eqn:E in H; cbn [bind] in H; try discriminate. injection H as <-.
  apply Forall_app. split; [exact Ha|]. eapply mapm_Forall; [|exact E]. intros w hw Hw Ew.
  assert (Tw : way_typed w).
  { destruct Hp as (_ & _ & Hg & _). eapply Forall_forall in Hg; [|exact Hin]. destruct Hg as (_ & _ & Hg & _).
    destruct (pg_Ways g) as [l|]; [|destruct Hw]. apply (proj1 (Forall_forall _ l) (Hg l eq_refl)), Hw. }
  unfold to_hl_way in Ew. destruct (tag_loop _ _ _ _ _) as [tags| |] eqn:E1; cbn [bind] in Ew; try discriminate. injection Ew as <-.
  split; [apply Tw|]. cbn [hw_Tags hw_Nodes]. split; [eapply tag_loop_typed; eauto using tags_typed_nil|].
  apply Forall_map, Forall_forall. intros. apply u64_range.
Qed.
Lemma ToRelations_typed p rs : block_typed p -> ToRelations p = Ok rs -> Forall hrel_typed rs.
Proof.
  intros Hp. apply foldm_Forall; [|constructor]. intros acc g out Hin H Ha.
  destruct (mapm _ _) as [new| |] eqn:E in H; cbn [bind] in H; try discriminate. injection H as <-.
  apply Forall_app. split; [exact Ha|]. eapply mapm_Forall; [|exact E]. intros w hw Hw Ew.
  assert (Tw : relation_typed w).
  { destruct Hp as (_ & _ & Hg & _). eapply Forall_forall in Hg; [|exact Hin]. destruct Hg as (_ & _ & _ & _ & Hg & _).
    destruct (pg_Relations g) as [l|]; [|destruct Hw]. apply (proj1 (Forall_forall _ l) (Hg l eq_refl)), Hw. }
  unfold to_hl_rel in Ew. destruct (tag_loop _ _ _ _ _) as [tags| |] eqn:E1; cbn [bind] in Ew; try discriminate.
  destruct (mapm _ (rel_RolesSID w)) as [roles| |] eqn:E2; cbn [bind] in Ew; try discriminate. injection Ew as <-.
  unfold hrel_typed. cbn [hr_Id hr_Tags hr_Roles hr_Members hr_MemberType].
  split; [apply Tw|]. split; [eapply tag_loop_typed; eauto using tags_typed_nil|].
  split; [eapply mapm_Forall; [|exact E2]; intros a b _ Ex; apply (GetString_bytes p (u32 a) b Hp Ex)|].
  split; [apply Tw|]. apply Forall_map, Forall_forall. intros. apply s64_range.
Qed.
