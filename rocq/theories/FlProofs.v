(** * FlProofs: the tag filter in terms of the schema files. *)
From Verif Require Import NiThms Base PbSpec TModel HLModel HLSpec FrModel FrSpec ZlModel ZlSpec TfModel TfSpec MtModel IoModel IoSpec NiModel NiSpec RwModel RwSpec WiModel WiSpec RiModel RiSpec WsSpec PlModel PlSpec PlThms EeSpec ChSpec.
From Verif Require Import BaseLemmas PbModel PbProofs PbProofs2 TSpec TProofs TMsg TMsg2 TThms TTyped HLProofs HLProofs2 HLProofs3 HLThms FrProofs FrThms ZlThms TfThms NiProofs NiProofs2 NiThms RwThms WiThms RiThms WsProofs WsRead WsWrite WsThms EeProofs EeFin IoThms MtThms NiProofs3 NiProofs4 CxThms ChProofs.
From Verif Require Import NiSpec RwSpec TfSpec PlModel PlSpec.

(** ** elements of a block as read *)
Lemma string_get p i s : string_at p i s -> GetString p i = Ok s.
Proof. intros (st & E & H & N). unfold GetString. rewrite E. rewrite <- (Z2Nat.id i H). apply lidx_nth. exact N. Qed.
Lemma tag_loop_gen p : forall ks tags pre vs acc, Forall2 (string_at p) ks (map fst tags) -> Forall2 (string_at p) vs (map snd tags) ->
  NoDup (map fst acc ++ map fst tags) -> tag_loop p ks (pre ++ vs) (zlen pre) acc = Ok (acc ++ tags).
Proof.
  induction ks as [|k ks IH]; intros [|[sk sv] tags] pre vs acc F G ND; inversion F as [|? ? ? ? Fk F']; subst; [cbn [tag_loop]; rewrite app_nil_r; reflexivity|].
  cbn [map fst snd] in *. inversion G as [|v ? vs' ? Gv G']; subst. cbn [tag_loop]. rewrite (string_get _ _ _ Fk). cbn [bind]. rewrite lidx_app. cbn [bind]. rewrite (string_get _ _ _ Gv). cbn [bind].
  rewrite mset_new. 2:{ apply NoDup_remove_2 in ND. intros X. apply ND. apply in_app_iff. auto. }
  specialize (IH tags (pre ++ [v]) vs' (acc ++ [(sk, sv)]) F' G'). rewrite <- !app_assoc in IH. cbn [app] in IH. rewrite zlen_app in IH. apply IH.
  rewrite map_app. cbn [map fst]. rewrite <- app_assoc. exact ND.
Qed.
Lemma tag_loop_at p ks vs tags : tags_at p ks vs tags -> tag_loop p ks vs 0 [] = Ok tags.
Proof. intros (N & F & G). exact (tag_loop_gen p ks tags [] vs [] F G N). Qed.
Lemma map_u64 l : map u64 l = map (fun r => r mod 2^64) l.
Proof. reflexivity. Qed.
Lemma way_to p w h : is_way p w h -> to_hl_way p w = Ok h.
Proof. intros (I & T & N). unfold to_hl_way. rewrite (tag_loop_at _ _ _ _ T). cbn [bind]. rewrite map_u64, <- N, <- I. destruct h; reflexivity. Qed.
Lemma roles_to p : forall ids roles, Forall is_s32 ids -> Forall2 (string_at p) ids roles -> mapm (fun r => GetString p (u32 r)) ids = Ok roles.
Proof.
  intros ids roles T F. induction F as [|i r ids roles H F IH]; [reflexivity|]. apply Forall_cons_iff in T as [Ti T]. cbn [mapm].
  rewrite u32_id by (destruct H as (_ & _ & H & _); unfold is_u32; unfold is_s32 in Ti; lia). rewrite (string_get _ _ _ H). cbn [bind]. rewrite (IH T). reflexivity.
Qed.
Lemma relation_to p r h : relation_typed r -> is_relation p r h -> to_hl_rel p r = Ok h.
Proof.
  intros (T1 & T2 & T3 & T4 & T5 & T6) (I & T & Ro & M & Ty & B). unfold to_hl_rel. rewrite (tag_loop_at _ _ _ _ T). cbn [bind]. rewrite (roles_to _ _ _ T4 Ro). cbn [bind].
  assert (E : map s64 (rel_MemberType r) = rel_MemberType r).
  { rewrite <- (map_id (rel_MemberType r)) at 2. apply map_ext_in. intros x Hx. apply s64_id. eapply Forall_forall in T6; [|exact Hx]. eapply Forall_forall in B; [|exact Hx]. unfold is_s64, is_u64 in *. lia. }
  rewrite E, <- M, <- Ty, <- I. destruct h; reflexivity.
Qed.

Lemma keys_vals_array kvs : keys_vals kvs = dense_array kvs.
Proof.
  unfold keys_vals. induction kvs as [|kv kvs IH]; [reflexivity|]. cbn [map concat dense_array]. rewrite IH, <- app_assoc. cbn [app]. f_equal.
  clear. induction kv as [|[k v] kv IH]; [reflexivity|]. cbn [map concat flat app fst snd]. rewrite IH. reflexivity.
Qed.
Lemma dense_gen p : forall ids lats lons kvs ns, are_nodes p ids lats lons kvs ns -> forall ids0 lats0 lons0 kvs0 d n,
  List.length ids0 = n -> List.length lats0 = n -> List.length lons0 = n -> List.length kvs0 = n -> answers (kvs0 ++ kvs) d ->
  dn_Id d = ids0 ++ ids -> dn_Lat d = lats0 ++ lats -> dn_Lon d = lons0 ++ lons ->
  dense_loop p d (map Z.of_nat (seq n (List.length ids))) = Ok ns.
Proof.
  induction 1 as [|id lat lon kv nd ids lats lons kvs ns N1 N2 N3 N4 N5 N6 N7 N8 N9 A IH]; intros ids0 lats0 lons0 kvs0 d n L1 L2 L3 L4 An D1 D2 D3; [reflexivity|].
  cbn [List.length seq map dense_loop]. assert (N : forall B (l : list B) x r, List.length l = n -> nth_error (l ++ x :: r) n = Some x).
  { intros B l x r Hl. rewrite nth_error_app2 by lia. rewrite <- Hl, Nat.sub_diag. reflexivity. }
  destruct An as (P & Pd & An). destruct (An _ Pd _ _ (N _ kvs0 kv kvs L4)) as (d' & E & Pd'). rewrite E. cbn [bind]. destruct (GetKeyVals_fields _ _ _ _ _ E) as (F1 & F2 & F3 & F4).
  rewrite (tag_loop_at _ _ _ _ N8). cbn [bind]. rewrite F1, F2, F3, D1, D2, D3. rewrite (lidx_nth _ _ _ (N _ ids0 id ids L1)). cbn [bind].
  rewrite (lidx_nth _ _ _ (N _ lats0 lat lats L2)). cbn [bind]. rewrite (lidx_nth _ _ _ (N _ lons0 lon lons L3)). cbn [bind].
  rewrite (IH (ids0 ++ [id]) (lats0 ++ [lat]) (lons0 ++ [lon]) (kvs0 ++ [kv]) d' (S n)); try (rewrite app_length; cbn [List.length]; lia); try (rewrite <- app_assoc; cbn [app]; congruence).
  2:{ rewrite <- app_assoc. exists P. split; [exact Pd'|exact An]. }
  cbn [bind]. rewrite (s64_id (pblk_Granularity p * lat)), (s64_id (pblk_Granularity p * lon)) by assumption. rewrite <- N2, <- N5, !s64_id by assumption. unfold u64. rewrite <- N1. destruct nd; reflexivity.
Qed.
Definition fresh (p : PrimitiveBlock) : Prop :=
  forall g d, In g (pblk_PrimitiveGroup p) -> pg_Dense g = Some d -> dn_cacheKeys d = [] /\ dn_cacheVals d = [].
Lemma dense_tag_ok kvs : Forall is_s32 (dense_array kvs) -> forall p ids lats lons ns, are_nodes p ids lats lons kvs ns -> Forall (Forall tag_ok) kvs.
Proof.
  intros T p ids lats lons ns A. induction A as [|id lat lon kv nd ids lats lons kvs ns N1 N2 N3 N4 N5 N6 N7 N8 N9 A IH]; [constructor|].
  cbn [dense_array] in T. apply Forall_app in T as [T1 T2]. apply Forall_cons_iff in T2 as [_ T2]. constructor; [|apply IH, T2]. clear IH A T2. destruct N8 as (_ & F & G).
  revert F G. generalize (map fst (hn_Tags nd)) (map snd (hn_Tags nd)). induction kv as [|[k v] kv IH]; intros l1 l2 F G; [constructor|]. cbn [map fst snd flat] in *.
  inversion F as [|? ? ? ? Fk F']; subst. inversion G as [|? ? ? ? Gv G']; subst. apply Forall_cons_iff in T1 as [Tk T1]. apply Forall_cons_iff in T1 as [Tv T1].
  constructor; [|eapply IH; eauto; intros X; apply N9; right; exact X]. destruct Fk as (_ & _ & Fk & _). destruct Gv as (_ & _ & Gv & _). unfold tag_ok, is_s32 in *. cbn [fst snd].
  assert (k <> 0) by (intros ->; apply N9; left; reflexivity). lia.
Qed.
Lemma group_nodes p g ns : group_typed g -> (forall d, pg_Dense g = Some d -> dn_cacheKeys d = [] /\ dn_cacheVals d = []) -> dense_nodes_are p g ns ->
  match pg_Dense g with None => Ok [] | Some d => dense_loop p d (indexes (dn_Id d)) end = Ok ns.
Proof.
  intros (T & _) Fr D. unfold dense_nodes_are in D. destruct (pg_Dense g) as [d|]; [|subst; reflexivity]. destruct D as (kvs & A & K). destruct (Fr d eq_refl) as (C1 & C2). destruct (T d eq_refl) as (_ & _ & _ & T4).
  unfold indexes. apply (dense_gen p _ _ _ kvs ns A [] [] [] [] d 0); try reflexivity. cbn [app]. destruct K as [K|[K1 K2]].
  - rewrite keys_vals_array in K. apply answers_good; [eapply dense_tag_ok; [rewrite <- K; exact T4|exact A]|]. split; [exact K|]. left. auto.
  - apply answers_none; assumption.
Qed.
Lemma nodes_to p ns : block_typed p -> fresh p -> nodes_are p ns -> ToNodes p = Ok ns.
Proof.
  intros (_ & _ & T & _) Fr (nss & F & ->). rewrite ToNodes_foldm.
  rewrite (foldm_groups (fun g => match pg_Dense g with None => Ok [] | Some d => dense_loop p d (indexes (dn_Id d)) end) _ nss); [reflexivity|].
  assert (Fr' : forall g, In g (pblk_PrimitiveGroup p) -> forall d, pg_Dense g = Some d -> dn_cacheKeys d = [] /\ dn_cacheVals d = []) by (intros g Hg d; apply Fr; exact Hg). clear Fr.
  revert T F Fr'. generalize (pblk_PrimitiveGroup p). intros gs T F Fr. induction F as [|g l gs nss D F IH]; [constructor|]. apply Forall_cons_iff in T as [Tg T].
  constructor; [apply group_nodes; [exact Tg|apply Fr; left; reflexivity|exact D]|apply IH; [exact T|intros g' Hg; apply Fr; right; exact Hg]].
Qed.
Lemma f2_app_inv {A B} (R : A -> B -> Prop) l1 l2 m : Forall2 R (l1 ++ l2) m -> exists m1 m2, m = m1 ++ m2 /\ Forall2 R l1 m1 /\ Forall2 R l2 m2.
Proof. intros H. apply Forall2_app_inv_l in H as (m1 & m2 & H1 & H2 & ->). exists m1, m2. auto. Qed.
Lemma mapm_f2 {A B} (f : A -> res B) (R : A -> B -> Prop) l m : (forall a b, In a l -> R a b -> f a = Ok b) -> Forall2 R l m -> mapm f l = Ok m.
Proof.
  intros H F. induction F as [|a b l m X F IH]; [reflexivity|]. cbn [mapm]. rewrite (H a b) by (try (left; reflexivity); exact X). cbn [bind]. rewrite IH by (intros; apply H; [right|]; assumption). reflexivity.
Qed.
Lemma groups_to {A B} (f : A -> res B) (R : A -> B -> Prop) (sel : PrimitiveGroup -> list A) : forall gs out acc,
  (forall a b, In a (flat_map sel gs) -> R a b -> f a = Ok b) -> Forall2 R (flat_map sel gs) out ->
  foldm (fun acc g => new <- mapm f (sel g) ;; Ok (acc ++ new)) gs acc = Ok (acc ++ out).
Proof.
  induction gs as [|g gs IH]; intros out acc H F; cbn [flat_map foldm] in *; [inversion F; subst; rewrite app_nil_r; reflexivity|].
  apply f2_app_inv in F as (o1 & o2 & -> & F1 & F2). rewrite (mapm_f2 f R (sel g) o1); [|intros a b Ha; apply H, in_or_app; left; exact Ha|exact F1]. cbn [bind].
  rewrite (IH o2 (acc ++ o1)); [rewrite app_assoc; reflexivity|intros a b Ha; apply H, in_or_app; right; exact Ha|exact F2].
Qed.
Lemma ways_to p ws : ways_are p ws -> ToWays p = Ok ws.
Proof. intros F. exact (groups_to (to_hl_way p) (is_way p) (fun g => elems (pg_Ways g)) (pblk_PrimitiveGroup p) ws [] (fun a b _ => way_to p a b) F). Qed.
Lemma relations_to p rs : block_typed p -> relations_are p rs -> ToRelations p = Ok rs.
Proof.
  intros (_ & _ & T & _) F. apply (groups_to (to_hl_rel p) (is_relation p) (fun g => elems (pg_Relations g)) (pblk_PrimitiveGroup p) rs []); [|exact F].
  intros r h Hr. apply relation_to. apply in_flat_map in Hr as (g & Hg & Hr). eapply Forall_forall in T; [|exact Hg]. destruct T as (_ & _ & _ & _ & T & _).
  destruct (pg_Relations g) as [l|]; [|destruct Hr]. specialize (T l eq_refl). eapply Forall_forall in T; [exact T|exact Hr].
Qed.

(** ** reading *)
Lemma dense_fresh b d : ReadDenseNodes b DenseNodes0 = Ok d -> dn_cacheKeys d = [] /\ dn_cacheVals d = [].
Proof.
  apply (read_msg_typed (fun d => dn_cacheKeys d = [] /\ dn_cacheVals d = [])); [|split; reflexivity]. intros id n n' upd H s (S1 & S2). unfold dense_handler in H.
  repeat hstep H; cbn [dn_cacheKeys dn_cacheVals]; split; assumption.
Qed.
Definition gfresh (g : PrimitiveGroup) : Prop := forall d, pg_Dense g = Some d -> dn_cacheKeys d = [] /\ dn_cacheVals d = [].
Lemma group_fresh pbr b g : ReadPrimitiveGroup pbr b PrimitiveGroup0 = Ok g -> gfresh g.
Proof.
  apply (read_msg_typed gfresh); [|intros d X; discriminate X]. intros id n n' upd H s Hs. unfold group_handler in H.
  repeat hstep H; intros d0 X; cbn [pg_Dense] in X; try (apply Hs; exact X); try (injection X as <-; eapply dense_fresh; eassumption); discriminate X.
Qed.
Lemma block_fresh pbr b p : ReadPrimitiveBlock pbr b PrimitiveBlock0 = Ok p -> fresh p.
Proof.
  intros H. assert (G : Forall gfresh (pblk_PrimitiveGroup p)).
  { revert H. apply (read_msg_typed (fun p => Forall gfresh (pblk_PrimitiveGroup p))); [|constructor]. intros id n n' upd H s Hs. unfold block_handler in H.
    repeat hstep H; cbn [pblk_PrimitiveGroup]; try exact Hs. apply Forall_app. split; [exact Hs|]. constructor; [|constructor]. eapply group_fresh. eassumption. }
  intros g d Hg. eapply Forall_forall in G; [|exact Hg]. apply G.
Qed.

Lemma string_same p q i s : pblk_StringTable q = pblk_StringTable p -> string_at p i s -> string_at q i s.
Proof. intros E (st & H). exists st. rewrite E. exact H. Qed.
Lemma strings_same p q l m : pblk_StringTable q = pblk_StringTable p -> Forall2 (string_at p) l m -> Forall2 (string_at q) l m.
Proof. intros E. apply Forall2_impl. intros a b. apply string_same, E. Qed.
Lemma tags_same p q ks vs t : pblk_StringTable q = pblk_StringTable p -> tags_at p ks vs t -> tags_at q ks vs t.
Proof. intros E (N & F & G). split; [exact N|]. split; eapply strings_same; eauto. Qed.
Lemma are_same p q ids lats lons kvs ns : pblk_StringTable q = pblk_StringTable p -> pblk_Granularity q = pblk_Granularity p -> pblk_LatOffset q = pblk_LatOffset p -> pblk_LonOffset q = pblk_LonOffset p ->
  are_nodes p ids lats lons kvs ns -> are_nodes q ids lats lons kvs ns.
Proof.
  intros St Gr La Lo. induction 1 as [|id lat lon kv nd ids lats lons kvs ns N1 N2 N3 N4 N5 N6 N7 N8 N9 A IHA]; constructor; rewrite ?Gr, ?La, ?Lo; try assumption. eapply tags_same; eauto.
Qed.
Lemma nodes_same p q ns : same_block p q -> nodes_are p ns -> nodes_are q ns.
Proof.
  intros (_ & St & F & Gr & _ & La & Lo) (nss & N & ->). exists nss. split; [|reflexivity]. revert nss N. induction F as [|g g' gs gs' (_ & S & _) F IH]; intros nss N; inversion N as [|? l ? nss' D N']; subst; [constructor|].
  constructor; [|apply IH, N']. unfold dense_nodes_are in *. destruct (pg_Dense g) as [d|], (pg_Dense g') as [d'|]; try contradiction; [|exact D]. destruct S as (S1 & S2 & S3 & S4). rewrite S1, S2, S3, S4. destruct D as (kvs & A & K). exists kvs. split; [|exact K].
  eapply are_same; eauto.
Qed.
Lemma ways_same p q ws : same_block p q -> ways_are p ws -> ways_are q ws.
Proof.
  intros (_ & St & F & _). unfold ways_are. replace (flat_map (fun g => elems (pg_Ways g)) (pblk_PrimitiveGroup q)) with (flat_map (fun g => elems (pg_Ways g)) (pblk_PrimitiveGroup p)).
  - apply Forall2_impl. intros w h (A & B & C). split; [exact A|]. split; [eapply tags_same; eauto|exact C].
  - eapply f2_flat; [|exact F]. intros a b (_ & _ & H & _). symmetry. exact H.
Qed.
Lemma relations_same p q rs : same_block p q -> relations_are p rs -> relations_are q rs.
Proof.
  intros (_ & St & F & _). unfold relations_are. replace (flat_map (fun g => elems (pg_Relations g)) (pblk_PrimitiveGroup q)) with (flat_map (fun g => elems (pg_Relations g)) (pblk_PrimitiveGroup p)).
  - apply Forall2_impl. intros w h (A & B & C & D). split; [exact A|]. split; [eapply tags_same; eauto|]. split; [eapply strings_same; eauto|exact D].
  - eapply f2_flat; [|exact F]. intros a b (_ & _ & _ & _ & H & _). symmetry. exact H.
Qed.
Lemma read_entities env b p e : go_slice (blk_Data b) -> env_ok env -> data_block env b (Some p) -> elements_are (Some p) (Some e) ->
  entities env b (el_nodes e) (el_ways e) (el_relations e).
Proof.
  intros Gs He (T & raw & D & M & L) (N & W & R). pose proof (data_len _ _ _ D L) as Lr. destruct b as [ix [v ex] ty]. cbn [blk_Data blk_Type vis] in *.
  destruct (data_read env v raw ex D L) as (bl & [sv se] & E1 & E2 & E3). cbn [vis] in E3. subst sv. destruct (block_read everything raw p se M Lr) as (q & Eq & Sq).
  assert (DT : decodes_to env (mkBlk ix (mkslice v ex) ty) q) by (exists bl, (mkslice raw se); auto).
  pose proof (decodes_typed env (mkBlk ix (mkslice v ex) ty) q Gs He DT) as Tq. pose proof (block_fresh _ _ _ Eq) as Fq.
  exists q. split; [exact DT|]. split; [apply nodes_to; [exact Tq|exact Fq|eapply nodes_same; eauto]|]. split; [apply ways_to; eapply ways_same; eauto|apply relations_to; [exact Tq|eapply relations_same; eauto]].
Qed.

(** ** blocks as built *)
Notation built := HLProofs.block_of.
Lemma string_idx p t s : pblk_StringTable p = Some t -> In s t -> zlen t <= 2^31 -> string_at p (idx t s) s.
Proof. intros Hp H Hl. destruct (idx_small t s H Hl) as [E B]. exists t. split; [exact Hp|]. split; [lia|]. rewrite E, Nat2Z.id. apply posn_nth, H. Qed.
Lemma strings_idx p t : pblk_StringTable p = Some t -> zlen t <= 2^31 -> forall l, (forall s, In s l -> In s t) -> Forall2 (string_at p) (map (idx t) l) l.
Proof. intros Hp Hl. induction l as [|s l IH]; intros H; cbn [map]; constructor; [apply string_idx; auto; apply H; left; reflexivity|apply IH; intros; apply H; right; assumption]. Qed.
Lemma tags_idx p t m : pblk_StringTable p = Some t -> zlen t <= 2^31 -> is_map m -> (forall s, In s (tag_strings m) -> In s t) ->
  tags_at p (map fst (kv t m)) (map snd (kv t m)) (sorted_tags m).
Proof.
  intros Hp Hl M Hin. split; [apply sorted_tags_nodup, M|]. unfold kv. rewrite !map_map. cbn [fst snd]. rewrite <- (map_map fst (idx t)), <- (map_map snd (idx t)).
  split; apply strings_idx; try assumption; intros s Hs; apply in_map_iff in Hs as ([k v] & <- & H); apply Hin, sorted_tags_strings; try assumption; apply in_flat_map; exists (k, v); cbn; auto.
Qed.
Lemma way_built p t w : pblk_StringTable p = Some t -> zlen t <= 2^31 -> hway_typed w -> (forall s, In s (tag_strings (hw_Tags w)) -> In s t) -> is_way p (HLProofs.way_of t w) (back_way w).
Proof.
  intros Hp Hl (T1 & (T2 & _) & T3) Hin. split; [reflexivity|]. split; [apply tags_idx; assumption|]. cbn [HLProofs.way_of way_Refs back_way hw_Nodes]. rewrite <- map_u64. symmetry. apply map_back. eapply Forall_impl; [|exact T3]. intros. apply u64_s64_id; assumption.
Qed.
Lemma relation_built p t r : pblk_StringTable p = Some t -> zlen t <= 2^31 -> hrel_typed r -> Forall (fun x => 0 <= x) (hr_MemberType r) ->
  (forall s, In s (tag_strings (hr_Tags r)) \/ In s (hr_Roles r) -> In s t) -> is_relation p (rel_of t r) (back_rel r).
Proof.
  intros Hp Hl (T1 & (T2 & _) & T3 & T4 & T5) P Hin. split; [reflexivity|]. split; [apply tags_idx; auto|]. cbn [rel_of rel_RolesSID rel_MemIDs rel_MemberType back_rel hr_Roles hr_Members hr_MemberType].
  assert (E : map u64 (hr_MemberType r) = hr_MemberType r).
  { rewrite <- (map_id (hr_MemberType r)) at 2. apply map_ext_in. intros x Hx. apply u64_id. eapply Forall_forall in T5; [|exact Hx]. eapply Forall_forall in P; [|exact Hx]. unfold is_s64, is_u64 in *. lia. }
  rewrite E. split; [|split; [reflexivity|split; [reflexivity|]]].
  - replace (map (fun s => s32 (idx t s)) (hr_Roles r)) with (map (idx t) (hr_Roles r)); [apply strings_idx; auto|]. apply map_ext_in. intros s Hs. destruct (idx_small t s) as [_ B]; [auto|exact Hl|]. symmetry. apply s32_small. lia.
  - apply Forall_forall. intros x Hx. eapply Forall_forall in T5; [|exact Hx]. eapply Forall_forall in P; [|exact Hx]. unfold is_s64 in *. lia.
Qed.
Lemma f2_built {A B C} (R : B -> C -> Prop) (f : A -> B) (g : A -> C) l : (forall a, In a l -> R (f a) (g a)) -> Forall2 R (map f l) (map g l).
Proof. induction l as [|a l IH]; intros H; cbn [map]; constructor; [apply H; left; reflexivity|apply IH; intros; apply H; right; assumption]. Qed.
Lemma ways_built ns ws rs : zlen (all_strings ns ws rs) < 2^31 -> Forall hway_typed ws -> ways_are (built ns ws rs) (map back_way ws).
Proof.
  intros Hl T. pose proof (strings_in_table ns ws rs) as (S1 & S2 & S3). pose proof (table_len (all_strings ns ws rs)) as Tl. unfold ways_are.
  replace (flat_map _ _) with (map (HLProofs.way_of (table (all_strings ns ws rs))) ws).
  - apply f2_built. intros w Hw. apply way_built; [reflexivity|lia|eapply Forall_forall in T; eauto|intros s; apply S2; exact Hw].
  - unfold built. cbn [pblk_PrimitiveGroup]. rewrite !flat_map_app. destruct ns, ws, rs; cbn [one flat_map pg_Ways elems app]; rewrite ?app_nil_r; reflexivity.
Qed.
Lemma relations_built ns ws rs : zlen (all_strings ns ws rs) < 2^31 -> Forall hrel_typed rs -> Forall (fun r => Forall (fun x => 0 <= x) (hr_MemberType r)) rs -> relations_are (built ns ws rs) (map back_rel rs).
Proof.
  intros Hl T P. pose proof (strings_in_table ns ws rs) as (S1 & S2 & S3). pose proof (table_len (all_strings ns ws rs)) as Tl. unfold relations_are.
  replace (flat_map _ _) with (map (rel_of (table (all_strings ns ws rs))) rs).
  - apply f2_built. intros w Hw. apply relation_built; [reflexivity|lia|eapply Forall_forall in T; eauto|eapply Forall_forall in P; [exact P|exact Hw]|intros s; apply S3; exact Hw].
  - unfold built. cbn [pblk_PrimitiveGroup]. rewrite !flat_map_app. destruct ns, ws, rs; cbn [one flat_map pg_Relations elems app]; rewrite ?app_nil_r; reflexivity.
Qed.
Lemma quot_100 v : Z.quot (0 + 100 * v) 100 = v.
Proof. rewrite Z.add_0_l, (Z.mul_comm 100 v). apply Z.quot_mul. lia. Qed.
Lemma places_built ns ws rs : block_nodes (built ns ws rs) = map node_place ns.
Proof.
  unfold block_nodes, built. cbn [pblk_PrimitiveGroup]. rewrite !flat_map_app.
  replace (flat_map _ (one ws _)) with (@nil input_node) by (destruct ws; reflexivity). replace (flat_map _ (one rs _)) with (@nil input_node) by (destruct rs; reflexivity). rewrite !app_nil_r.
  destruct ns as [|n ns]; [reflexivity|]. cbn [one flat_map pg_Dense HLProofs.dense_of dn_Id dn_Lat dn_Lon]. rewrite app_nil_r.
  match goal with |- dense_nodes ?p _ _ _ = _ => generalize p (eq_refl : pblk_LonOffset p = 0) (eq_refl : pblk_LatOffset p = 0) (eq_refl : pblk_Granularity p = 100) end.
  intros p E1 E2 E3. generalize (n :: ns). clear -E1 E2 E3. induction l as [|n l IH]; [reflexivity|]. cbn [map dense_nodes]. rewrite IH, E1, E2, E3. unfold coordinate, node_place. rewrite !quot_100. reflexivity.
Qed.
Lemma same_places ns : Forall node_typed ns -> map node_place (map back_node ns) = map node_place ns.
Proof.
  intros T. rewrite map_map. apply map_ext_in. intros n Hn. unfold node_place, back_node. cbn [hn_Id hn_Lat hn_Lon]. f_equal; rewrite <- (Z.add_0_l (100 * _)); apply quot_100.
Qed.
Lemma all_built p t : pblk_StringTable p = Some t -> zlen t <= 2^31 -> pblk_LatOffset p = 0 -> pblk_LonOffset p = 0 -> pblk_Granularity p = 100 ->
  forall ns, Forall node_typed ns -> (forall n s, In n ns -> In s (tag_strings (hn_Tags n)) -> In s t) -> Forall (Forall tag_ok) (map (fun n => kv t (hn_Tags n)) ns) ->
  are_nodes p (map (fun n => s64 (hn_Id n)) ns) (map (fun n => Z.quot (hn_Lat n) 100) ns) (map (fun n => Z.quot (hn_Lon n) 100) ns) (map (fun n => kv t (hn_Tags n)) ns) (map back_node ns).
Proof.
  intros Hp Hl E1 E2 E3. induction ns as [|n ns IH]; intros T Hin K; cbn [map]; [constructor|]. apply Forall_cons_iff in T as [(T1 & (T2 & _) & T3 & T4) T]. cbn [map] in K. apply Forall_cons_iff in K as [K1 K].
  constructor; cbn [back_node hn_Id hn_Lat hn_Lon hn_Tags]; rewrite ?E1, ?E2, ?E3; try (apply quot100; assumption); try lia.
  - symmetry. apply u64_s64_id. exact T1.
  - apply tags_idx; try assumption. intros s. apply Hin. left; reflexivity.
  - intros X. apply in_map_iff in X as (e & X1 & X2). eapply Forall_forall in K1; [|exact X2]. destruct K1 as ((K1 & _) & _). lia.
  - apply IH; try assumption. intros n' s Hn'. apply Hin. right; exact Hn'.
Qed.
Lemma built_fresh ns ws rs : fresh (built ns ws rs).
Proof.
  intros g d Hg Hd. unfold built in Hg. cbn [pblk_PrimitiveGroup] in Hg. rewrite !in_app_iff in Hg.
  destruct ns, ws, rs; cbn [one In] in Hg; intuition (subst; cbn [pg_Dense] in Hd; try discriminate Hd; injection Hd as <-; split; reflexivity).
Qed.
Lemma nodes_built ns ws rs : Forall node_typed ns -> Forall hway_typed ws -> Forall hrel_typed rs -> zlen (all_strings ns ws rs) < 2^31 ->
  (nodes_are (built ns ws rs) (map back_node ns) <-> first_key_free ns ws rs).
Proof.
  intros Tn Tw Tr Hl. split.
  - intros N. pose proof (nodes_to _ _ (block_of_typed ns ws rs Tn Tw Tr) (built_fresh ns ws rs) N) as E. intros n k v Hn Hkv Hf.
    destruct (ToNodes_bad ns ws rs n k v Hl Tn Hn Hkv Hf _ E) as (j & m & m' & J1 & J2 & J3). rewrite nth_error_map, J1 in J2. injection J2 as <-. cbn [back_node hn_Tags] in J3.
    pose proof (proj1 (Forall_forall _ _) Tn m (nth_error_In _ _ J1)) as (_ & (M & _) & _). pose proof (Permutation_length (sorted_tags_perm _ M)). lia.
  - intros FK. pose proof (strings_in_table ns ws rs) as (S1 & S2 & S3). pose proof (table_len (all_strings ns ws rs)) as Tl.
    assert (K : Forall (Forall tag_ok) (map (fun n => kv (table (all_strings ns ws rs)) (hn_Tags n)) ns)).
    { apply Forall_map, Forall_forall. intros n Hn. apply kv_tag_ok; [lia|eapply Forall_forall in Tn; [|exact Hn]; apply Tn| |intros s; apply S1; exact Hn].
      intros k v r Hkv X. apply (FK n k v Hn Hkv). apply table_first. exists r. exact X. }
    assert (D : forall g, g = mkGroup None (Some (HLProofs.dense_of (table (all_strings ns ws rs)) ns)) None [] None [] -> dense_nodes_are (built ns ws rs) g (map back_node ns)).
    { intros g ->. unfold dense_nodes_are. cbn [pg_Dense]. exists (map (fun n => kv (table (all_strings ns ws rs)) (hn_Tags n)) ns). split.
      - apply all_built; try reflexivity; [lia|exact Tn|exact S1|exact K].
      - unfold HLProofs.dense_of. cbn [dn_KeyVals]. assert (E : map (kvs32 (table (all_strings ns ws rs))) ns = map (fun n => kv (table (all_strings ns ws rs)) (hn_Tags n)) ns).
        { apply map_ext_in. intros n Hn. apply kvs32_kv. rewrite Forall_map in K. eapply Forall_forall in K; [exact K|exact Hn]. }
        rewrite E, keys_vals_array. destruct (Z.eqb_spec (zlen (dense_array (map (fun n => kv (table (all_strings ns ws rs)) (hn_Tags n)) ns))) (zlen ns)) as [Ez|Ez]; [right|left; reflexivity].
        split; [reflexivity|]. rewrite dense_array_len, zlen_map in Ez. assert (Z0 : zlen (concat (map (fun n => kv (table (all_strings ns ws rs)) (hn_Tags n)) ns)) = 0) by lia. revert Z0. generalize (map (fun n => kv (table (all_strings ns ws rs)) (hn_Tags n)) ns). clear.
        induction l as [|a l IH]; intros Z0; [constructor|]. cbn [concat] in Z0. rewrite zlen_app in Z0. pose proof (zlen_nonneg a). pose proof (zlen_nonneg (concat l)). constructor; [apply zlen_0; lia|apply IH; lia]. }
    assert (W : forall g, In g (one ws (mkGroup None None (Some (map (HLProofs.way_of (table (all_strings ns ws rs))) ws)) [] None []) ++ one rs (mkGroup None None None [] (Some (map (rel_of (table (all_strings ns ws rs))) rs)) [])) -> dense_nodes_are (built ns ws rs) g []).
    { intros g Hg. apply in_app_iff in Hg. destruct ws, rs; cbn [one In] in Hg; intuition (subst; reflexivity). }
    exists (match ns with [] => [] | _ => [map back_node ns] end ++ map (fun _ => []) (one ws (mkGroup None None (Some (map (HLProofs.way_of (table (all_strings ns ws rs))) ws)) [] None []) ++ one rs (mkGroup None None None [] (Some (map (rel_of (table (all_strings ns ws rs))) rs)) []))). split.
    + unfold built at 2. cbn [pblk_PrimitiveGroup]. apply Forall2_app.
      * destruct ns as [|n ns]; [constructor|]. cbn [one]. constructor; [apply D; reflexivity|constructor].
      * revert W. generalize (one ws (mkGroup None None (Some (map (HLProofs.way_of (table (all_strings ns ws rs))) ws)) [] None []) ++ one rs (mkGroup None None None [] (Some (map (rel_of (table (all_strings ns ws rs))) rs)) [])). generalize (built ns ws rs). clear.
        intros p l H. induction l as [|g l IH]; cbn [map]; constructor; [apply H; left; reflexivity|apply IH; intros; apply H; right; assumption].
    + rewrite concat_app. replace (concat (map (fun _ : PrimitiveGroup => []) _)) with (@nil HLNode); [rewrite app_nil_r; destruct ns; cbn [one concat]; rewrite ?app_nil_r; reflexivity|].
      clear. match goal with |- _ = concat (map _ ?x) => generalize x end. intros l. induction l as [|g l IH]; [reflexivity|exact IH].
Qed.
Lemma tag_perm m : is_map m -> Permutation (tag_strings m) (tag_strings (sorted_tags m)).
Proof. intros M. apply Permutation_flat_map, sorted_tags_perm, M. Qed.
Lemma all_perm ns ws rs : Forall node_typed ns -> Forall hway_typed ws -> Forall hrel_typed rs ->
  Permutation (all_strings ns ws rs) (all_strings (map back_node ns) (map back_way ws) (map back_rel rs)).
Proof.
  intros Tn Tw Tr. unfold all_strings. apply Permutation_app; [|apply Permutation_app].
  - clear -Tn. induction Tn as [|n ns (_ & (M & _) & _) T IH]; [constructor|]. cbn [map flat_map]. apply Permutation_app; [apply tag_perm, M|exact IH].
  - clear -Tw. induction Tw as [|n ns (_ & (M & _) & _) T IH]; [constructor|]. cbn [map flat_map]. apply Permutation_app; [apply tag_perm, M|exact IH].
  - clear -Tr. induction Tr as [|n ns (_ & (M & _) & _) T IH]; [constructor|]. cbn [map flat_map]. apply Permutation_app; [apply Permutation_app; [apply tag_perm, M|apply Permutation_refl]|exact IH].
Qed.
Lemma free_back ns ws rs : Forall node_typed ns -> Forall hway_typed ws -> Forall hrel_typed rs ->
  (first_key_free (map back_node ns) (map back_way ws) (map back_rel rs) <-> first_key_free ns ws rs).
Proof.
  intros Tn Tw Tr. pose proof (table_perm _ _ (all_perm ns ws rs Tn Tw Tr)) as E. split.
  - intros H n k v Hn Hkv Hf. apply (H (back_node n) k v); [apply in_map; exact Hn| |].
    + cbn [back_node hn_Tags]. eapply Permutation_in; [|exact Hkv]. apply sorted_tags_perm. eapply Forall_forall in Tn; [|exact Hn]. apply Tn.
    + apply table_first. rewrite <- E. apply table_first. exact Hf.
  - intros H n k v Hn Hkv Hf. apply in_map_iff in Hn as (n0 & <- & Hn). apply (H n0 k v Hn).
    + cbn [back_node hn_Tags] in Hkv. eapply Permutation_in; [|exact Hkv]. apply Permutation_sym, sorted_tags_perm. eapply Forall_forall in Tn; [|exact Hn]. apply Tn.
    + apply table_first. rewrite E. apply table_first. exact Hf.
Qed.
Lemma built_msg ns ws rs out : Forall node_typed ns -> Forall hway_typed ws -> Forall hrel_typed rs -> out_blob ns ws rs = Ok out ->
  exists raw, block_msg everything raw (built ns ws rs) /\ blob_msg out (Some raw) None None /\ zlen raw < 2^28.
Proof.
  intros Tn Tw Tr H. pose proof (block_of_typed ns ws rs Tn Tw Tr) as BT. unfold out_blob in H. apply (Blob_Write_func_app _ (PrimitiveBlock_Write (built ns ws rs)) (block_fits (built ns ws rs)) (block_enc (built ns ws rs))) in H as [[F Fl] ->]; [|reflexivity|apply PrimitiveBlock_Write_app].
  exists (block_enc (built ns ws rs)). split; [apply block_w; try assumption; [exact (block_of_form ns ws rs)|lia]|]. split; [|exact Fl].
  apply (blob_w (fixed_field 4 blobRaw (block_enc (built ns ws rs))) (Some (leb_fixed 4 (zlen (block_enc (built ns ws rs))), block_enc (built ns ws rs))) None None); try discriminate.
  apply (msg_fixed 3); [unfold blobRaw; lia|lia|exact Fl|apply block_bytes; assumption].
Qed.

(** ** one block *)
Lemma member_types p rs : relations_are p rs -> Forall (fun r => Forall (fun x => 0 <= x) (hr_MemberType r)) rs.
Proof.
  unfold relations_are. induction 1 as [|r h l m (_ & _ & _ & _ & E & H) F IH]; constructor; [|exact IH]. rewrite E. eapply Forall_impl; [|exact H]. cbn. intros. lia.
Qed.
(** A blob that holds this block whatever the decompression. *)
Definition stored (b : Block) (c : option PrimitiveBlock) : Prop :=
  match c with
  | None => blk_Type b = bytes_of "OSMHeader"
  | Some p => blk_Type b = bytes_of "OSMData" /\ exists raw, blob_msg (vis (blk_Data b)) (Some raw) None None /\ block_msg everything raw p
  end.
Definition no_filler (b : Block) : bool := negb (seqb (blk_Type b) (bytes_of "Filler")).
Lemma filter_strings ns s : In s (flat_map (fun n => tag_strings (hn_Tags n)) (filter_nodes ns)) -> In s (flat_map (fun n => tag_strings (hn_Tags n)) ns).
Proof.
  induction ns as [|n ns IH]; cbn [filter_nodes flat_map]; [exact id|]. rewrite in_app_iff. destruct (0 <? _); [|auto]. cbn [flat_map hn_Tags]. rewrite in_app_iff. intros [H|H]; [left|auto].
  apply in_flat_map in H as (kv & H & X). apply filter_In in H as [H _]. apply in_flat_map. exists kv. auto.
Qed.
Lemma block_filter env b c e msg : go_slice (blk_Data b) -> env_ok env -> data_block env b c -> elements_are c e -> tf_worker [(env, b)] = Ok [msg] ->
  (no_filler msg = false /\ exists ns, e = Some (mkElements ns [] []) /\ interesting ns []) \/
  (no_filler msg = true /\ exists c' e', stored msg c' /\ written_as c' e' /\ (no_empty e -> elements_are c' e') /\ forall es es', filtered es es' -> filtered (e :: es) (e' :: es')).
Proof.
  intros Gs He D El W. destruct c as [p|], e as [[ns ws rs]|]; try contradiction.
  2:{ right. cbn [data_block] in D. rewrite worker_one in W. unfold tf_step in W. destruct (seqb_spec (blk_Type b) tOSMData) as [X|X]; [rewrite D in X; discriminate X|]. cbn [negb bind] in W.
      change (0 <? zlen (@nil HLNode)) with false in W. cbn match in W. injection W as <-. split; [unfold no_filler; rewrite D; reflexivity|]. exists None, None. split; [exact D|]. split; [exact I|]. split; [intros _; exact I|]. intros. constructor. assumption. }
  pose proof (read_entities env b p _ Gs He D El) as En. cbn [el_nodes el_ways el_relations] in En. destruct (entities_typed env b ns ws rs Gs He En) as (T1 & T2 & T3). pose proof (filter_nodes_typed ns T1) as T1'.
  pose proof (filter_nodes_interesting ns (typed_maps ns T1)) as In1. rewrite (worker_eq env b ns ws rs (proj1 D) En T1 T2 T3) in W.
  destruct (match filter_nodes ns, ws, rs with [], [], [] => true | _, _, _ => false end) eqn:Em.
  { left. destruct (filter_nodes ns), ws, rs; try discriminate Em. injection W as <-. split; [reflexivity|]. exists ns. split; [reflexivity|exact In1]. }
  right. assert (Eo : exists out, out_blob (filter_nodes ns) ws rs = Ok out /\ msg = mkBlk (blk_Index b) (exact out) tOSMData).
  { destruct (filter_nodes ns), ws, rs; [discriminate Em|..]; (destruct (out_blob _ _ _) as [o| |]; [injection W as <-; exists o; auto|discriminate..]). }
  destruct Eo as (out & Eo & ->). split; [reflexivity|]. pose proof (written_small _ _ _ _ _ T1' T2 T3 Eo) as Hs. destruct (built_msg _ _ _ _ T1' T2 T3 Eo) as (raw & M1 & M2 & _).
  exists (Some (built (filter_nodes ns) ws rs)), (Some (mkElements (map back_node (filter_nodes ns)) (map back_way ws) (map back_rel rs))). split; [split; [reflexivity|exists raw; auto]|].
  assert (WA : written_as (Some (built (filter_nodes ns) ws rs)) (Some (mkElements (map back_node (filter_nodes ns)) (map back_way ws) (map back_rel rs)))).
  { cbn [written_as el_nodes el_ways el_relations]. split; [apply ways_built; assumption|]. split; [apply relations_built; try assumption; exact (member_types p rs (proj2 (proj2 El)))|].
    split; [rewrite places_built, same_places by assumption; reflexivity|]. rewrite nodes_built by assumption. symmetry. apply free_back; assumption. }
  split; [exact WA|]. split.
  - intros NE. cbn [no_empty el_nodes el_ways el_relations] in NE. destruct WA as (A1 & A2 & _ & A3). split; [|split; assumption]. apply A3, free_back; try assumption. apply no_empty_free; [|lia].
    intros X. apply NE. unfold all_strings in *. rewrite !in_app_iff in *. destruct X as [X|X]; [left; apply filter_strings, X|right; exact X].
  - intros es es' F. apply (fil_keep ns ws rs (filter_nodes ns)); [exact In1|apply quant_nodes, T1'|apply same_ways, T2|apply same_rels, T3| |exact F].
    intros (X1 & X2 & X3). destruct (filter_nodes ns), ws, rs; discriminate.
Qed.
Lemma blocks_filter envs bs blocks es got : Forall (fun b => go_slice (blk_Data b)) bs -> (forall i, env_ok (envs i)) ->
  Forall2 (fun eb c => data_block (fst eb) (snd eb) c) (with_env envs bs) blocks -> Forall2 elements_are blocks es ->
  Forall2 (fun b msg => tf_worker [(envs (blk_Index b), b)] = Ok [msg]) bs got ->
  exists blocks' es', Forall2 stored (filter no_filler got) blocks' /\ filtered es es' /\ Forall2 written_as blocks' es' /\ (Forall no_empty es -> Forall2 elements_are blocks' es').
Proof.
  intros Gs He D El W. revert blocks es D El Gs. induction W as [|b msg bs got W1 W IH]; intros blocks es D El Gs; cbn [with_env map] in D.
  { inversion D; subst. inversion El; subst. exists [], []. repeat split; constructor. }
  inversion D as [|? c ? cs D1 D']; subst. inversion El as [|? e ? es2 El1 El']; subst. apply Forall_cons_iff in Gs as [G1 Gs]. destruct (IH cs es2 D' El' Gs) as (bl' & es' & S & F & Wr & Ne). cbn [fst snd] in D1.
  destruct (block_filter _ b c e msg G1 (He _) D1 El1 W1) as [(N & ns & -> & I1)|(N & c' & e' & S1 & W1' & N1 & F1)]; cbn [filter]; rewrite N.
  - exists bl', es'. split; [exact S|]. split; [constructor; assumption|]. split; [exact Wr|]. intros X. apply Forall_cons_iff in X as [_ X]. auto.
  - exists (c' :: bl'), (e' :: es'). split; [constructor; assumption|]. split; [apply F1, F|]. split; [constructor; assumption|]. intros X. apply Forall_cons_iff in X as [X1 X]. constructor; auto.
Qed.
Lemma f2_nth_out {A B} (P : A -> B -> Prop) l m : Forall2 P l m -> forall i a b, nth_error l i = Some a -> nth_error m i = Some b -> P a b.
Proof. induction 1 as [|x y l m H F IH]; intros [|i] a b Ha Hb; cbn [nth_error] in *; try discriminate; [congruence|eauto]. Qed.
Lemma stored_osm {R} (envs : R -> Z -> zenv) file bs blocks : bytes file -> zlen file < 2^63 -> pbf_file file (map (fun b => (blk_Type b, vis (blk_Data b))) bs) -> Forall2 stored bs blocks -> osm_file envs file blocks.
Proof.
  intros Bf Lf F S. split; [exact Bf|]. split; [exact Lf|]. exists (map (fun b => (blk_Type b, vis (blk_Data b))) bs). split; [exact F|]. split; [rewrite map_length; exact (f2_len _ _ _ S)|].
  intros i b c Hb Hc. rewrite nth_error_map in Hb. destruct (nth_error bs i) as [b0|] eqn:E; [|discriminate]. injection Hb as <-. pose proof (f2_nth_out _ _ _ S i b0 c E Hc) as H.
  destruct c as [p|]; cbn [stored blob_is fst snd] in *; [|exact H]. destruct H as (T & raw & M & B). split; [exact T|]. exists raw. split; [intros run; left; exists None, None; exact M|exact B].
Qed.
Lemma tf_messages envs bs got : Forall (fun b => go_slice (blk_Data b) /\ zlen (vis (blk_Data b)) < 2^31 /\ known_type (blk_Type b)) bs -> (forall i, env_ok (envs i)) ->
  Forall2 (fun b msg => tf_worker [(envs (blk_Index b), b)] = Ok [msg]) bs got ->
  Forall (fun b => (known_type (blk_Type b) \/ blk_Type b = bytes_of "Filler") /\ bytes (vis (blk_Data b)) /\ zlen (vis (blk_Data b)) < 2^31) got.
Proof.
  intros Go He F2. induction F2 as [|b msg l l' T F2 IH]; [constructor|]. apply Forall_cons_iff in Go as [(G1 & G2 & G3) Go]. constructor; [|apply IH; exact Go].
  rewrite worker_one in T. destruct (tf_step (envs (blk_Index b)) [] b) as [[pd x]| |] eqn:E; cbn [bind] in T; try discriminate T. apply tf_step_pending in E as P. cbn in P. subst pd.
  change (0 <? zlen (@nil HLNode)) with false in T. cbn match in T. injection T as <-. eapply tf_message; eauto.
Qed.
Lemma tf_writes got : Forall (fun b => (known_type (blk_Type b) \/ blk_Type b = bytes_of "Filler") /\ bytes (vis (blk_Data b)) /\ zlen (vis (blk_Data b)) < 2^31) got ->
  exists out, tagfilter_writer got [] = Ok out /\ bytes out /\ pbf_file out (map (fun b => (blk_Type b, vis (blk_Data b))) (filter no_filler got)).
Proof.
  intros H. assert (H' : Forall (fun b => (known_type (blk_Type b) \/ true = true /\ blk_Type b = bytes_of "Filler") /\ bytes (vis (blk_Data b)) /\ zlen (vis (blk_Data b)) < 2^31) got).
  { eapply Forall_impl; [|exact H]. cbn. intuition. }
  destruct (write_blocks_is true got zero4 [] [] eq_refl eq_refl ltac:(constructor) H') as (out & E & B & _). destruct (write_blocks_pbf true got zero4 [] [] eq_refl eq_refl H') as (out' & E' & P). rewrite E in E'. injection E' as <-.
  exists out. split; [exact E|]. split; [exact B|exact P].
Qed.
Lemma file_filter {R R'} (envs : R -> Z -> zenv) (envs' : R' -> Z -> zenv) r file blocks es bs n wp rp s :
  osm_file envs file blocks -> (forall i, env_ok (envs r i)) -> Forall2 elements_are blocks es ->
  read_file file = Ok bs -> reachable (tf_cfg (envs r) wp rp) bs n s -> completed s ->
  exists m out, (m <= List.length es)%nat /\ (s_cancelled s = false -> m = List.length es) /\ tagfilter_writer (s_got s) [] = Ok out /\
    (zlen out < 2^63 -> exists blocks' es', osm_file envs' out blocks' /\ filtered (firstn m es) es' /\ Forall2 written_as blocks' es' /\
       (Forall no_empty es -> Forall2 elements_are blocks' es')).
Proof.
  intros O He El E Re D. pose proof O as (Bf & Lf & _). destruct (osm_read envs file blocks O) as (bs' & E' & Db). rewrite E in E'. injection E' as <-. specialize (Db r).
  destruct (pC81_file (envs r) file bs n wp rp s Bf Lf He E Re D) as (m & out & Hm & Hc & W & Eo & _). pose proof (f2_len _ _ _ Db) as L1. unfold with_env in L1. rewrite map_length in L1. pose proof (f2_len _ _ _ El) as L2.
  exists m, out. split; [lia|]. split; [intros X; specialize (Hc X); lia|]. split; [exact Eo|]. intros Lo.
  pose proof (read_file_go file bs Bf Lf E) as Go. apply (Forall_firstn _ m) in Go. apply (f2_firstn _ m) in Db. apply (f2_firstn _ m) in El. unfold with_env in Db. rewrite firstn_map in Db.
  destruct (blocks_filter (envs r) (firstn m bs) (firstn m blocks) (firstn m es) (s_got s)) as (bl' & es' & S & F & Wr & Ne); try assumption.
  { eapply Forall_impl; [|exact Go]. cbn. tauto. }
  destruct (tf_writes (s_got s) (tf_messages (envs r) (firstn m bs) (s_got s) Go He W)) as (out' & Eo' & Bo & P). rewrite Eo in Eo'. injection Eo' as <-.
  exists bl', es'. split; [apply (stored_osm envs' out (filter no_filler (s_got s))); assumption|]. split; [exact F|]. split; [exact Wr|]. intros X. apply Ne. apply Forall_firstn, X.
Qed.
