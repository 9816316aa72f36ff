(** * EeProofs: lemmas for the end-to-end properties. *)
From Verif Require Import Base BaseLemmas PbModel PbSpec PbProofs PbProofs2 TModel TSpec TProofs TMsg TMsg2 TThms TTyped HLModel HLProofs FrModel FrSpec FrProofs FrThms ZlModel ZlSpec ZlThms TfSpec TfThms
  IoModel IoSpec NiModel NiSpec NiProofs NiProofs2 NiThms RwModel RwSpec RwThms WiModel WiSpec WiThms RiModel RiSpec RiThms WsSpec WsProofs WsRead WsWrite PlModel PlThms EeSpec.
From Verif Require Import NiSpec RwSpec TfSpec RwThms.

(** ** two readings of the same bytes *)
Lemma opt_once {A} (l : list A) : zlen l <= 1 -> opt_list (last_of l) = l.
Proof. destruct l as [|a [|b l]]; [reflexivity|reflexivity|]. rewrite !zlen_cons. pose proof (zlen_nonneg l). lia. Qed.
Lemma chunks_once n once fs vs bs : plain vs bs once fs -> In n once -> opt_list (last_of (chunks n fs)) = chunks n fs.
Proof.
  intros (_ & H) I. apply opt_once. pose proof (proj1 (Forall_forall _ _) H n I). cbn beta in H0. pose proof (filter_occ n fs). lia.
Qed.
Definition gview (pbr : PBReader) (fs : list pbfield) (g : PrimitiveGroup) : PrimitiveGroup :=
  mkGroup (if SkipDenseNodes pbr then last_of (chunks 2 fs) else None) (if SkipDenseNodes pbr then None else pg_Dense g)
          (if SkipWays pbr then None else pg_Ways g) (if SkipWays pbr then chunks 3 fs else [])
          (if SkipRelations pbr then None else pg_Relations g) (if SkipRelations pbr then chunks 4 fs else []).
Definition gpair (pbr : PBReader) (g g' : PrimitiveGroup) : Prop :=
  exists p fs, message p fs /\ plain [] [2; 3; 4; 5] [2] fs /\ group_of everything fs g /\ g' = gview pbr fs g.
Definition bpair (pbr : PBReader) (b b' : PrimitiveBlock) : Prop :=
  Forall2 (gpair pbr) (pblk_PrimitiveGroup b) (pblk_PrimitiveGroup b') /\
  pblk_Granularity b' = pblk_Granularity b /\ pblk_DateGranularity b' = pblk_DateGranularity b /\
  pblk_LatOffset b' = pblk_LatOffset b /\ pblk_LonOffset b' = pblk_LonOffset b /\ pblk_StringTableRaw b = None /\
  exists fs, Forall2 strings_msg (chunks 1 fs) (opt_list (pblk_StringTable b)) /\
    (SkipStringTable pbr = true -> opt_list (pblk_StringTableRaw b') = chunks 1 fs).
Lemma gview_of pbr fs g : plain [] [2; 3; 4; 5] [2] fs -> group_of everything fs g -> group_of pbr fs (gview pbr fs g).
Proof.
  intros P (A & B & C). unfold everything in *. cbn [SkipDenseNodes SkipWays SkipRelations] in *. unfold group_of, gview. destruct pbr as [s1 s2 s3 s4]. cbn.
  split; [|split].
  - destruct s2; cbn; [|tauto]. split; [reflexivity|]. eapply chunks_once; [exact P|left; reflexivity].
  - destruct s3; cbn; tauto.
  - destruct s4; cbn; tauto.
Qed.
Lemma groups_view pbr ps gs : Forall2 (group_msg everything) ps gs -> exists gs', Forall2 (group_msg pbr) ps gs' /\ Forall2 (gpair pbr) gs gs'.
Proof.
  induction 1 as [|p g ps gs (fs & M & P & G) F (gs' & A & B)]; [exists []; split; constructor|].
  exists (gview pbr fs g :: gs'). split; constructor; try assumption.
  - exists fs. split; [exact M|]. split; [exact P|]. apply gview_of; assumption.
  - exists p, fs. auto.
Qed.
Lemma block_view pbr raw b : block_msg everything raw b -> exists b', block_msg pbr raw b' /\ bpair pbr b b'.
Proof.
  intros (fs & M & P & (A & B & C & D & E & F)). unfold everything in A. cbn [SkipStringTable] in A. destruct A as (A1 & A2).
  destruct (groups_view pbr _ _ B) as (gs' & B1 & B2).
  exists (mkBlock (if SkipStringTable pbr then last_of (chunks 1 fs) else None) (if SkipStringTable pbr then None else pblk_StringTable b) gs'
    (pblk_Granularity b) (pblk_DateGranularity b) (pblk_LatOffset b) (pblk_LonOffset b)). split.
  - exists fs. split; [exact M|]. split; [exact P|]. unfold block_of. cbn. split; [|auto]. destruct (SkipStringTable pbr); [|auto].
    split; [reflexivity|]. eapply chunks_once; [exact P|left; reflexivity].
  - unfold bpair. cbn. repeat (split; [assumption || reflexivity|]). exists fs. split; [exact A2|]. intros ->. eapply chunks_once; [exact P|left; reflexivity].
Qed.
Lemma f2_len {A B} (R : A -> B -> Prop) l m : Forall2 R l m -> List.length l = List.length m.
Proof. induction 1; cbn; congruence. Qed.

(** ** what the tools see of a block *)
Lemma f2_flat {A B C} (R : A -> B -> Prop) (f : A -> list C) (g : B -> list C) l m : (forall a b, R a b -> f a = g b) -> Forall2 R l m -> flat_map f l = flat_map g m.
Proof. intros H. induction 1 as [|a b l m X F IH]; [reflexivity|]. cbn [flat_map]. rewrite (H a b X), IH. reflexivity. Qed.
Definition seen_as (pbr : PBReader) (b q : PrimitiveBlock) : Prop := exists b', bpair pbr b b' /\ same_block b' q.
Lemma f2_comp {A B C} (R : A -> B -> Prop) (S : B -> C -> Prop) l m : Forall2 R l m -> forall k, Forall2 S m k -> Forall2 (fun a c => exists b, R a b /\ S b c) l k.
Proof. induction 1 as [|a b l m X F IH]; intros k H; inversion H; subst; constructor; eauto. Qed.
Lemma dense_nodes_ext p q ids : forall lats lons, pblk_Granularity q = pblk_Granularity p -> pblk_LatOffset q = pblk_LatOffset p -> pblk_LonOffset q = pblk_LonOffset p ->
  dense_nodes q ids lats lons = dense_nodes p ids lats lons.
Proof.
  induction ids as [|i ids IH]; intros [|a lats] [|o lons] G La Lo; try reflexivity. cbn [dense_nodes]. rewrite IH by assumption. rewrite G, La, Lo. reflexivity.
Qed.
Lemma seen_nodes pbr b q : SkipDenseNodes pbr = false -> seen_as pbr b q -> block_nodes q = block_nodes b.
Proof.
  intros S (b' & (F & G & _ & La & Lo & _) & (_ & _ & F' & G' & _ & La' & Lo')). unfold block_nodes. symmetry. pose proof (f2_comp _ _ _ _ F _ F') as FF.
  eapply f2_flat; [|exact FF]. intros g g'' (g' & (p & fs & M & P & _ & ->) & (_ & D & _)). unfold gview in D. rewrite S in D. cbn [pg_Dense] in D.
  destruct (pg_Dense g) as [d|], (pg_Dense g'') as [d'|]; try contradiction; [|reflexivity]. destruct D as (-> & -> & -> & _). symmetry. apply dense_nodes_ext; congruence.
Qed.
Lemma seen_ways pbr b q : SkipWays pbr = false -> seen_as pbr b q -> block_ways q = block_ways b.
Proof.
  intros S (b' & (F & _) & (_ & _ & F' & _)). unfold block_ways. symmetry. pose proof (f2_comp _ _ _ _ F _ F') as FF.
  eapply f2_flat; [|exact FF]. intros g g'' (g' & (p & fs & M & P & _ & ->) & (_ & _ & D & _)). unfold gview in D. rewrite S in D. cbn [pg_Ways] in D.
  destruct (pg_Ways g) as [d|], (pg_Ways g'') as [d'|]; cbn [elems] in D; subst; reflexivity.
Qed.
Lemma seen_relations pbr b q : SkipRelations pbr = false -> seen_as pbr b q -> block_relations q = block_relations b.
Proof.
  intros S (b' & (F & _) & (_ & _ & F' & _)). unfold block_relations. symmetry. pose proof (f2_comp _ _ _ _ F _ F') as FF.
  eapply f2_flat; [|exact FF]. intros g g'' (g' & (p & fs & M & P & _ & ->) & (_ & _ & _ & _ & D & _)). unfold gview in D. rewrite S in D. cbn [pg_Relations] in D.
  destruct (pg_Relations g) as [d|], (pg_Relations g'') as [d'|]; cbn [elems] in D; subst; reflexivity.
Qed.
Lemma f2_in_r {A B} (R : A -> B -> Prop) l m y : Forall2 R l m -> In y m -> exists x, In x l /\ R x y.
Proof. induction 1 as [|a b l m X F IH]; intros []; [subst; exists a; split; [left; reflexivity|exact X]|]. destruct (IH H) as (x & I & Y). exists x. split; [right; exact I|exact Y]. Qed.
Lemma seen_sane pbr b q : SkipDenseNodes pbr = false -> seen_as pbr b q -> block_sane b -> block_sane q.
Proof.
  intros S (b' & (F & G & _ & La & Lo & _) & (_ & _ & F' & G' & _ & La' & Lo')) H g'' d'' Hg Hd. pose proof (f2_comp _ _ _ _ F _ F') as FF.
  destruct (f2_in_r _ _ _ _ FF Hg) as (g & Ig & (g' & (p & fs & M & P & _ & ->) & (_ & D & _))). unfold gview in D. rewrite S in D. cbn [pg_Dense] in D. rewrite Hd in D.
  destruct (pg_Dense g) as [d|] eqn:E; [|contradiction]. destruct D as (D1 & D2 & D3 & _). specialize (H g d Ig E). rewrite D1, D2, D3, La', Lo', G', La, Lo, G. exact H.
Qed.

(** ** reading a blob *)
Lemma last_in {A} (l : list A) x : last_of l = Some x -> In x l.
Proof.
  unfold last_of. destruct (rev l) as [|y r] eqn:E; [discriminate|]. intros X. injection X as ->. apply in_rev. rewrite E. left. reflexivity.
Qed.
Lemma data_len env data raw : data_of env data raw -> zlen data < 2^63 -> zlen raw < 2^63.
Proof.
  intros [(size & zlib & fs & M & P & (A & _))|(n & zlib & (fs & M & P & (_ & _ & C)) & _ & _ & E)] L.
  - pose proof (chunk_len 1 raw data fs M (last_in _ _ A)). lia.
  - destruct (last_of (varints 2 fs)) as [v|]; [|contradiction]. destruct C as (C & _). unfold is_s32 in C. lia.
Qed.
Lemma data_read env data raw e : data_of env data raw -> zlen data < 2^63 ->
  exists b s, ReadBlob (mkslice data e) Blob0 = Ok b /\ GetRawData env b = Ok s /\ vis s = raw.
Proof.
  intros [(size & zlib & B)|(n & zlib & B & O & S & E)] L; destruct (blob_read _ _ _ _ e B L) as (b & Rb & R1 & R2 & R3 & _); exists b.
  - destruct (blob_Raw b) as [s|] eqn:Eb; [|discriminate]. injection R1 as R1. exists s. split; [exact Rb|]. unfold GetRawData. rewrite Eb. auto.
  - destruct (blob_Raw b) as [s|] eqn:Eb; [discriminate|].
    assert (Hn : 0 <= n < 2^31).
    { destruct B as (fs & _ & _ & (_ & _ & C)). destruct (last_of (varints 2 fs)); [|contradiction]. destruct C as (C & _). unfold is_s32 in C. pose proof (zlen_nonneg raw). lia. }
    destruct (pC65_decompress env n O Hn) as (_ & _ & D & _). rewrite S in D. destruct (D E) as (s & Es & Ev). exists s. split; [exact Rb|].
    unfold GetRawData. rewrite Eb, R3, R2. split; [exact Es|exact Ev].
Qed.
Lemma block_seen pbr env data raw p e : data_of env data raw -> block_msg everything raw p -> zlen data < 2^63 ->
  exists b s q, ReadBlob (mkslice data e) Blob0 = Ok b /\ GetRawData env b = Ok s /\ vis s = raw /\
    (forall e', ReadPrimitiveBlock pbr (mkslice raw e') PrimitiveBlock0 = Ok q) /\ seen_as pbr p q.
Proof.
  intros D B L. pose proof (data_len _ _ _ D L) as Lr. destruct (data_read env data raw e D L) as (b & s & E1 & E2 & E3). destruct (block_view pbr raw p B) as (b' & B' & V).
  destruct (block_read pbr raw b' [] B' Lr) as (q & Eq & Sq). exists b, s, q. split; [exact E1|]. split; [exact E2|]. split; [exact E3|].
  split; [|exists b'; split; assumption]. intros e'. pose proof (T2Thms.pC12_beyond_end_irrelevant raw e') as (_ & _ & _ & _ & _ & _ & HP & _). apply HP. exact Eq.
Qed.

(** ** reading a file *)
Lemma frame_is fb ty data : zlen fb < 2^63 -> pbf_frame fb ty data -> is_frame fb ty data.
Proof.
  intros L (sz & hdr & -> & B & H). exists sz, hdr. split; [reflexivity|]. split; [exact B|]. intros e _. apply header_read; [exact H|].
  rewrite !zlen_app in L. pose proof (zlen_nonneg sz). pose proof (zlen_nonneg data). lia.
Qed.
Lemma pbf_is blobs : forall file, zlen file < 2^63 -> pbf_file file blobs -> is_file file blobs.
Proof.
  induction blobs as [|[ty data] blobs IH]; intros file L H; [exact H|]. cbn [pbf_file is_file] in *. destruct H as (fb & rest & -> & F & H). exists fb, rest. split; [reflexivity|].
  rewrite zlen_app in L. pose proof (zlen_nonneg fb). pose proof (zlen_nonneg rest). split; [apply frame_is; [lia|exact F]|apply IH; [lia|exact H]].
Qed.
Lemma nth_same {A B} (l : list A) (m : list B) i a : List.length l = List.length m -> nth_error l i = Some a -> exists b, nth_error m i = Some b.
Proof.
  intros L H. destruct (nth_error m i) as [b|] eqn:E; [eauto|]. apply nth_error_None in E. assert (nth_error l i <> None) by congruence. apply nth_error_Some in H0. lia.
Qed.
Lemma osm_known {R} (envs : R -> Z -> zenv) blobs blocks : List.length blobs = List.length blocks ->
  (forall i b c, nth_error blobs i = Some b -> nth_error blocks i = Some c -> blob_is (fun run => envs run (Z.of_nat i)) b c) ->
  Forall (fun b => known_type (fst b)) blobs.
Proof.
  intros L H. apply Forall_forall. intros b Hb. apply In_nth_error in Hb. destruct Hb as (i & Hi). destruct (nth_same _ _ _ _ L Hi) as (c & Hc).
  specialize (H i b c Hi Hc). destruct c; cbn in H; [right; apply H|left; exact H].
Qed.
Lemma numbered_nth {A} (l : list A) i a : nth_error l i = Some a -> nth_error (numbered l) i = Some (Z.of_nat i, a).
Proof.
  unfold numbered. assert (G : forall l k i (a : A), nth_error l i = Some a -> nth_error (combine (map Z.of_nat (seq k (List.length l))) l) i = Some (Z.of_nat (k + i), a)).
  { clear. induction l as [|x l IH]; intros k [|i] a H; cbn in *; try discriminate; [injection H as <-; rewrite Nat.add_0_r; reflexivity|]. rewrite (IH (S k) i a H). do 2 f_equal. lia. }
  intros H. rewrite (G l 0%nat i a H). reflexivity.
Qed.
Lemma f2_nth {A B} (P : A -> B -> Prop) : forall l m, List.length l = List.length m -> (forall i a b, nth_error l i = Some a -> nth_error m i = Some b -> P a b) -> Forall2 P l m.
Proof.
  induction l as [|a l IH]; intros [|b m] L H; try discriminate; constructor; [exact (H 0%nat a b eq_refl eq_refl)|]. apply IH; [cbn in L; lia|]. intros i. exact (H (S i)).
Qed.
(** The blocks of the file, as a run reads them. *)
Definition data_block (env : zenv) (b : Block) (c : option PrimitiveBlock) : Prop :=
  match c with
  | None => blk_Type b = bytes_of "OSMHeader"
  | Some p => blk_Type b = bytes_of "OSMData" /\ exists raw, data_of env (vis (blk_Data b)) raw /\ block_msg everything raw p /\ zlen (vis (blk_Data b)) < 2^63
  end.
Lemma osm_read {R} (envs : R -> Z -> zenv) file blocks : osm_file envs file blocks ->
  exists bs, read_file file = Ok bs /\ forall run, Forall2 (fun eb c => data_block (fst eb) (snd eb) c) (with_env (envs run) bs) blocks.
Proof.
  intros (Bf & Lf & blobs & F & L & H). pose proof (pbf_is _ _ Lf F) as F'. pose proof (osm_known envs blobs blocks L H) as K. destruct (pC34_split file blobs Bf Lf F' K) as (bs & E & S).
  exists bs. split; [exact E|]. intros run. pose proof (file_blobs blobs file Bf F') as Bd.
  assert (LE : List.length bs = List.length blobs) by (apply (f_equal (@List.length _)) in S; rewrite map_length, numbered_length in S; exact S).
  apply f2_nth; [unfold with_env; rewrite map_length; lia|]. intros i [env b] c Hb Hc. unfold with_env in Hb. rewrite nth_error_map in Hb. destruct (nth_error bs i) as [b'|] eqn:Eb; [|discriminate].
  injection Hb as <- <-. cbn [fst snd]. destruct (nth_same _ _ _ _ LE Eb) as (bl & Hbl). specialize (H i bl c Hbl Hc).
  assert (Sb : FrSpec.seen b' = (Z.of_nat i, bl)) by (pose proof (numbered_nth _ _ _ Hbl) as N; rewrite <- S, nth_error_map, Eb in N; cbn [option_map] in N; congruence).
  unfold FrSpec.seen in Sb. destruct bl as [ty data]. injection Sb as S1 S2 S3. pose proof (proj1 (Forall_forall _ _) Bd _ (nth_error_In _ _ Hbl)) as (_ & D2). cbn [snd] in D2.
  destruct c as [p|]; cbn [blob_is data_block fst snd] in *; rewrite S2.
  - destruct H as (T & raw & D & B). split; [exact T|]. exists raw. rewrite S1, S3. split; [apply (D run)|]. split; [exact B|]. lia.
  - exact H.
Qed.
Ltac f2go H := induction H as [|[env b] c l m X F IH]; cbn [map]; constructor; [|apply IH].
Lemma header_ty : bytes_of "OSMHeader" <> bytes_of "OSMData" /\ bytes_of "OSMHeader" <> bytes_of "IndexData" /\ bytes_of "OSMHeader" <> bytes_of "RelationData".
Proof. split; [discriminate|]. split; discriminate. Qed.
Lemma block_of_data pbr env b p : data_block env b (Some p) -> exists bl s q, ReadBlob (blk_Data b) Blob0 = Ok bl /\ GetRawData env bl = Ok s /\ ReadPrimitiveBlock pbr s PrimitiveBlock0 = Ok q /\ seen_as pbr p q.
Proof.
  intros (T & raw & D & B & L). destruct (blk_Data b) as [v e]. cbn [vis] in *. destruct (block_seen pbr env v raw p e D B L) as (bl & s & q & E1 & E2 & E3 & E4 & E5).
  exists bl, s, q. split; [exact E1|]. split; [exact E2|]. split; [|exact E5]. destruct s as [sv se]. cbn [vis] in E3. subst sv. apply E4.
Qed.
Definition per_block {A} (f : PrimitiveBlock -> list A) (blocks : list (option PrimitiveBlock)) : list (list A) :=
  map (fun c => match c with Some p => f p | None => [] end) blocks.
Lemma per_block_concat {A} (f : PrimitiveBlock -> list A) blocks : concat (per_block f blocks) = of_blocks f blocks.
Proof. unfold per_block, of_blocks. rewrite flat_map_concat_map. reflexivity. Qed.
Lemma read_ways l blocks : Forall2 (fun eb c => data_block (fst eb) (snd eb) c) l blocks -> Forall2 ways_block l (per_block block_ways blocks).
Proof.
  intros H. unfold per_block. f2go H. destruct c as [p|]; cbn [fst snd] in X.
  - right. split; [apply X|]. destruct (block_of_data (mkReader true true false true) env b p X) as (bl & s & q & E1 & E2 & E3 & E4). exists bl, s, q. cbn [fst snd].
    split; [exact E1|]. split; [exact E2|]. split; [exact E3|]. symmetry. eapply seen_ways; [|exact E4]. reflexivity.
  - left. cbn [snd]. cbn in X. rewrite X. split; [apply header_ty|]. split; [apply header_ty|reflexivity].
Qed.
Lemma read_relations l blocks : Forall2 (fun eb c => data_block (fst eb) (snd eb) c) l blocks -> Forall2 relations_block l (per_block block_relations blocks).
Proof.
  intros H. unfold per_block. f2go H. destruct c as [p|]; cbn [fst snd] in X.
  - right. split; [apply X|]. destruct (block_of_data (mkReader false true true false) env b p X) as (bl & s & q & E1 & E2 & E3 & E4). exists bl, s, q. cbn [fst snd].
    split; [exact E1|]. split; [exact E2|]. split; [exact E3|]. symmetry. eapply seen_relations; [|exact E4]. reflexivity.
  - left. cbn [snd]. cbn in X. rewrite X. split; [apply header_ty|]. split; [apply header_ty|reflexivity].
Qed.
Definition all_sane (blocks : list (option PrimitiveBlock)) : Prop := forall p, In (Some p) blocks -> block_sane p.
Lemma read_nodes l blocks : Forall2 (fun eb c => data_block (fst eb) (snd eb) c) l blocks -> (forall p, In (Some p) blocks -> block_sane p) -> Forall2 input_block l (per_block block_nodes blocks).
Proof.
  intros H S. unfold per_block. f2go H; [|intros p Hp; apply S; right; exact Hp]. destruct c as [p|]; cbn [fst snd] in X.
  - right. split; [apply X|]. destruct (block_of_data (mkReader true false true true) env b p X) as (bl & s & q & E1 & E2 & E3 & E4). exists bl, s, q. cbn [fst snd].
    split; [exact E1|]. split; [exact E2|]. split; [exact E3|]. split; [eapply seen_sane; [|exact E4|apply S; left; reflexivity]; reflexivity|]. symmetry. eapply seen_nodes; [|exact E4]. reflexivity.
  - left. cbn [snd]. cbn in X. rewrite X. split; [apply header_ty|]. split; [apply header_ty|reflexivity].
Qed.

(** ** rewriting *)
Lemma seen_has_way pbr p q : SkipWays pbr = false -> seen_as pbr p q -> (has_way p <-> has_way q).
Proof.
  intros S V. pose proof (seen_ways pbr p q S V) as E. assert (G : forall b, has_way b <-> block_ways b <> []).
  { clear. intros b. unfold has_way, block_ways. split.
    - intros (g & w & ws & Hg & E & Hw) X. assert (In (way_ID w, way_Refs w) []) as []. rewrite <- X. apply in_flat_map. exists g. split; [exact Hg|]. rewrite E. apply (in_map (fun w => (way_ID w, way_Refs w))). exact Hw.
    - intros N. destruct (flat_map _ _) as [|x r] eqn:X; [contradiction|]. assert (Hx : In x (x :: r)) by (left; reflexivity). rewrite <- X in Hx. apply in_flat_map in Hx. destruct Hx as (g & Hg & Hx).
      destruct (pg_Ways g) as [ws|] eqn:E; [|destruct Hx]. apply in_map_iff in Hx. destruct Hx as (w & _ & Hw). exists g, w, ws. auto. }
  rewrite !G, E. tauto.
Qed.
Lemma f2_mapl {A B C} (R : C -> B -> Prop) (f : A -> C) l m : Forall2 R (map f l) m <-> Forall2 (fun a b => R (f a) b) l m.
Proof.
  split; [|induction 1; constructor; assumption]. revert m. induction l as [|a l IH]; intros m H; inversion H; subst; constructor; auto.
Qed.
Lemma f2_mapr {A B C} (R : A -> C -> Prop) (f : B -> C) l m : Forall2 R l (map f m) <-> Forall2 (fun a b => R a (f b)) l m.
Proof.
  split; [|induction 1; constructor; assumption]. revert l. induction m as [|a m IH]; intros l H; inversion H; subst; constructor; auto.
Qed.
Lemma recombine_groups f : forall cs gq, Forall2 (fun c g => group_msg rw_reader c (group_with f g)) cs gq ->
  forall gp, Forall2 (fun a c => exists b, gpair rw_reader a b /\ same_group b c) gp gq -> Forall2 (fun c g => group_msg everything c (group_with f g)) cs gp.
Proof.
  intros cs gq B. induction B as [|c g cs gq X B IH]; intros gp FF; inversion FF as [|g0 ? gp' ? Y FF']; subst; [apply Forall2_nil|apply Forall2_cons; [|apply IH; assumption]].
  destruct X as (fsg & Mg & Pg & (X1 & X2 & X3)). destruct Y as (g1 & (pp & fs1 & M1 & P1 & (Y1 & Y2 & Y3) & ->) & (Z1 & Z2 & Z3 & Z4 & Z5 & Z6)).
  unfold rw_reader, everything, gview, group_with in *. cbn in *. exists fsg. split; [exact Mg|]. split; [exact Pg|]. unfold group_of. cbn.
  destruct X1 as (_ & X1). destruct X2 as (_ & X2). destruct X3 as (_ & X3). destruct Y1 as (Y0 & Y1). destruct Y2 as (Y20 & Y2). destruct Y3 as (Y30 & Y3). split; [|split].
  + split; [exact Y0|]. rewrite <- X1, Z1. rewrite (chunks_once 2 [2] fs1 _ _ P1 ltac:(left; reflexivity)). exact Y1.
  + split; [exact Y20|]. replace (elems (option_map (map (refs_with f)) (pg_Ways g0))) with (elems (option_map (map (refs_with f)) (pg_Ways g))); [exact X2|].
    assert (EM : forall o, elems (option_map (map (refs_with f)) o) = map (refs_with f) (elems o)) by (intros [o|]; reflexivity). rewrite !EM, Z3. reflexivity.
  + split; [exact Y30|]. rewrite <- X3, Z6. exact Y3.
Qed.
Lemma recombine f p q raw2 : seen_as rw_reader p q -> block_msg rw_reader raw2 (block_with f q) -> block_msg everything raw2 (block_with f p).
Proof.
  intros (b' & (F & G & Dg & La & Lo & Rn & fs0 & S1 & S2) & (Q1 & Q2 & F' & G' & Dg' & La' & Lo')) (fs & M & P & (A & B & C & D & E & H)).
  unfold block_with in *. cbn [pblk_StringTableRaw pblk_StringTable pblk_PrimitiveGroup pblk_Granularity pblk_DateGranularity pblk_LatOffset pblk_LonOffset] in *.
  unfold rw_reader in A, S2. cbn [SkipStringTable] in A, S2. destruct A as (_ & A). specialize (S2 eq_refl). rewrite Q1 in A.
  exists fs. split; [exact M|]. split; [exact P|]. unfold block_of, everything. cbn [SkipStringTable pblk_StringTableRaw pblk_StringTable pblk_PrimitiveGroup pblk_Granularity pblk_DateGranularity pblk_LatOffset pblk_LonOffset].
  split; [split; [exact Rn|]; rewrite <- A, S2; exact S1|]. split.
  - apply f2_mapr. apply (proj1 (f2_mapr _ _ _ _)) in B. exact (recombine_groups f _ _ B _ (f2_comp _ _ _ _ F _ F')).
  - rewrite <- G, <- G', <- Dg, <- Dg', <- La, <- La', <- Lo, <- Lo'. auto.
Qed.
Lemma frame_pbf hdr4 ty data : List.length hdr4 = 4%nat -> known_type ty -> bytes data -> zlen data < 2^31 ->
  exists fb, write_frame hdr4 ty data = Ok fb /\ pbf_frame fb ty data /\ (4 <= List.length fb)%nat.
Proof.
  intros H4 Hk Hb Hl. destruct (known_bytes ty Hk) as [Bt Lt]. pose proof (zlen_nonneg data).
  rewrite write_frame_eq by assumption. rewrite s32_id by (unfold is_s32; lia).
  pose proof (bh_enc_len ty (zlen data) Lt) as Lh. pose proof (zlen_nonneg (bh_enc (mkBlobHeader ty (zlen data)))). rewrite u32_id by (unfold is_u32; lia).
  eexists. split; [reflexivity|]. split; [|cbn; lia]. do 2 eexists. split; [reflexivity|]. split; [apply be32_bytes_ok; unfold is_u32; lia|].
  apply header_w; cbn [bh_Type bh_DataSize]; [exact Bt|unfold is_s32; lia|lia].
Qed.

Lemma pbf_file_app a b : forall f g, pbf_file f a -> pbf_file g b -> pbf_file (f ++ g) (a ++ b).
Proof.
  induction a as [|[ty d] a IH]; intros f g Ha Hb; cbn [pbf_file app] in *; [subst; exact Hb|]. destruct Ha as (fb & r & -> & F & Ha). exists fb, (r ++ g). split; [symmetry; apply app_assoc|]. split; [exact F|apply IH; assumption].
Qed.
Lemma write_blocks_pbf skip bs : forall hdr4 acc blobs, List.length hdr4 = 4%nat -> pbf_file acc blobs ->
  Forall (fun b => (known_type (blk_Type b) \/ skip = true /\ blk_Type b = bytes_of "Filler") /\ bytes (vis (blk_Data b)) /\ zlen (vis (blk_Data b)) < 2^31) bs ->
  exists file, write_blocks skip hdr4 bs acc = Ok file /\
    pbf_file file (blobs ++ map (fun b => (blk_Type b, vis (blk_Data b))) (filter (fun b => negb (skip && seqb (blk_Type b) (bytes_of "Filler"))) bs)).
Proof.
  induction bs as [|b bs IH]; intros hdr4 acc blobs H4 Ha Hf; cbn [write_blocks filter].
  - exists acc. cbn [map]. rewrite app_nil_r. auto.
  - apply Forall_cons_iff in Hf as [(K & Hb & Hl) Hf]. fold tFiller. destruct (skip && seqb (blk_Type b) tFiller) eqn:Es; cbn [negb]; [apply IH; assumption|].
    assert (Hk : known_type (blk_Type b)) by (destruct K as [K|[-> K]]; [exact K|]; rewrite K in Es; discriminate).
    destruct (frame_pbf hdr4 (blk_Type b) (vis (blk_Data b)) H4 Hk Hb Hl) as (fb & -> & F & L4). cbn [bind map].
    destruct (IH (firstn 4 fb) (acc ++ fb) (blobs ++ [(blk_Type b, vis (blk_Data b))])) as (file & E & I).
    + rewrite firstn_length. lia.
    + apply pbf_file_app; [exact Ha|]. cbn [pbf_file]. exists fb, []. rewrite app_nil_r. auto.
    + exact Hf.
    + exists file. rewrite <- app_assoc in I. auto.
Qed.
Lemma enc_file_pbf bl f : enc_file bl = Ok f -> Forall (fun b => known_type (fst b) /\ bytes (snd b) /\ zlen (snd b) < 2^31) bl -> pbf_file f bl.
Proof.
  intros E H. destruct (write_blocks_pbf false (map as_block bl) zero4 [] [] eq_refl eq_refl) as (f' & E' & I).
  { apply Forall_map. revert H. apply Forall_impl. intros [ty d] (A & B & C). cbn. auto. }
  unfold enc_file, rewriter_writer in E. rewrite E in E'. injection E' as <-. cbn [app] in I.
  replace (map _ (filter _ _)) with bl in I; [exact I|]. clear. induction bl as [|[ty d] bl IH]; [reflexivity|]. cbn [map filter andb negb]. cbn [map as_block blk_Type blk_Data fst snd exact vis]. f_equal. exact IH.
Qed.
Lemma out_msg p out : block_typed p -> rw_form p -> rw_out p = Ok out -> exists raw, block_msg rw_reader raw p /\ blob_msg out (Some raw) None None.
Proof.
  intros BT RF H. unfold rw_out in H. apply (Blob_Write_func_app _ (PrimitiveBlock_Write p) (block_fits p) (block_enc p)) in H as [[F Fl] ->]; [|reflexivity|apply PrimitiveBlock_Write_app].
  exists (block_enc p). split; [apply block_w; try assumption; [apply rw_form_form; exact RF|lia]|].
  apply (blob_w (fixed_field 4 blobRaw (block_enc p)) (Some (leb_fixed 4 (zlen (block_enc p)), block_enc p)) None None); try discriminate.
  apply (msg_fixed 3); [unfold blobRaw; lia|lia|exact Fl|apply block_bytes; assumption].
Qed.
Lemma step_is {R} (env : R -> zenv) f tb q y c : s64_fun f -> blob_is env tb c ->
  (fst tb = tOSMData -> block_typed q /\ rw_form q) -> (forall p, c = Some p -> seen_as rw_reader p q) ->
  step f (tb, q) = Ok y -> blob_is env y (option_map (block_with f) c).
Proof.
  intros Sf B T V E. destruct tb as [ty data]. unfold step in E. destruct c as [p|]; cbn [blob_is option_map fst snd] in *.
  - destruct B as (Ty & raw & D & M). rewrite Ty in E. rewrite seqb_refl in E. cbn [negb] in E. specialize (V p eq_refl). destruct (T Ty) as (Tq & Fq).
    destruct (count_ways (pblk_PrimitiveGroup q) =? 0) eqn:Ec.
    + injection E as <-. cbn [fst snd]. split; [reflexivity|]. rewrite block_with_noway; [exists raw; auto|]. apply count_zero in Ec. rewrite (seen_has_way rw_reader p q eq_refl V). exact Ec.
    + destruct (rw_out (block_with f q)) as [out|pp|] eqn:Eo; cbn [bind] in E; try discriminate. injection E as <-. cbn [fst snd]. split; [reflexivity|].
      destruct (out_msg _ out (typed_with f q Sf Tq) (rw_form_with f q Fq) Eo) as (raw2 & M2 & B2). exists raw2. split; [intros run; left; exists None, None; exact B2|]. apply (recombine f p q); assumption.
  - rewrite B in E. destruct (seqb_spec (bytes_of "OSMHeader") tOSMData) as [X|_]; [discriminate X|]. cbn [negb] in E. injection E as <-. reflexivity.
Qed.
Lemma rewrite_osm {R} (envs : R -> Z -> zenv) (rp : Z -> R) file blocks rs locs n out : osm_file envs file blocks -> (forall run i, env_ok (envs run i)) ->
  index_ok rs locs -> rs <> [] -> Forall (fun loc => is_s64 loc /\ loc <= 0) locs -> 1 <= n ->
  (exists subs, passes (index_of rs locs) n = Ok subs /\ concat (map si_element subs) = map elem_of rs) ->
  (forall k f, Z.of_nat k <= n -> after_passes (fun pass => envs (rp pass)) (index_of rs locs) n k file = Ok f -> zlen f < 2^63) ->
  after_passes (fun pass => envs (rp pass)) (index_of rs locs) n (Z.to_nat n) file = Ok out ->
  osm_file envs out (with_refs (new_ref rs locs) blocks).
Proof.
  intros (Bf & Lf & blobs & F & L & H) He Hi Nr Hl Hn Hp Sz E. pose proof (pbf_is _ _ Lf F) as F'. pose proof (osm_known envs blobs blocks L H) as K. pose proof (file_blobs blobs file Bf F') as Bd.
  assert (Sz' : zlen out < 2^63) by (apply (Sz (Z.to_nat n) out); [lia|exact E]).
  destruct (choose_list (fun i tb q => (fst tb = tOSMData -> block_typed q /\ rw_form q /\ forall run, holds_alone (envs run (Z.of_nat i)) (snd tb) q) /\ (forall p, nth_error blocks i = Some (Some p) -> seen_as rw_reader p q)) blobs 0) as (l & Hl1 & Hl2).
  { intros i [ty data] Hin. cbn [Nat.add fst snd]. destruct (nth_same _ _ _ _ L Hin) as (c & Hc). specialize (H i _ c Hin Hc). pose proof (proj1 (Forall_forall _ _) Bd _ (nth_error_In _ _ Hin)) as (D1 & D2). cbn [fst snd] in D1, D2.
    destruct c as [p|]; cbn [blob_is fst snd] in H.
    - destruct H as (Ty & raw & D & M). destruct (block_view rw_reader raw p M) as (b' & B' & V).
      pose proof (data_len _ _ _ (D (rp 0)) ltac:(lia)) as Lr. destruct (block_read rw_reader raw b' [] B' Lr) as (q & Eq & Sq). exists q. split.
      + intros _. split; [|split; [exact (ReadBlock_rw _ _ Eq)|]].
        * eapply ReadBlock_typed; [|exact Eq]. destruct M as (fs & M & _). split; [exact (message_bytes _ _ M)|]. split; [constructor|]. unfold scap, slen, zlen in *. cbn [vis ext List.length] in *. lia.
        * intros run. destruct (data_read (envs run (Z.of_nat i)) data raw [] (D run) ltac:(lia)) as (b & s & E1 & E2 & E3). exists b, s. split; [exact E1|]. split; [exact E2|]. rewrite E3. exact Eq.
      + intros p' X. rewrite Hc in X. injection X as <-. exists b'. split; assumption.
    - exists PrimitiveBlock0. split; [|intros p' X; rewrite Hc in X; discriminate]. intros X. rewrite H in X. discriminate X. }
  assert (E1 : after_passes (fun pass => envs (rp pass)) (index_of rs locs) 1 1 file = Ok out).
  { eapply (pC53_passes_partial (fun pass => envs (rp pass)) file blobs rs locs n out); try eassumption.
    - intros i data Hin. assert (Hx : exists x, nth_error l i = Some x /\ fst x = (bytes_of "OSMData", data)).
      { rewrite <- Hl1, nth_error_map in Hin. destruct (nth_error l i) as [x|]; [|discriminate]. injection Hin as Hin. eauto. }
      destruct Hx as (x & Hx & Ex). destruct (Hl2 i x Hx) as (A & _). rewrite Ex in A. exists (snd x). intros pass. apply A. reflexivity.
    - intros pass i. apply He.
    - intros k f Hk. apply Sz. lia. }
  cbn [after_passes bind] in E1. destruct (pC48_single_pass rs locs Hi Nr) as (top1 & Es1 & Ht1). change (Z.of_nat 0) with 0 in E1. rewrite Es1 in E1. cbn [bind] in E1.
  assert (Nf : file <> []) by (intros ->; unfold rw_pass in E1; cbn in E1; discriminate).
  assert (Rd : ready_all (envs (rp 0)) 0 l).
  { intros i x Hx. destruct (Hl2 i x Hx) as (A & _). destruct x as [[ty data] q]. cbn [Nat.add fst snd] in *.
    assert (Hb : nth_error blobs i = Some (ty, data)) by (rewrite <- Hl1, nth_error_map, Hx; reflexivity). pose proof (nth_error_In _ _ Hb) as Hb'.
    pose proof (proj1 (Forall_forall _ _) Bd _ Hb') as (D1 & D2). pose proof (proj1 (Forall_forall _ _) K _ Hb') as Kb. cbn [fst snd] in *. split; [exact Kb|]. split; [exact D1|]. split; [exact D2|].
    intros X. destruct (A X) as (A1 & A2 & A3). auto. }
  assert (F'' : is_file file (map fst l)) by (rewrite Hl1; exact F').
  rewrite (rw_pass_is _ rs locs top1 _ file l (conj (proj1 Hi) (conj (proj1 (proj2 Hi)) Ht1)) Bf Lf F'' Rd Nf) in E1.
  destruct (mapm (step (new_ref rs locs)) l) as [bl|p|] eqn:Em; cbn [bind] in E1; try discriminate.
  assert (Hs64 : Forall is_s64 locs) by (revert Hl; apply Forall_impl; tauto).
  apply mapm_Forall2 in Em. 
  assert (St : forall i y, nth_error bl i = Some y -> exists x, nth_error l i = Some x /\ step (new_ref rs locs) x = Ok y).
  { clear - Em. induction Em as [|x y l bl Hx Em IH]; intros [|i] z Hz; cbn [nth_error] in *; try discriminate; [injection Hz as <-; eauto|apply IH; exact Hz]. }
  assert (Bl : Forall (fun b => known_type (fst b) /\ bytes (snd b) /\ zlen (snd b) < 2^31) bl).
  { apply Forall_forall. intros y Hy. apply In_nth_error in Hy. destruct Hy as (i & Hy). destruct (St i y Hy) as ([[ty d] q] & Hx & Ey).
    pose proof (step_ready (new_ref rs locs) (envs (rp 0)) (envs (rp 0)) (Z.of_nat i) ty d q y (new_ref_s64 rs locs Hs64) (Rd i _ Hx)) as Y.
    specialize (Y ltac:(intros T; destruct (Rd i _ Hx) as (_ & _ & _ & X); apply X; exact T) Ey). destruct y as [yt yd]. destruct Y as (Y1 & Y2 & Y3 & _). auto. }
  destruct (enc_file_is bl out E1 Bl) as (_ & Bo). split; [exact Bo|]. split; [exact Sz'|].
  exists bl. split; [apply enc_file_pbf; assumption|]. split.
  { unfold with_refs. rewrite map_length, <- L, <- Hl1, map_length. symmetry. exact (f2_len _ _ _ Em). }
  intros i y c Hy Hc. unfold with_refs in Hc. rewrite nth_error_map in Hc. destruct (nth_error blocks i) as [c0|] eqn:Ec; [|discriminate]. injection Hc as <-.
  destruct (St i y Hy) as ([tb q] & Hx & Ey). destruct (Hl2 i _ Hx) as (A & A'). cbn [Nat.add fst snd] in A, A'.
  assert (Hb : nth_error blobs i = Some tb) by (rewrite <- Hl1, nth_error_map, Hx; reflexivity).
  eapply (step_is (fun run => envs run (Z.of_nat i)) (new_ref rs locs) tb q); [apply new_ref_s64; exact Hs64|exact (H i tb c0 Hb Ec)| | |exact Ey].
  - intros T. destruct (A T) as (A1 & A2 & _). auto.
  - intros p ->. apply A'. exact Ec.
Qed.
