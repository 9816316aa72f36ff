(** * TThms: proofs of the round-trip properties of internal/t (C13-C19, C21, C22). *)
From Verif Require Import Base BaseLemmas PbModel PbSpec PbProofs PbProofs2 TModel TSpec TProofs TMsg TMsg2.

(** C13. Writing always succeeds, only appends, and reading what was appended,
    whatever lies beyond it in memory, gives the same strings in the same order. *)
Lemma pC13_string_table_roundtrip : forall st buf,
  Forall bytes st ->
  exists p, StringTable_Write st buf = Ok (buf ++ p) /\
    (zlen p < 2^63 -> forall e, ReadStringTable (mkslice p e) [] = Ok st).
Proof.
  intros st buf Hb. exists (concat (map (id_buffer stringTableS) st)). split.
  - apply StringTable_Write_app. auto.
  - intros Hl e. apply (ReadStringTable_enc st [] e Hb Hl).
Qed.
Lemma pC13_ex :
  StringTable_Write [[]; [104; 105]; [255]] [9] = Ok [9; 10; 0; 10; 2; 104; 105; 10; 1; 255] /\
  ReadStringTable (mkslice [10; 0; 10; 2; 104; 105; 10; 1; 255] [7]) [] = Ok [[]; [104; 105]; [255]].
Proof. split; reflexivity. Qed.

(** C14. *)
Lemma pC14_dense_roundtrip : forall d buf out,
  dense_typed d -> DenseNodes_Write d buf = Ok out -> zlen out < 2^63 ->
  exists p, out = buf ++ p /\
    forall e, exists d', ReadDenseNodes (mkslice p e) DenseNodes0 = Ok d' /\ same_dense d d'.
Proof.
  intros d buf out T H Hl. apply DenseNodes_Write_app in H as [F ->].
  exists (dense_enc d). split; [reflexivity|]. intros e.
  rewrite zlen_app in Hl. pose proof (zlen_nonneg buf).
  eexists. split; [apply ReadDenseNodes_enc; try assumption; [reflexivity|lia]|].
  repeat split.
Qed.
Definition ex_dense := mkDense [5; 9; -3] [10; -20; 2^62] [0; 0; -2^63] [1; 2; 0; 0; 0] [] [].
Lemma pC14_ex :
  dense_typed ex_dense /\ exists out, DenseNodes_Write ex_dense [1] = Ok out /\ zlen out < 2^63 /\
    ReadDenseNodes (mkslice (tl out) [3]) DenseNodes0 = Ok ex_dense.
Proof.
  split; [|eexists; split; [vm_compute; reflexivity|split; vm_compute; reflexivity]].
  unfold dense_typed, is_s64, is_s32; cbn; repeat split; repeat constructor; lia.
Qed.

(** C15. The way read back is the same record. *)
Lemma pC15_way_roundtrip : forall w buf out,
  way_typed w -> Way_Write w buf = Ok out -> zlen out < 2^63 ->
  exists p, out = buf ++ p /\ forall e w0, ReadWay (mkslice p e) w0 = Ok w.
Proof.
  intros w buf out T H Hl. apply Way_Write_app in H as [F ->].
  exists (way_enc w). split; [reflexivity|]. intros e w0.
  rewrite zlen_app in Hl. pose proof (zlen_nonneg buf).
  apply ReadWay_enc; try assumption; lia.
Qed.
Definition ex_way := mkWay (-7) [1; 2^32 - 1] [2; 0] [100; 100; -2^63; 2^63 - 1].
Lemma pC15_ex :
  way_typed ex_way /\ exists out, Way_Write ex_way [1] = Ok out /\ zlen out < 2^63 /\
    ReadWay (mkslice (tl out) [3]) Way0 = Ok ex_way.
Proof.
  split; [|eexists; split; [vm_compute; reflexivity|split; vm_compute; reflexivity]].
  unfold way_typed, is_s64, is_u32; cbn; repeat split; repeat constructor; lia.
Qed.

(** C17. *)
Lemma pC17_relation_roundtrip : forall r buf out,
  relation_typed r -> Relation_Write r buf = Ok out -> zlen out < 2^63 ->
  exists p, out = buf ++ p /\ forall e r0, ReadRelation (mkslice p e) r0 = Ok r.
Proof.
  intros w buf out T H Hl. apply Relation_Write_app in H as [F ->].
  exists (relation_enc w). split; [reflexivity|]. intros e w0.
  rewrite zlen_app in Hl. pose proof (zlen_nonneg buf).
  apply ReadRelation_enc; try assumption; lia.
Qed.
Definition ex_rel := mkRelation 12 [1] [2] [0; -1; 2^31 - 1] [5; 5; -9] [0; 1; 2^64 - 1].
Lemma pC17_ex :
  relation_typed ex_rel /\ exists out, Relation_Write ex_rel [1] = Ok out /\ zlen out < 2^63 /\
    ReadRelation (mkslice (tl out) [3]) Relation0 = Ok ex_rel.
Proof.
  split; [|eexists; split; [vm_compute; reflexivity|split; vm_compute; reflexivity]].
  unfold relation_typed, is_s64, is_u64, is_s32, is_u32; cbn; repeat split; repeat constructor; lia.
Qed.

(** C18. A group that holds each section in the form the reader [pbr] produces
    (raw if skipped, parsed otherwise) is read back as the same group. *)
Lemma pC18_group_roundtrip : forall pbr g buf out,
  group_typed g -> group_form pbr g -> PrimitiveGroup_Write g buf = Ok out -> zlen out < 2^63 ->
  exists p, out = buf ++ p /\
    forall e, exists g', ReadPrimitiveGroup pbr (mkslice p e) PrimitiveGroup0 = Ok g' /\ same_group g g'.
Proof.
  intros pbr g buf out T Hf H Hl. apply PrimitiveGroup_Write_app in H as [F ->].
  exists (group_enc g). split; [reflexivity|]. intros e.
  rewrite zlen_app in Hl. pose proof (zlen_nonneg buf).
  exists (group_norm g). split; [apply ReadPrimitiveGroup_enc; try assumption; lia|].
  apply group_norm_same.
Qed.
Definition ex_group := mkGroup None (Some ex_dense) None [[8; 1]; []] (Some [ex_rel]) [].
Definition ex_pbr := mkReader true false true false.
Lemma ex_group_typed : group_typed ex_group.
Proof.
  unfold group_typed; cbn. split; [intros d E; injection E as <-; apply pC14_ex|].
  split; [discriminate|]. split; [discriminate|].
  split; [repeat constructor; unfold is_u8; lia|].
  split; [intros rs E; injection E as <-; constructor; [apply pC17_ex|constructor]|constructor].
Qed.
Lemma pC18_ex :
  group_typed ex_group /\ group_form ex_pbr ex_group /\
  exists out, PrimitiveGroup_Write ex_group [] = Ok out /\ zlen out < 2^63 /\
    ReadPrimitiveGroup ex_pbr (mkslice out [3]) PrimitiveGroup0 = Ok ex_group.
Proof.
  split; [apply ex_group_typed|]. split; [repeat split|].
  eexists; split; [vm_compute; reflexivity|split; vm_compute; reflexivity].
Qed.

(** C19. *)
Lemma pC19_block_roundtrip : forall pbr p buf out,
  block_typed p -> block_form pbr p -> PrimitiveBlock_Write p buf = Ok out -> zlen out < 2^63 ->
  exists enc, out = buf ++ enc /\
    forall e, exists p', ReadPrimitiveBlock pbr (mkslice enc e) PrimitiveBlock0 = Ok p' /\ same_block p p'.
Proof.
  intros pbr p buf out T Hf H Hl. apply PrimitiveBlock_Write_app in H as [F ->].
  exists (block_enc p). split; [reflexivity|]. intros e.
  rewrite zlen_app in Hl. pose proof (zlen_nonneg buf).
  exists (block_norm p). split; [apply ReadPrimitiveBlock_enc; try assumption; try reflexivity; lia|].
  apply block_norm_same.
Qed.
Definition ex_block := mkBlock (Some [10; 0]) None [ex_group; ex_group] 100 7 (-5) 0.
Lemma pC19_ex :
  block_typed ex_block /\ block_form ex_pbr ex_block /\
  exists out, PrimitiveBlock_Write ex_block [] = Ok out /\ zlen out < 2^63 /\
    ReadPrimitiveBlock ex_pbr (mkslice out [3]) PrimitiveBlock0 = Ok ex_block.
Proof.
  split.
  { unfold block_typed, is_s32, is_s64; cbn. split; [discriminate|].
    split; [intros b E; injection E as <-; repeat constructor; unfold is_u8; lia|].
    split; [constructor; [apply ex_group_typed|constructor; [apply ex_group_typed|constructor]]|]. lia. }
  split; [repeat split; repeat constructor|].
  eexists; split; [vm_compute; reflexivity|split; vm_compute; reflexivity].
Qed.

(** C21, header.  Writing never fails. *)
Lemma pC21_blob_header_roundtrip : forall bh buf,
  bytes (bh_Type bh) -> is_s32 (bh_DataSize bh) ->
  exists p, BlobHeader_Write bh buf = buf ++ p /\
    (zlen p < 2^63 -> forall e, ReadBlobHeader (mkslice p e) = Ok bh).
Proof.
  intros bh buf Hb Hs. exists (bh_enc bh). split; [apply BlobHeader_Write_eq|].
  intros Hl e. apply ReadBlobHeader_enc; assumption.
Qed.

Lemma set_same b b0 :
  blob_RawSize b0 = None -> blob_ZLibData b0 = None ->
  let b' := set_zlib b (set_size b b0) in
  blob_Raw b' = blob_Raw b0 /\ blob_RawSize b' = blob_RawSize b /\
  elems (blob_ZLibData b') = elems (blob_ZLibData b).
Proof.
  intros H1 H2. unfold set_zlib, set_size.
  destruct (blob_RawSize b) as [n|]; destruct (blob_ZLibData b) as [z|]; cbn; rewrite ?H1, ?H2;
    cbn; auto.
  all: destruct (Z.ltb_spec 0 (zlen z)) as [H|H]; cbn; rewrite ?H1, ?H2; cbn; auto.
  all: assert (z = []) by (apply zlen_0; pose proof (zlen_nonneg z); lia); subst; auto.
Qed.

(** C21, blob with its raw data in memory. *)
Lemma pC21_blob_roundtrip : forall b buf out,
  blob_RawFunc b = None -> bytes (raw_bytes (blob_Raw b)) ->
  (forall n, blob_RawSize b = Some n -> is_s32 n) -> bytes (elems (blob_ZLibData b)) ->
  Blob_Write b buf = Ok out -> zlen out < 2^63 ->
  exists p, out = buf ++ p /\
    forall e, exists b', ReadBlob (mkslice p e) Blob0 = Ok b' /\
      raw_bytes (blob_Raw b') = raw_bytes (blob_Raw b) /\
      blob_RawSize b' = blob_RawSize b /\
      elems (blob_ZLibData b') = elems (blob_ZLibData b).
Proof.
  intros b buf out Hf Hr Hs Hz H Hl. apply (Blob_Write_app b Hf) in H as [_ ->].
  exists (blob_enc b). split; [reflexivity|]. intros e.
  rewrite zlen_app in Hl. pose proof (zlen_nonneg buf).
  assert (Hz' : forall z, blob_ZLibData b = Some z -> bytes z)
    by (intros z E; rewrite E in Hz; exact Hz).
  unfold blob_enc in *. destruct (Z.ltb_spec 0 (zlen (raw_bytes (blob_Raw b)))) as [Hp|Hp].
  - destruct (blob_Raw b) as [raw|] eqn:Er; [|vm_compute in Hp; discriminate]. cbn [raw_bytes] in *.
    assert (Ep : blob_raw_part b = venc (MakeIdType blobRaw PbFixedBytes) ++
                   venc (u64 (zlen (vis raw))) ++ vis raw).
    { unfold blob_raw_part. rewrite Er. rewrite slen_zlen.
      destruct (Z.ltb_spec 0 (zlen (vis raw))); [reflexivity|lia]. }
    rewrite Ep in *.
    assert (HL : len_prefix (venc (u64 (zlen (vis raw)))) (vis raw)).
    { apply len_prefix_venc. rewrite !zlen_app in Hl.
      pose proof (zlen_nonneg (venc (MakeIdType blobRaw PbFixedBytes))).
      pose proof (zlen_nonneg (venc (u64 (zlen (vis raw))))).
      pose proof (zlen_nonneg (blob_size_part b)). pose proof (zlen_nonneg (blob_zlib_part b)). lia. }
    eexists. split; [apply ReadBlob_raw; try assumption; lia|].
    destruct (set_same b (mkBlob (Some (mkslice (vis raw) ((blob_size_part b ++ blob_zlib_part b) ++ e))) None None None) eq_refl eq_refl)
      as (E1 & E2 & E3).
    rewrite E1. auto.
  - assert (E0 : raw_bytes (blob_Raw b) = [])
      by (apply zlen_0; pose proof (zlen_nonneg (raw_bytes (blob_Raw b))); lia).
    assert (Ep : blob_raw_part b = []).
    { unfold blob_raw_part. destruct (blob_Raw b) as [raw|]; [|reflexivity].
      cbn [raw_bytes] in E0. rewrite slen_zlen, E0. reflexivity. }
    rewrite Ep in *. cbn [app] in *.
    eexists. split; [apply ReadBlob_noraw; try assumption; lia|].
    destruct (set_same b Blob0 eq_refl eq_refl) as (E1 & E2 & E3). rewrite E1, E0. auto.
Qed.

(** C21, blob whose raw data is produced by a writer (as the tools do with a
    primitive block): what the writer appends is what is read back. *)
Lemma pC21_blob_writer_roundtrip : forall b p0 payload buf out,
  blob_RawFunc b = Some (PrimitiveBlock_Write p0) ->
  PrimitiveBlock_Write p0 [] = Ok payload -> bytes payload ->
  (forall n, blob_RawSize b = Some n -> is_s32 n) -> bytes (elems (blob_ZLibData b)) ->
  Blob_Write b buf = Ok out -> zlen out < 2^63 ->
  exists p, out = buf ++ p /\
    forall e, exists b', ReadBlob (mkslice p e) Blob0 = Ok b' /\
      raw_bytes (blob_Raw b') = payload /\
      blob_RawSize b' = blob_RawSize b /\
      elems (blob_ZLibData b') = elems (blob_ZLibData b).
Proof.
  intros b p0 payload buf out Hf Hp Hb Hs Hz H Hl.
  pose proof (PrimitiveBlock_Write_app p0) as A. apply A in Hp as [F ->]. cbn [app] in *.
  apply (Blob_Write_func_app b _ _ _ Hf A) in H as [[_ Hlt] ->].
  eexists. split; [reflexivity|]. intros e.
  rewrite zlen_app in Hl. pose proof (zlen_nonneg buf).
  unfold fixed_field in *.
  eexists. split.
  - apply ReadBlob_raw; try assumption; [apply len_prefix_fixed4; exact Hlt| |lia].
    intros z E; rewrite E in Hz; exact Hz.
  - match goal with |- context [set_size b ?x] =>
      destruct (set_same b x eq_refl eq_refl) as (E1 & E2 & E3) end.
    rewrite E1. auto.
Qed.
Lemma pC21_ex :
  ReadBlobHeader (exact (BlobHeader_Write (mkBlobHeader [79; 83] (-3)) [])) = Ok (mkBlobHeader [79; 83] (-3)) /\
  (exists out, Blob_Write (mkBlob (Some (mkslice [1; 2] [5])) (Some 2) (Some []) None) [4] = Ok (4 :: out) /\
     ReadBlob (exact out) Blob0 = Ok (mkBlob (Some (mkslice [1; 2] [16; 2])) (Some 2) None None)) /\
  (exists out payload, PrimitiveBlock_Write ex_block [] = Ok payload /\
     Blob_Write (mkBlob None None None (Some (PrimitiveBlock_Write ex_block))) [] = Ok out /\
     ReadBlob (exact out) Blob0 = Ok (mkBlob (Some (mkslice payload [])) None None None)).
Proof.
  split; [reflexivity|]. split.
  - eexists. split; [vm_compute; reflexivity|]. vm_compute; reflexivity.
  - eexists. eexists. split; [vm_compute; reflexivity|]. split; [vm_compute; reflexivity|]. vm_compute; reflexivity.
Qed.

(** ** C22 *)
Lemma u32_tag k : 0 <= k < 2^31 -> u32 k = k.
Proof. intros. apply u32_id. unfold is_u32. lia. Qed.

Lemma kv_cache_flat tags rest cK cV CK CV :
  Forall tag_ok tags ->
  kv_cache (flat tags ++ 0 :: rest) cK cV CK CV =
  kv_cache rest [] [] (CK ++ [cK ++ map fst tags]) (CV ++ [cV ++ map snd tags]).
Proof.
  revert cK cV. induction tags as [|[k v] tags IH]; intros cK cV H.
  - cbn [flat app map]. rewrite !app_nil_r. reflexivity.
  - apply Forall_cons_iff in H as [[Hk Hv] H]. cbn [fst snd] in *. cbn [flat app kv_cache map].
    destruct (Z.eqb_spec k 0); [lia|]. rewrite IH by assumption.
    rewrite !u32_tag, <- !app_assoc by lia. reflexivity.
Qed.
Lemma kv_cache_dense nodes CK CV :
  Forall (Forall tag_ok) nodes ->
  kv_cache (dense_array nodes) [] [] CK CV =
  Ok (CK ++ map (map fst) nodes, CV ++ map (map snd) nodes).
Proof.
  revert CK CV. induction nodes as [|tags nodes IH]; intros CK CV H.
  - cbn. rewrite !app_nil_r. reflexivity.
  - apply Forall_cons_iff in H as [Ht H]. cbn [dense_array map].
    rewrite kv_cache_flat, IH by assumption. rewrite <- !app_assoc. reflexivity.
Qed.

(** The cache is either empty or complete. *)
Definition kv_good (nodes : list (list (Z * Z))) (d : DenseNodes) : Prop :=
  dn_KeyVals d = dense_array nodes /\
  ((dn_cacheKeys d = [] /\ dn_cacheVals d = []) \/
   (dn_cacheKeys d = map (map fst) nodes /\ dn_cacheVals d = map (map snd) nodes)).

Lemma lidx_map {A B} (f : A -> B) l i :
  lidx (map f l) i = (a <- lidx l i ;; Ok (f a)).
Proof.
  unfold lidx. rewrite zlen_map. destruct ((0 <=? i) && (i <? zlen l)); [|reflexivity].
  rewrite nth_error_map. destruct (nth_error l (Z.to_nat i)); reflexivity.
Qed.

Definition kv_expect (nodes : list (list (Z * Z))) (i : Z) : res (list Z * list Z) :=
  match nodes with
  | [] => Ok ([], [])
  | _ => tags <- lidx nodes i ;; Ok (map fst tags, map snd tags)
  end.

Lemma dense_array_nil nodes : dense_array nodes = [] -> nodes = [].
Proof. destruct nodes as [|[|[]] ?]; [reflexivity|discriminate|discriminate]. Qed.

Lemma GetKeyVals_good nodes d i :
  Forall (Forall tag_ok) nodes -> kv_good nodes d ->
  match kv_expect nodes i with
  | Ok kv => exists d', GetKeyVals d i = Ok (kv, d') /\ kv_good nodes d'
  | Panic p => GetKeyVals d i = Panic p
  | Diverge => False
  end.
Proof.
  intros Ht [Hkv Hc]. unfold GetKeyVals. rewrite Hkv.
  destruct nodes as [|n0 nodes].
  { cbn. exists d. split; [reflexivity|split; assumption]. }
  destruct (Z.eqb_spec (zlen (dense_array (n0 :: nodes))) 0) as [E|E].
  { apply zlen_0, dense_array_nil in E. discriminate. }
  set (N := n0 :: nodes) in *.
  set (d' := mkDense (dn_Id d) (dn_Lat d) (dn_Lon d) (dense_array N) (map (map fst) N) (map (map snd) N)).
  assert (Hstep : (if zlen (dn_cacheKeys d) =? 0
     then '(ck, cv) <- kv_cache (dense_array N) [] [] (dn_cacheKeys d) (dn_cacheVals d);;
          Ok (mkDense (dn_Id d) (dn_Lat d) (dn_Lon d) (dense_array N) ck cv)
     else Ok d) = Ok d').
  { destruct Hc as [[E1 E2]|[E1 E2]]; rewrite E1.
    - change (zlen (@nil (list Z)) =? 0) with true. cbv iota. rewrite E2.
      rewrite kv_cache_dense by assumption. reflexivity.
    - rewrite zlen_map. destruct (Z.eqb_spec (zlen N) 0) as [E'|E'].
      { apply zlen_0 in E'. discriminate. }
      f_equal. unfold d'. rewrite <- E1, <- E2, <- Hkv. destruct d; reflexivity. }
  rewrite Hstep. cbn [bind].
  change (dn_cacheKeys d') with (map (map fst) N). change (dn_cacheVals d') with (map (map snd) N).
  rewrite !lidx_map.
  assert (Ek : kv_expect N i = (tags <- lidx N i ;; Ok (map fst tags, map snd tags))) by reflexivity.
  rewrite Ek. clear Ek.
  destruct (lidx N i) as [t|p|] eqn:El; cbn [bind].
  - exists d'. split; [reflexivity|]. split; [reflexivity|]. right. split; reflexivity.
  - reflexivity.
  - unfold lidx in El. destruct (_ && _); [|discriminate]. destruct (nth_error N (Z.to_nat i)); discriminate.
Qed.

(** A history of lookups on one dense group: each lookup either returns (and may
    update the cache) or panics (the group is left as it was). *)
Fixpoint lookups (d : DenseNodes) (is_ : list Z) : list (res (list Z * list Z)) :=
  match is_ with
  | [] => []
  | i :: r =>
      match GetKeyVals d i with
      | Ok (ks, vs, d') => Ok (ks, vs) :: lookups d' r
      | Panic p => Panic p :: lookups d r
      | Diverge => Diverge :: lookups d r
      end
  end.

(** C22. For every group freshly read (empty cache) whose array holds the tags of
    [nodes], and every history of lookups, looking up [i] gives exactly the keys and
    values of the i-th node, and panics only for an [i] that is no node. *)
Lemma pC22_dense_tags : forall nodes d idxs,
  Forall (Forall tag_ok) nodes -> nodes <> [] ->
  dn_KeyVals d = dense_array nodes -> dn_cacheKeys d = [] -> dn_cacheVals d = [] ->
  lookups d idxs =
  map (fun i => if (0 <=? i) && (i <? zlen nodes)
                then Ok (map fst (nth (Z.to_nat i) nodes []), map snd (nth (Z.to_nat i) nodes []))
                else Panic IndexOutOfRange) idxs.
Proof.
  intros nodes d idxs Ht Hne Hkv H1 H2.
  assert (G : kv_good nodes d) by (split; [assumption|left; auto]).
  clear Hkv H1 H2. revert d G. induction idxs as [|i idxs IH]; intros d G; [reflexivity|].
  cbn [lookups map]. pose proof (GetKeyVals_good nodes d i Ht G) as S.
  assert (Ee : kv_expect nodes i = if (0 <=? i) && (i <? zlen nodes)
     then Ok (map fst (nth (Z.to_nat i) nodes []), map snd (nth (Z.to_nat i) nodes []))
     else Panic IndexOutOfRange).
  { unfold kv_expect. destruct nodes as [|n0 ns]; [congruence|]. set (N := n0 :: ns) in *.
    unfold lidx. destruct ((0 <=? i) && (i <? zlen N)) eqn:Eb; [|reflexivity].
    assert (Hn : (Z.to_nat i < List.length N)%nat) by (unfold zlen in Eb; lia).
    rewrite (nth_error_nth' N [] Hn). reflexivity. }
  rewrite Ee in S. destruct ((0 <=? i) && (i <? zlen nodes)).
  - destruct S as (d' & E & G'). rewrite E. f_equal. apply IH; assumption.
  - rewrite S. f_equal. apply IH; assumption.
Qed.

(** C22. A group without key/values array has no tags. *)
Lemma pC22_dense_no_tags : forall d idxs,
  dn_KeyVals d = [] -> lookups d idxs = map (fun _ => Ok ([], [])) idxs.
Proof.
  intros d idxs H. induction idxs as [|i idxs IH]; [reflexivity|]. cbn [lookups map].
  unfold GetKeyVals. rewrite H. change (zlen (@nil Z) =? 0) with true. cbv iota. f_equal. exact IH.
Qed.
Lemma pC22_ex :
  let nodes := [[(1, 2); (3, 0)]; []; [(5, 2^31 - 1)]] in
  Forall (Forall tag_ok) nodes /\
  dense_array nodes = [1; 2; 3; 0; 0; 0; 5; 2^31 - 1; 0] /\
  lookups (mkDense [7; 8; 9] [] [] (dense_array nodes) [] []) [2; 3; 0; 1; 2] =
  [Ok ([5], [2^31 - 1]); Panic IndexOutOfRange; Ok ([1; 3], [2; 0]); Ok ([], []); Ok ([5], [2^31 - 1])].
Proof.
  split; [|split; vm_compute; reflexivity].
  unfold tag_ok. repeat constructor; cbn; lia.
Qed.
