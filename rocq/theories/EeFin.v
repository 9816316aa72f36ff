(** * EeFin: the rewriter finishes on files within the limits of the format (proofs for C86). *)
From Verif Require Import Base PbSpec TModel HLModel FrModel FrSpec ZlModel ZlSpec TfSpec MtModel IoModel IoSpec NiModel NiSpec RwModel RwSpec WiModel WiSpec RiModel RiSpec WsSpec PlThms EeSpec.
From Verif Require Import BaseLemmas PbModel PbProofs PbProofs2 TSpec TProofs TMsg TMsg2 TThms TTyped T2Thms HLProofs FrProofs FrThms ZlThms TfThms NiProofs NiProofs2 NiThms RwThms WiThms RiThms WsProofs WsRead WsWrite EeProofs IoThms MtThms NiProofs3 NiProofs4.
From Verif Require Import NiSpec RwSpec TfSpec RwThms.

(** ** sizes *)
Definition total {A} (f : A -> Z) (l : list A) : Z := fold_right (fun a n => f a + n) 0 l.
Lemma total_app {A} (f : A -> Z) l m : total f (l ++ m) = total f l + total f m.
Proof. induction l as [|a l IH]; [reflexivity|]. cbn [app total fold_right]. unfold total in *. cbn [fold_right]. lia. Qed.
Lemma total_nonneg {A} (f : A -> Z) l : (forall a, 0 <= f a) -> 0 <= total f l.
Proof. intros H. induction l as [|a l IH]; [cbn; lia|]. unfold total in *. cbn [fold_right]. specialize (H a). lia. Qed.
Lemma total_le {A} (f g : A -> Z) l : (forall a, In a l -> f a <= g a) -> total f l <= total g l.
Proof. intros H. induction l as [|a l IH]; [cbn; lia|]. unfold total in *. cbn [fold_right]. pose proof (H a (or_introl eq_refl)). specialize (IH (fun b Hb => H b (or_intror Hb))). lia. Qed.
Lemma total_const {A} c (l : list A) : total (fun _ => c) l = c * zlen l.
Proof. induction l as [|a l IH]; [unfold zlen; cbn; lia|]. rewrite zlen_cons. unfold total in *. cbn [fold_right]. lia. Qed.
Lemma zlen_concat {A B} (f : A -> list B) l : zlen (concat (map f l)) = total (fun a => zlen (f a)) l.
Proof. induction l as [|a l IH]; [reflexivity|]. cbn [map concat]. rewrite zlen_app, IH. reflexivity. Qed.

(** what the bytes-fields of a message take *)
Lemma field_size f : pb_ok f -> match f with PV _ _ _ => 0 <= zlen (pb_wire f) | PB _ _ _ q => zlen q + 2 <= zlen (pb_wire f) end.
Proof.
  assert (V : forall v bs, varint_of v bs -> 1 <= zlen bs).
  { intros v bs (H & _). destruct bs as [|b bs]; [destruct H|]. rewrite zlen_cons. pose proof (zlen_nonneg bs). lia. }
  destruct f as [n k v|n k l q]; cbn [pb_ok pb_wire]; [intros _; apply zlen_nonneg|]. intros (_ & K & L & _). rewrite !zlen_app. pose proof (V _ _ K). pose proof (V _ _ L). lia.
Qed.
Definition csize (n : Z) (fs : list pbfield) : Z := total (fun c => zlen c + 2) (chunks n fs).
Lemma two_sizes n m p fs : n <> m -> message p fs -> csize n fs + csize m fs <= zlen p.
Proof.
  intros N (-> & H). unfold csize. induction fs as [|f fs IH]; [vm_compute; discriminate|]. inversion H as [|? ? Hf Hfs]; subst. specialize (IH Hfs). cbn [map concat]. rewrite zlen_app.
  pose proof (field_size f Hf) as S. unfold chunks in *. cbn [map concat]. rewrite !total_app.
  destruct f as [k key v|k key l q]; [unfold total in *; cbn [fold_right]; lia|].
  destruct (Z.eqb_spec k n), (Z.eqb_spec k m); unfold total in *; cbn [fold_right]; pose proof (zlen_nonneg q); lia.
Qed.


(** ** encoded sizes *)
Lemma venc4 v : 0 <= v < 2^28 -> zlen (venc v) <= 4.
Proof. intros H. apply (venc_small 3); [exact H|lia]. Qed.
Lemma vencs_ten raws : Forall is_u64 raws -> zlen (vencs raws) <= 10 * zlen raws.
Proof.
  induction 1 as [|v raws Hv _ IH]; [vm_compute; discriminate|]. unfold vencs in *. cbn [map concat]. rewrite zlen_app, zlen_cons. pose proof (venc_zlen v Hv). lia.
Qed.
Lemma ext_ten l : zlen (p_u64ext l) <= 10 * zlen l.
Proof.
  unfold p_u64ext. etransitivity; [apply vencs_ten|unfold zlen; rewrite map_length; lia]. apply Forall_map, Forall_forall. intros x _. apply u64_range.
Qed.
Lemma delta_ten l : zlen (p_delta l) <= 10 * zlen l.
Proof.
  unfold p_delta. etransitivity; [apply vencs_ten, zz_deltas_u64|]. unfold zlen. rewrite map_length. change (10 * zlen (deltas s64 0 l) <= 10 * zlen l). rewrite deltas_len. lia.
Qed.
Lemma fixed_len n id p : zlen (venc (MakeIdType id PbFixedBytes)) = 1 -> zlen (fixed_field n id p) = 1 + Z.of_nat n + zlen p.
Proof. intros H. unfold fixed_field. rewrite !zlen_app, H. unfold zlen. rewrite leb_fixed_length. lia. Qed.
Lemma buffer_len id p : zlen (venc (MakeIdType id PbFixedBytes)) = 1 -> zlen p < 2^28 -> zlen (id_buffer id p) <= 5 + zlen p.
Proof.
  intros H L. unfold id_buffer. rewrite !zlen_app, H. pose proof (zlen_nonneg p). rewrite u64_id by (unfold is_u64; lia). pose proof (venc4 (zlen p) ltac:(lia)). lia.
Qed.
Lemma small_way_enc w : small_way w -> way_fits w /\ zlen (way_enc w) <= 16380.
Proof.
  unfold small_way. intros H. pose proof (ext_ten (way_Keys w)). pose proof (ext_ten (way_Vals w)). pose proof (delta_ten (way_Refs w)).
  pose proof (zlen_nonneg (way_Keys w)). pose proof (zlen_nonneg (way_Vals w)). pose proof (zlen_nonneg (way_Refs w)). split; [unfold way_fits; lia|].
  unfold way_enc. rewrite !zlen_app, !fixed_len by (vm_compute; reflexivity). pose proof (venc_zlen (u64 (way_ID w)) (u64_range _)).
  change (zlen (venc (MakeIdType wayId PbVarInt))) with 1. lia.
Qed.
Definition gcost (g : PrimitiveGroup) : Z :=
  match pg_RawDense g with Some r => zlen r + 5 | None => 0 end + total (fun r => zlen r + 5) (pg_RawRelations g).
Definition wcount (g : PrimitiveGroup) : Z := match pg_Ways g with Some ws => zlen ws | None => 0 end.
Definition light (r : list Z) : Prop := zlen r < 2^28.
Lemma group_size g : rw_group g -> (forall r, pg_RawDense g = Some r -> light r) -> Forall light (pg_RawRelations g) ->
  (forall ws, pg_Ways g = Some ws -> Forall small_way ws) -> group_fits g /\ zlen (group_enc g) <= gcost g + 16384 * wcount g.
Proof.
  intros (D & Rw & Re & _) LD LR Hw. split.
  { split; [rewrite D; discriminate|]. split; [|rewrite Re; discriminate]. intros ws E. apply Forall_forall. intros w Hin. pose proof (proj1 (Forall_forall _ _) (Hw ws E) w Hin) as S. apply small_way_enc in S. destruct S. split; [assumption|lia]. }
  unfold group_enc, dense_part, ways_part, rels_part, gcost, wcount. rewrite D, Re, Rw, !zlen_app.
  assert (A : zlen (match pg_RawDense g with Some raw => id_buffer primitiveGroupDenseNodes raw | None => [] end) <= match pg_RawDense g with Some r => zlen r + 5 | None => 0 end).
  { destruct (pg_RawDense g) as [r|]; [|vm_compute; discriminate]. specialize (LD r eq_refl). pose proof (buffer_len primitiveGroupDenseNodes r ltac:(vm_compute; reflexivity) LD). lia. }
  assert (B : zlen (match pg_Ways g with Some ws => concat (map way_field ws) | None => concat (map (id_buffer primitiveGroupWays) []) end) <= 16384 * match pg_Ways g with Some ws => zlen ws | None => 0 end).
  { destruct (pg_Ways g) as [ws|]; [|vm_compute; discriminate]. specialize (Hw ws eq_refl). rewrite zlen_concat, <- total_const. apply total_le. intros w Hin. unfold way_field.
    rewrite fixed_len by (vm_compute; reflexivity). pose proof (proj1 (Forall_forall _ _) Hw w Hin) as S. apply small_way_enc in S. lia. }
  assert (C : zlen (concat (map (id_buffer primitiveGroupRelations) (pg_RawRelations g))) <= total (fun r => zlen r + 5) (pg_RawRelations g)).
  { rewrite zlen_concat. apply total_le. intros r Hin. pose proof (proj1 (Forall_forall _ _) LR r Hin) as L. pose proof (buffer_len primitiveGroupRelations r ltac:(vm_compute; reflexivity) L). lia. }
  lia.
Qed.
Lemma opt_varint_len d id v : zlen (venc (MakeIdType id PbVarInt)) = 2 -> zlen (opt_varint d id v) <= 12.
Proof. intros H. unfold opt_varint. destruct (negb _); [rewrite zlen_app, H; pose proof (venc_zlen (u64 v) (u64_range v)); lia|vm_compute; discriminate]. Qed.
Definition bcost (b : PrimitiveBlock) : Z :=
  match pblk_StringTableRaw b with Some r => zlen r + 5 | None => 0 end + total (fun g => gcost g + 5) (pblk_PrimitiveGroup b).
Lemma block_size b : rw_form b -> (forall r, pblk_StringTableRaw b = Some r -> light r) ->
  Forall (fun g => (forall r, pg_RawDense g = Some r -> light r) /\ Forall light (pg_RawRelations g) /\ (forall ws, pg_Ways g = Some ws -> Forall small_way ws)) (pblk_PrimitiveGroup b) ->
  bcost b + 16384 * total wcount (pblk_PrimitiveGroup b) + 48 < 2^28 -> block_fits b /\ zlen (block_enc b) < 2^28.
Proof.
  intros (S & F) LS H L. assert (G : forall g, In g (pblk_PrimitiveGroup b) -> group_fits g /\ zlen (group_enc g) <= gcost g + 16384 * wcount g).
  { intros g Hg. pose proof (proj1 (Forall_forall _ _) F g Hg). pose proof (proj1 (Forall_forall _ _) H g Hg) as (A & B & C). apply group_size; assumption. }
  assert (Gn : forall g, 0 <= gcost g /\ 0 <= wcount g).
  { intros g. unfold gcost, wcount. pose proof (total_nonneg (fun r => zlen r + 5) (pg_RawRelations g)) as T. specialize (T ltac:(intros r; pose proof (zlen_nonneg r); lia)).
    destruct (pg_RawDense g) as [r|], (pg_Ways g) as [ws|]; split; try pose proof (zlen_nonneg r); try pose proof (zlen_nonneg ws); lia. }
  assert (T : total (fun g => gcost g + 5) (pblk_PrimitiveGroup b) + 16384 * total wcount (pblk_PrimitiveGroup b) = total (fun g => gcost g + 5 + 16384 * wcount g) (pblk_PrimitiveGroup b)).
  { clear. induction (pblk_PrimitiveGroup b) as [|g gs IH]; [reflexivity|]. unfold total in *. cbn [fold_right]. lia. }
  assert (P : zlen (concat (map group_field (pblk_PrimitiveGroup b))) <= total (fun g => gcost g + 5 + 16384 * wcount g) (pblk_PrimitiveGroup b)).
  { rewrite zlen_concat. apply total_le. intros g Hg. unfold group_field. rewrite fixed_len by (vm_compute; reflexivity). destruct (G g Hg). lia. }
  assert (Q : zlen (st_part b) <= match pblk_StringTableRaw b with Some r => zlen r + 5 | None => 0 end).
  { unfold st_part. rewrite S. destruct (pblk_StringTableRaw b) as [r|]; [|vm_compute; discriminate]. pose proof (buffer_len primitiveBlockStringTable r ltac:(vm_compute; reflexivity) (LS r eq_refl)). lia. }
  unfold bcost in L. split.
  - split; [rewrite S; discriminate|]. apply Forall_forall. intros g Hg. destruct (G g Hg) as (G1 & G2). split; [exact G1|].
    assert (M : gcost g + 5 + 16384 * wcount g <= total (fun g => gcost g + 5 + 16384 * wcount g) (pblk_PrimitiveGroup b)).
    { clear - Hg Gn. induction (pblk_PrimitiveGroup b) as [|x gs IH]; [destruct Hg|]. pose proof (total_nonneg (fun g => gcost g + 5 + 16384 * wcount g) gs) as N. specialize (N ltac:(intros y; destruct (Gn y); lia)).
      destruct (Gn x). unfold total in *. cbn [fold_right]. destruct Hg as [->|Hg]; [lia|]. specialize (IH Hg). lia. }
    assert (0 <= zlen (st_part b)) by apply zlen_nonneg. lia.
  - unfold block_enc. rewrite !zlen_app.
    pose proof (opt_varint_len 100 primitiveBlockGranularity (pblk_Granularity b) ltac:(vm_compute; reflexivity)). pose proof (opt_varint_len 1000 primitiveBlockDateGranularity (pblk_DateGranularity b) ltac:(vm_compute; reflexivity)).
    pose proof (opt_varint_len 0 primitiveBlockLatOffset (pblk_LatOffset b) ltac:(vm_compute; reflexivity)). pose proof (opt_varint_len 0 primitiveBlockLonOffset (pblk_LonOffset b) ltac:(vm_compute; reflexivity)). lia.
Qed.
(** ** what the rewriter writes fits *)
Lemma total_f2 {A B} (R : A -> B -> Prop) (f : A -> Z) (g : B -> Z) l m : (forall a b, R a b -> g b <= f a) -> Forall2 R l m -> total g m <= total f l.
Proof. intros H F. induction F as [|a b l m X F IH]; [cbn; lia|]. unfold total in *. cbn [fold_right]. specialize (H a b X). lia. Qed.
Lemma opt_total {A} (f : A -> Z) o l : opt_list o = l -> match o with Some a => f a | None => 0 end = total f l.
Proof. intros <-. destruct o; unfold total; cbn; lia. Qed.
Lemma three_total (l : list (list Z)) : total (fun r => zlen r + 5) l <= 3 * total (fun r => zlen r + 2) l.
Proof. induction l as [|r l IH]; [vm_compute; discriminate|]. unfold total in *. cbn [fold_right]. pose proof (zlen_nonneg r). lia. Qed.
Lemma in_total {A} (f : A -> Z) l x : (forall a, 0 <= f a) -> In x l -> f x <= total f l.
Proof.
  intros N. induction l as [|a l IH]; intros []; unfold total in *; cbn [fold_right].
  - subst. pose proof (total_nonneg f l N). unfold total in *. lia.
  - specialize (IH H). specialize (N a). lia.
Qed.
Lemma group_cost c g : group_msg rw_reader c g -> gcost g <= 3 * zlen c /\ (forall r, pg_RawDense g = Some r -> zlen r <= zlen c) /\ Forall (fun r => zlen r <= zlen c) (pg_RawRelations g).
Proof.
  intros (fs & M & P & (A & _ & C)). unfold rw_reader in *. cbn [SkipDenseNodes SkipRelations] in *. destruct A as (_ & A). destruct C as (_ & C). unfold gcost.
  pose proof (two_sizes 2 4 c fs ltac:(lia) M) as T. unfold csize in T. split; [|split].
  - rewrite (opt_total (fun r => zlen r + 5) _ _ A), C. pose proof (three_total (chunks 2 fs)). pose proof (three_total (chunks 4 fs)). lia.
  - intros r E. apply (chunk_len 2 r c fs M). rewrite <- A, E. left. reflexivity.
  - rewrite C. apply Forall_forall. intros r Hr. exact (chunk_len 4 r c fs M Hr).
Qed.
Lemma block_cost raw b : block_msg rw_reader raw b -> bcost b <= 3 * zlen raw /\ (forall r, pblk_StringTableRaw b = Some r -> zlen r <= zlen raw) /\
  Forall (fun g => (forall r, pg_RawDense g = Some r -> zlen r <= zlen raw) /\ Forall (fun r => zlen r <= zlen raw) (pg_RawRelations g)) (pblk_PrimitiveGroup b).
Proof.
  intros (fs & M & P & (A & B & _)). unfold rw_reader in A at 1. cbn [SkipStringTable] in A. destruct A as (_ & A). unfold bcost. pose proof (two_sizes 1 2 raw fs ltac:(lia) M) as T. unfold csize in T. split; [|split].
  - rewrite (opt_total (fun r => zlen r + 5) _ _ A). pose proof (three_total (chunks 1 fs)).
    assert (total (fun g => gcost g + 5) (pblk_PrimitiveGroup b) <= total (fun c => 3 * (zlen c + 2)) (chunks 2 fs)) by (eapply total_f2; [|exact B]; intros c g G; apply group_cost in G; cbn beta; lia).
    assert (total (fun c : list Z => 3 * (zlen c + 2)) (chunks 2 fs) = 3 * total (fun c => zlen c + 2) (chunks 2 fs)) by (generalize (chunks 2 fs); intros l; induction l as [|x l IH]; [reflexivity|]; unfold total in *; cbn [fold_right]; lia).
    lia.
  - intros r E. apply (chunk_len 1 r raw fs M). rewrite <- A, E. left. reflexivity.
  - apply Forall_forall. intros g Hg. destruct (f2_in_r _ _ _ _ B Hg) as (c & Hc & G). pose proof (chunk_len 2 c raw fs M Hc). apply group_cost in G. destruct G as (_ & G1 & G2). split.
    + intros r E. specialize (G1 r E). lia.
    + revert G2. apply Forall_impl. intros; lia.
Qed.
Lemma wcount_ways p : total wcount (pblk_PrimitiveGroup p) = zlen (block_ways p).
Proof.
  unfold block_ways. induction (pblk_PrimitiveGroup p) as [|g gs IH]; [reflexivity|]. unfold total in *. cbn [flat_map fold_right]. rewrite zlen_app, IH. f_equal. unfold wcount. destruct (pg_Ways g) as [ws|]; [|reflexivity]. unfold zlen. rewrite map_length. reflexivity.
Qed.
Lemma view_fits raw p b' q f : zlen raw < 2^25 -> small_ways p -> block_msg rw_reader raw b' -> bpair rw_reader p b' -> same_block b' q -> rw_form q ->
  exists out, rw_out (block_with f q) = Ok out.
Proof.
  intros L (S1 & S2) M V Sb F. pose proof (block_cost raw b' M) as (C1 & C2 & C3). pose proof V as (V1 & _). pose proof Sb as (B1 & B2 & B3 & _).
  assert (Sw : forall g ws, In g (pblk_PrimitiveGroup q) -> pg_Ways g = Some ws -> Forall small_way ws).
  { intros g ws Hg E. destruct (f2_in_r _ _ _ _ (f2_comp _ _ _ _ V1 _ B3) Hg) as (g0 & Hg0 & (g1 & (pp & fs & _ & _ & _ & ->) & (_ & _ & W & _))).
    unfold gview in W. cbn [SkipWays rw_reader pg_Ways] in W. rewrite E in W. cbn [elems] in W. destruct (pg_Ways g0) as [ws0|] eqn:E0; cbn [elems] in W; subst ws; [exact (S2 g0 ws0 Hg0 E0)|constructor]. }
  assert (Wc : total wcount (pblk_PrimitiveGroup q) <= 8000).
  { rewrite wcount_ways. rewrite (seen_ways rw_reader p q eq_refl); [exact S1|]. exists b'. split; assumption. }
  assert (Bc : bcost q = bcost b').
  { unfold bcost. rewrite B1. f_equal. clear - B3. induction B3 as [|g g' gs gs' X F IH]; [reflexivity|]. unfold total in *. cbn [fold_right]. rewrite IH. destruct X as (X1 & _ & _ & _ & _ & X2). unfold gcost. rewrite X1, X2. reflexivity. }
  assert (G : block_fits (block_with f q) /\ zlen (block_enc (block_with f q)) < 2^28).
  { apply block_size.
    - apply rw_form_with. exact F.
    - cbn [block_with pblk_StringTableRaw]. intros r E. rewrite B1 in E. specialize (C2 r E). unfold light. lia.
    - cbn [block_with pblk_PrimitiveGroup]. apply Forall_map, Forall_forall. intros g Hg. destruct (f2_in_r _ _ _ _ B3 Hg) as (g1 & Hg1 & (X1 & _ & _ & _ & _ & X2)). pose proof (proj1 (Forall_forall _ _) C3 g1 Hg1) as (D1 & D2).
      cbn [group_with pg_RawDense pg_RawRelations pg_Ways]. split; [intros r E; rewrite X1 in E; specialize (D1 r E); unfold light; lia|]. split; [rewrite X2; revert D2; apply Forall_impl; unfold light; intros; lia|].
      intros ws E. destruct (pg_Ways g) as [ws0|] eqn:E0; [|discriminate]. injection E as <-. specialize (Sw g ws0 Hg E0). apply Forall_map. revert Sw. apply Forall_impl. intros w. unfold small_way, refs_with. cbn [way_Keys way_Vals way_Refs]. unfold zlen. rewrite map_length. auto.
    - assert (bcost (block_with f q) = bcost q) as ->.
      { unfold bcost, block_with. cbn [pblk_StringTableRaw pblk_PrimitiveGroup]. apply f_equal. clear. induction (pblk_PrimitiveGroup q) as [|g gs IH]; [reflexivity|]. unfold total in *. cbn [map fold_right]. rewrite IH. reflexivity. }
      assert (total wcount (pblk_PrimitiveGroup (block_with f q)) = total wcount (pblk_PrimitiveGroup q)) as ->.
      { unfold block_with. cbn [pblk_PrimitiveGroup]. clear. induction (pblk_PrimitiveGroup q) as [|g gs IH]; [reflexivity|]. unfold total in *. cbn [map fold_right]. rewrite IH. f_equal. unfold wcount, group_with. cbn [pg_Ways]. destruct (pg_Ways g); [|reflexivity]. cbn [option_map]. unfold zlen. rewrite map_length. reflexivity. }
      lia. }
  eexists. unfold rw_out. apply (Blob_Write_func_app (mkBlob None None None (Some (PrimitiveBlock_Write (block_with f q)))) (PrimitiveBlock_Write (block_with f q)) (block_fits (block_with f q)) (block_enc (block_with f q)) eq_refl (PrimitiveBlock_Write_app _)). split; [exact G|reflexivity].
Qed.

(** ** all passes *)
Definition fits_all (l : list ((list Z * list Z) * PrimitiveBlock)) : Prop :=
  Forall (fun x => fst (fst x) = tOSMData -> forall f, exists out, rw_out (block_with f (snd x)) = Ok out) l.
Lemma step_ok f x : (fst (fst x) = tOSMData -> forall f, exists out, rw_out (block_with f (snd x)) = Ok out) -> exists y, step f x = Ok y.
Proof.
  destruct x as [[ty d] q]. cbn [fst snd]. unfold step. intros H. destruct (seqb_spec ty tOSMData) as [T|T]; cbn [negb]; [|eauto]. destruct (_ =? 0); [eauto|]. destruct (H T f) as (out & ->). cbn [bind]. eauto.
Qed.
Lemma steps_ok f l : fits_all l -> exists bl, mapm (step f) l = Ok bl.
Proof.
  induction 1 as [|x l Hx _ (bl & IH)]; [exists []; reflexivity|]. destruct (step_ok f x Hx) as (y & Ey). exists (y :: bl). cbn [mapm]. rewrite Ey. cbn [bind]. rewrite IH. reflexivity.
Qed.
Lemma write_len bs : forall hdr4 acc f, List.length hdr4 = 4%nat -> Forall (fun b => known_type (blk_Type b) /\ zlen (vis (blk_Data b)) < 2^31) bs ->
  write_blocks false hdr4 bs acc = Ok f -> zlen acc <= zlen f <= zlen acc + 2^32 * zlen bs /\ (bs <> [] -> zlen acc < zlen f).
Proof.
  induction bs as [|b bs IH]; intros hdr4 acc f H4 H E; cbn [write_blocks andb] in E.
  - injection E as <-. change (zlen (@nil Block)) with 0. split; [lia|contradiction].
  - inversion H as [|? ? (K & D) Hb]; subst. rewrite write_frame_eq in E by assumption. cbn [bind] in E. destruct (known_bytes _ K) as [_ Lt]. pose proof (bh_enc_len (blk_Type b) (s32 (zlen (vis (blk_Data b)))) Lt) as Lh.
    apply IH in E; [|rewrite firstn_length, app_length; cbn [be32_bytes List.length]; lia|exact Hb]. rewrite !zlen_app in E. rewrite zlen_cons.
    set (h := bh_enc (mkBlobHeader (blk_Type b) (s32 (zlen (vis (blk_Data b)))))) in *. pose proof (zlen_nonneg h). pose proof (zlen_nonneg (vis (blk_Data b))).
    assert (zlen (be32_bytes (u32 (zlen h))) = 4) by reflexivity. split; [|intros _]; lia.
Qed.
Lemma passes_finish envs file l rs locs n : index_ok rs locs -> Forall is_s64 locs -> 1 <= n ->
  bytes file -> zlen file < 2^63 -> is_file file (map fst l) -> l <> [] -> zlen l < 2^31 -> (forall pass, ready_all (envs pass) 0 l) -> fits_all l ->
  (exists subs, passes (index_of rs locs) n = Ok subs) ->
  forall k, Z.of_nat k <= n -> exists f l', after_passes envs (index_of rs locs) n k file = Ok f /\ zlen f < 2^63 /\ bytes f /\ is_file f (map fst l') /\
    l' <> [] /\ List.length l' = List.length l /\ (forall pass, ready_all (envs pass) 0 l') /\ fits_all l'.
Proof.
  intros Hi Hs64 Hn Bf Lf Ff Nl Ll R Fit (subs & Ep). pose proof (passes_sub rs locs n subs Hi Hn Ep) as (_ & P).
  induction k as [|k IH]; intros Hk; [exists file, l; cbn [after_passes]; auto 10|].
  destruct (IH ltac:(lia)) as (f0 & l' & E0 & L0 & B0 & F0 & N0 & Ln & R0 & Fit0). clear IH. cbn [after_passes]. rewrite E0. cbn [bind].
  destruct (P k ltac:(lia)) as (P1 & P2). destruct (SubIndex_spec rs locs (Z.of_nat k) n Hi Hn ltac:(lia)) as (Y & _). cbn zeta in Y. destruct (Y (conj P1 P2)) as (lst & top & _ & _ & Es). clear Y.
  destruct (sub_good rs locs n (Z.of_nat k) _ Hi Hn ltac:(lia) Es) as (top' & Eq & G). rewrite Es. cbn [bind]. rewrite Eq.
  assert (N1 : f0 <> []).
  { intros ->. destruct l' as [|[[ty d] q] l']; [contradiction|]. cbn [map fst is_file] in F0. destruct F0 as (fb & rest & X & (sz & hdr & -> & Bs & _) & _). destruct sz as [|? ?]; [|discriminate]. destruct Bs as (? & ? & ? & ? & Bs & _). discriminate. }
  rewrite (rw_pass_is _ _ locs top' _ f0 l' G B0 L0 F0 (R0 _) N1).
  set (S_ := new_ref (pass_ranges rs locs (Z.of_nat k) n) locs) in *. destruct (steps_ok S_ l' Fit0) as (bl & Em). rewrite Em. cbn [bind].
  destruct (step_all S_ l' bl Em) as (M1 & M2 & M3). cbn zeta in M1, M2, M3. set (l2 := combine bl (map (fun x => block_with S_ (snd x)) l')) in *.
  assert (R2 : forall pass, ready_all (envs pass) 0 l2).
  { intros pass i x' Hx'. destruct (M3 i x' Hx') as (x & Hx & Hs & Hq). destruct x' as [y q']. cbn [fst snd] in Hs, Hq. subst q'. destruct x as [[ty d] q]. cbn [snd].
    pose proof (R0 pass i _ Hx) as Rx. eapply step_ready; [apply new_ref_s64; exact Hs64|exact Rx| |exact Hs]. intros T. destruct Rx as (_ & _ & _ & Rx). apply Rx. exact T. }
  assert (Bl : Forall (fun b => known_type (fst b) /\ bytes (snd b) /\ zlen (snd b) < 2^31) bl).
  { rewrite <- M1. apply Forall_map, Forall_forall. intros x Hx. apply In_nth_error in Hx. destruct Hx as (i & Hx). specialize (R2 0 i x Hx). destruct x as [[ty d] q]. destruct R2 as (K1 & K2 & K3 & _). cbn. auto. }
  destruct (write_blocks_pbf false (map as_block bl) zero4 [] [] eq_refl eq_refl) as (f & E & _).
  { apply Forall_map. revert Bl. apply Forall_impl. intros [ty d] (A & B & C). cbn. auto. }
  assert (E' : enc_file bl = Ok f) by exact E. exists f, l2. split; [exact E'|].
  assert (Lb : List.length bl = List.length l) by (rewrite <- M1, map_length, M2; exact Ln).
  assert (Lz : zlen f < 2^63).
  { apply write_len in E; [|reflexivity|apply Forall_map; revert Bl; apply Forall_impl; intros [ty d] (A & _ & C); cbn; auto].
    destruct E as (E & _). change (zlen (@nil Z)) with 0 in E. unfold zlen in E at 3. rewrite map_length, Lb in E. fold (zlen l) in E. lia. }
  destruct (enc_file_is bl f E' Bl) as (F2 & B2). split; [exact Lz|]. split; [exact B2|]. split; [rewrite M1; exact F2|].
  split; [intros X; apply (f_equal (@List.length _)) in X; rewrite M2, Ln in X; destruct l; [contradiction|discriminate]|]. split; [congruence|]. split; [exact R2|].
  apply Forall_forall. intros x' Hx'. apply In_nth_error in Hx'. destruct Hx' as (i & Hx'). destruct (M3 i x' Hx') as (x & Hx & Hs & Hq). intros T f'. rewrite Hq, block_with_comp.
  apply (proj1 (Forall_forall _ _) Fit0 x (nth_error_In _ _ Hx)). rewrite <- T. symmetry. exact (step_type _ _ _ Hs).
Qed.
Lemma rewrite_finishes {R} (envs : R -> Z -> zenv) (rp : Z -> R) file blocks rs locs n : osm_file envs file blocks -> (forall run i, env_ok (envs run i)) ->
  small_file envs file blocks -> blocks <> [] -> index_ok rs locs -> Forall is_s64 locs -> 1 <= n -> (exists subs, passes (index_of rs locs) n = Ok subs) ->
  forall k, Z.of_nat k <= n -> exists f, after_passes (fun pass => envs (rp pass)) (index_of rs locs) n k file = Ok f /\ zlen f < 2^63.
Proof.
  intros (Bf & Lf & blobs & F & L & H) He (Sm & Nb & Sc) Ne Hi Hs64 Hn Hp k Hk.
  pose proof (pbf_is _ _ Lf F) as F'. pose proof (osm_known envs blobs blocks L H) as K. pose proof (file_blobs blobs file Bf F') as Bd.
  destruct (choose_list (fun i tb q => (fst tb = tOSMData -> block_typed q /\ rw_form q /\ forall run, holds_alone (envs run (Z.of_nat i)) (snd tb) q) /\ (fst tb = tOSMData -> forall f, exists out, rw_out (block_with f q) = Ok out)) blobs 0) as (l & Hl1 & Hl2).
  { intros i [ty data] Hin. cbn [Nat.add fst snd]. destruct (nth_same _ _ _ _ L Hin) as (c & Hc). specialize (H i _ c Hin Hc). pose proof (proj1 (Forall_forall _ _) Bd _ (nth_error_In _ _ Hin)) as (D1 & D2). cbn [fst snd] in D1, D2.
    destruct c as [p|]; cbn [blob_is fst snd] in H.
    - destruct H as (Ty & raw & D & M). destruct (block_view rw_reader raw p M) as (b' & B' & V). subst ty.
      pose proof (Sc blobs i data (rp 0) raw F Hin (D (rp 0))) as Lr. destruct (block_read rw_reader raw b' [] B' ltac:(lia)) as (q & Eq & Sq). exists q.
      pose proof (ReadBlock_rw _ _ Eq) as RF. split.
      + intros _. split; [|split; [exact RF|]].
        * eapply ReadBlock_typed; [|exact Eq]. destruct M as (fs & M & _). split; [exact (message_bytes _ _ M)|]. split; [constructor|]. unfold scap, slen, zlen in *. cbn [vis ext List.length] in *. lia.
        * intros run. destruct (data_read (envs run (Z.of_nat i)) data raw [] (D run) ltac:(lia)) as (b & s & E1 & E2 & E3). exists b, s. split; [exact E1|]. split; [exact E2|]. rewrite E3. exact Eq.
      + intros _ f. apply (view_fits raw p b' q f Lr); [apply Sm; exact (nth_error_In _ _ Hc)|exact B'|exact V|exact Sq|exact RF].
    - exists PrimitiveBlock0. split; intros X; rewrite H in X; discriminate X. }
  destruct (passes_finish (fun pass => envs (rp pass)) file l rs locs n Hi Hs64 Hn Bf Lf) with (k := k) as (f & _ & E & Lz & _); try assumption.
  - rewrite Hl1. exact F'.
  - intros ->. cbn in Hl1. subst blobs. destruct blocks; [contradiction|discriminate].
  - unfold zlen in *. apply (f_equal (@List.length _)) in Hl1. rewrite map_length in Hl1. rewrite Hl1, L. exact Nb.
  - intros pass i x Hx. destruct (Hl2 i x Hx) as (A & _). destruct x as [[ty data] q]. cbn [Nat.add fst snd] in *.
    assert (Hb : nth_error blobs i = Some (ty, data)) by (rewrite <- Hl1, nth_error_map, Hx; reflexivity). pose proof (nth_error_In _ _ Hb) as Hb'.
    pose proof (proj1 (Forall_forall _ _) Bd _ Hb') as (D1 & D2). pose proof (proj1 (Forall_forall _ _) K _ Hb') as Kb. cbn [fst snd] in *. split; [exact Kb|]. split; [exact D1|]. split; [exact D2|].
    intros X. destruct (A X) as (A1 & A2 & A3). auto.
  - apply Forall_forall. intros x Hx. apply In_nth_error in Hx. destruct Hx as (i & Hx). destruct (Hl2 i x Hx) as (_ & A). exact A.
  - exists f. split; assumption.
Qed.
