(** * TMsg2: groups, blocks, blobs, headers. *)
From Verif Require Import Base BaseLemmas PbModel PbSpec PbProofs PbProofs2 TModel TSpec TProofs TMsg.

Definition norm_opt {A} (o : option (list A)) : option (list A) :=
  match o with Some [] => None | _ => o end.
Definition strip (d : DenseNodes) : DenseNodes :=
  mkDense (dn_Id d) (dn_Lat d) (dn_Lon d) (dn_KeyVals d) [] [].
Definition group_norm (g : PrimitiveGroup) : PrimitiveGroup :=
  mkGroup (pg_RawDense g) (option_map strip (pg_Dense g)) (norm_opt (pg_Ways g)) (pg_RawWays g)
          (norm_opt (pg_Relations g)) (pg_RawRelations g).

Lemma elems_norm {A} (o : option (list A)) : elems (norm_opt o) = elems o.
Proof. destruct o as [[|a l]|]; reflexivity. Qed.
Lemma group_norm_same g : same_group g (group_norm g).
Proof.
  unfold same_group, group_norm; cbn. rewrite !elems_norm.
  split; [reflexivity|]. split; [|auto]. destruct (pg_Dense g); cbn; [|exact I].
  repeat split.
Qed.

(** ** group *)
Definition dense_part (g : PrimitiveGroup) : list Z :=
  match pg_Dense g with
  | Some d => fixed_field 4 primitiveGroupDenseNodes (dense_enc d)
  | None => match pg_RawDense g with
            | Some raw => id_buffer primitiveGroupDenseNodes raw
            | None => []
            end
  end.
Definition way_field (w : Way) := fixed_field 2 primitiveGroupWays (way_enc w).
Definition rel_field (r : Relation) := fixed_field 3 primitiveGroupRelations (relation_enc r).
Definition ways_part (g : PrimitiveGroup) : list Z :=
  match pg_Ways g with
  | Some ws => concat (map way_field ws)
  | None => concat (map (id_buffer primitiveGroupWays) (pg_RawWays g))
  end.
Definition rels_part (g : PrimitiveGroup) : list Z :=
  match pg_Relations g with
  | Some rs => concat (map rel_field rs)
  | None => concat (map (id_buffer primitiveGroupRelations) (pg_RawRelations g))
  end.
Definition group_enc (g : PrimitiveGroup) : list Z := dense_part g ++ ways_part g ++ rels_part g.

Definition group_fits (g : PrimitiveGroup) : Prop :=
  (forall d, pg_Dense g = Some d -> dense_fits d /\ zlen (dense_enc d) < 268435456) /\
  (forall ws, pg_Ways g = Some ws -> Forall (fun w => way_fits w /\ zlen (way_enc w) < 16384) ws) /\
  (forall rs, pg_Relations g = Some rs ->
     Forall (fun r => relation_fits r /\ zlen (relation_enc r) < 2097152) rs).

Lemma Forall_True {A} (l : list A) : Forall (fun _ => True) l.
Proof. apply Forall_forall; auto. Qed.

Lemma PrimitiveGroup_Write_app g : appender (PrimitiveGroup_Write g) (group_fits g) (group_enc g).
Proof.
  unfold group_enc. eapply appender_iff.
  2:{ unfold PrimitiveGroup_Write. apply appender_seq.
      { instantiate (1 := (forall d, pg_Dense g = Some d -> dense_fits d /\ zlen (dense_enc d) < 268435456)).
        unfold dense_part. destruct (pg_Dense g) as [d|].
        - eapply appender_iff; [|apply app_e268435456, DenseNodes_Write_app].
          split; [intros H d' E; injection E as <-; exact H|intros H; apply H; reflexivity].
        - destruct (pg_RawDense g).
          + eapply appender_iff; [|apply app_id_buffer]. split; [discriminate|auto].
          + eapply appender_iff; [|apply app_none]. split; [discriminate|auto]. }
      apply appender_seq.
      { instantiate (1 := (forall ws, pg_Ways g = Some ws ->
            Forall (fun w => way_fits w /\ zlen (way_enc w) < 16384) ws)).
        unfold ways_part. destruct (pg_Ways g) as [ws|].
        - eapply appender_iff; [|apply (appender_fold _ (fun w => way_fits w /\ zlen (way_enc w) < 16384));
            intros w _; apply app_e16384, Way_Write_app].
          split; [intros H ws' E; injection E as <-; exact H|intros H; apply H; reflexivity].
        - eapply appender_iff; [|apply (appender_fold _ (fun _ => True)); intros w _; apply app_id_buffer].
          split; [discriminate|intros _; apply Forall_True]. }
      instantiate (1 := (forall rs, pg_Relations g = Some rs ->
            Forall (fun r => relation_fits r /\ zlen (relation_enc r) < 2097152) rs)).
      unfold rels_part. destruct (pg_Relations g) as [rs|].
      - eapply appender_iff; [|apply (appender_fold _ (fun r => relation_fits r /\ zlen (relation_enc r) < 2097152));
            intros w _; apply app_e2097152, Relation_Write_app].
        split; [intros H ws' E; injection E as <-; exact H|intros H; apply H; reflexivity].
      - eapply appender_iff; [|apply (appender_fold _ (fun _ => True)); intros w _; apply app_id_buffer].
        split; [discriminate|intros _; apply Forall_True]. }
  unfold group_fits. tauto.
Qed.

Lemma group_bytes g : group_typed g -> group_fits g -> bytes (group_enc g).
Proof.
  intros (T1 & T2 & T3 & T4 & T5 & T6) (F1 & F2 & F3). unfold group_enc. rewrite !bytes_app.
  split; [|split].
  - unfold dense_part. destruct (pg_Dense g) as [d|].
    + destruct (F1 d eq_refl). apply fixed_field_bytes; [assumption|apply dense_bytes; assumption].
    + destruct (pg_RawDense g); [apply id_buffer_bytes, T2; reflexivity|constructor].
  - unfold ways_part. destruct (pg_Ways g) as [ws|].
    + apply concat_bytes. intros w Hw. specialize (F2 ws eq_refl).
      eapply Forall_forall in F2 as [? ?]; [|exact Hw].
      apply fixed_field_bytes; [assumption|apply way_bytes; assumption].
    + apply concat_bytes. intros w Hw. eapply Forall_forall in T4; [|exact Hw].
      apply id_buffer_bytes; assumption.
  - unfold rels_part. destruct (pg_Relations g) as [rs|].
    + apply concat_bytes. intros r Hr. specialize (F3 rs eq_refl). specialize (T5 rs eq_refl).
      eapply Forall_forall in F3 as [? ?]; [|exact Hr]. eapply Forall_forall in T5; [|exact Hr].
      apply fixed_field_bytes; [assumption|apply relation_bytes; assumption].
    + apply concat_bytes. intros w Hw. eapply Forall_forall in T6; [|exact Hw].
      apply id_buffer_bytes; assumption.
Qed.

Definition set_dense (o : option DenseNodes) (g : PrimitiveGroup) :=
  mkGroup (pg_RawDense g) o (pg_Ways g) (pg_RawWays g) (pg_Relations g) (pg_RawRelations g).
Definition set_raw_dense (o : option (list Z)) (g : PrimitiveGroup) :=
  mkGroup o (pg_Dense g) (pg_Ways g) (pg_RawWays g) (pg_Relations g) (pg_RawRelations g).
Definition set_ways (o : option (list Way)) (g : PrimitiveGroup) :=
  mkGroup (pg_RawDense g) (pg_Dense g) o (pg_RawWays g) (pg_Relations g) (pg_RawRelations g).
Definition set_raw_ways (o : list (list Z)) (g : PrimitiveGroup) :=
  mkGroup (pg_RawDense g) (pg_Dense g) (pg_Ways g) o (pg_Relations g) (pg_RawRelations g).
Definition set_rels (o : option (list Relation)) (g : PrimitiveGroup) :=
  mkGroup (pg_RawDense g) (pg_Dense g) (pg_Ways g) (pg_RawWays g) o (pg_RawRelations g).
Definition set_raw_rels (o : list (list Z)) (g : PrimitiveGroup) :=
  mkGroup (pg_RawDense g) (pg_Dense g) (pg_Ways g) (pg_RawWays g) (pg_Relations g) o.

(** handler equations *)
Lemma gh_dense pbr b k : SkipDenseNodes pbr = false ->
  group_handler pbr (MakeIdType primitiveGroupDenseNodes PbFixedBytes) b k =
  ('(i, k) <- DecodeBytes b k ;; d <- ReadDenseNodes i DenseNodes0 ;; Ok (k, set_dense (Some d))).
Proof. intros H. unfold group_handler. rewrite H. reflexivity. Qed.
Lemma gh_raw_dense pbr b k : SkipDenseNodes pbr = true ->
  group_handler pbr (MakeIdType primitiveGroupDenseNodes PbFixedBytes) b k =
  ('(i, k) <- DecodeBytes b k ;; Ok (k, set_raw_dense (Some (vis i)))).
Proof. intros H. unfold group_handler. rewrite H. reflexivity. Qed.
Lemma gh_ways pbr b k : SkipWays pbr = false ->
  group_handler pbr (MakeIdType primitiveGroupWays PbFixedBytes) b k =
  ('(i, k) <- DecodeBytes b k ;; w <- ReadWay i Way0 ;;
   Ok (k, (fun w g => set_ways (opt_append (pg_Ways g) w) g) w)).
Proof. intros H. unfold group_handler. rewrite H. reflexivity. Qed.
Lemma gh_raw_ways pbr b k : SkipWays pbr = true ->
  group_handler pbr (MakeIdType primitiveGroupWays PbFixedBytes) b k =
  ('(i, k) <- DecodeBytes b k ;;
   Ok (k, (fun p g => set_raw_ways (pg_RawWays g ++ [p]) g) (vis i))).
Proof. intros H. unfold group_handler. rewrite H. reflexivity. Qed.
Lemma gh_rels pbr b k : SkipRelations pbr = false ->
  group_handler pbr (MakeIdType primitiveGroupRelations PbFixedBytes) b k =
  ('(i, k) <- DecodeBytes b k ;; r <- ReadRelation i Relation0 ;;
   Ok (k, (fun r g => set_rels (opt_append (pg_Relations g) r) g) r)).
Proof. intros H. unfold group_handler. rewrite H. reflexivity. Qed.
Lemma gh_raw_rels pbr b k : SkipRelations pbr = true ->
  group_handler pbr (MakeIdType primitiveGroupRelations PbFixedBytes) b k =
  ('(i, k) <- DecodeBytes b k ;;
   Ok (k, (fun p g => set_raw_rels (pg_RawRelations g ++ [p]) g) (vis i))).
Proof. intros H. unfold group_handler. rewrite H. reflexivity. Qed.

Lemma group_eta g : mkGroup (pg_RawDense g) (pg_Dense g) (pg_Ways g) (pg_RawWays g)
                            (pg_Relations g) (pg_RawRelations g) = g.
Proof. destruct g; reflexivity. Qed.

(** folds *)
Definition opt_appends {A} (o : option (list A)) (l : list A) : option (list A) :=
  match l with [] => o | _ => Some (elems o ++ l) end.
Lemma opt_appends_cons {A} (o : option (list A)) a l :
  opt_appends (opt_append o a) l = opt_appends o (a :: l).
Proof. destruct o, l; simpl; rewrite <- ?app_assoc; reflexivity. Qed.

Lemma fold_set_ways ws g :
  fold_left (fun g w => set_ways (opt_append (pg_Ways g) w) g) ws g =
  set_ways (opt_appends (pg_Ways g) ws) g.
Proof.
  revert g. induction ws as [|w ws IH]; intros g; cbn [fold_left].
  - unfold set_ways. cbn. symmetry. apply group_eta.
  - rewrite IH. unfold set_ways at 1 3. cbn. rewrite opt_appends_cons. reflexivity.
Qed.
Lemma fold_set_rels ws g :
  fold_left (fun g w => set_rels (opt_append (pg_Relations g) w) g) ws g =
  set_rels (opt_appends (pg_Relations g) ws) g.
Proof.
  revert g. induction ws as [|w ws IH]; intros g; cbn [fold_left].
  - unfold set_rels. cbn. symmetry. apply group_eta.
  - rewrite IH. unfold set_rels at 1 3. cbn. rewrite opt_appends_cons. reflexivity.
Qed.
Lemma fold_set_raw_ways ws g :
  fold_left (fun g w => set_raw_ways (pg_RawWays g ++ [w]) g) ws g =
  set_raw_ways (pg_RawWays g ++ ws) g.
Proof.
  revert g. induction ws as [|w ws IH]; intros g; cbn [fold_left].
  - unfold set_raw_ways. rewrite app_nil_r. symmetry. apply group_eta.
  - rewrite IH. unfold set_raw_ways at 1 3. cbn. rewrite <- app_assoc. reflexivity.
Qed.
Lemma fold_set_raw_rels ws g :
  fold_left (fun g w => set_raw_rels (pg_RawRelations g ++ [w]) g) ws g =
  set_raw_rels (pg_RawRelations g ++ ws) g.
Proof.
  revert g. induction ws as [|w ws IH]; intros g; cbn [fold_left].
  - unfold set_raw_rels. rewrite app_nil_r. symmetry. apply group_eta.
  - rewrite IH. unfold set_raw_rels at 1 3. cbn. rewrite <- app_assoc. reflexivity.
Qed.

Lemma len_prefix_fixed2 p : zlen p < 16384 -> len_prefix (leb_fixed 2 (zlen p)) p.
Proof. intros. apply (len_prefix_fixed 1); [lia|assumption]. Qed.
Lemma len_prefix_fixed3 p : zlen p < 2097152 -> len_prefix (leb_fixed 3 (zlen p)) p.
Proof. intros. apply (len_prefix_fixed 2); [lia|assumption]. Qed.
Lemma len_prefix_fixed4 p : zlen p < 268435456 -> len_prefix (leb_fixed 4 (zlen p)) p.
Proof. intros. apply (len_prefix_fixed 3); [lia|assumption]. Qed.

Definition dense_U (g : PrimitiveGroup) (g0 : PrimitiveGroup) : PrimitiveGroup :=
  match pg_Dense g with
  | Some d => set_dense (Some (strip d)) g0
  | None => match pg_RawDense g with
            | Some raw => set_raw_dense (Some raw) g0
            | None => g0
            end
  end.
Definition ways_U (g g0 : PrimitiveGroup) : PrimitiveGroup :=
  match pg_Ways g with
  | Some ws => set_ways (opt_appends (pg_Ways g0) ws) g0
  | None => set_raw_ways (pg_RawWays g0 ++ pg_RawWays g) g0
  end.
Definition rels_U (g g0 : PrimitiveGroup) : PrimitiveGroup :=
  match pg_Relations g with
  | Some ws => set_rels (opt_appends (pg_Relations g0) ws) g0
  | None => set_raw_rels (pg_RawRelations g0 ++ pg_RawRelations g) g0
  end.

Lemma dense_consumes pbr g :
  group_typed g -> group_fits g -> group_form pbr g -> zlen (dense_part g) < 2^63 ->
  consumes (group_handler pbr) (dense_part g) (fun _ => dense_U g).
Proof.
  intros (T1 & T2 & _) (F1 & _) (Hf & _) Hl. unfold dense_part, dense_U in *.
  destruct (pg_Dense g) as [d|].
  - destruct (SkipDenseNodes pbr) eqn:Es; [discriminate|].
    destruct (F1 d eq_refl) as [Fd Fl]. unfold fixed_field.
    apply (consumes_nested (group_handler pbr) primitiveGroupDenseNodes
             (fun i => ReadDenseNodes i DenseNodes0) (fun d => set_dense (Some d))).
    + intros b k. apply gh_dense; exact Es.
    + apply len_prefix_fixed4; exact Fl.
    + intros e. apply ReadDenseNodes_enc; [reflexivity|apply T1; reflexivity|exact Fd|lia].
  - destruct (pg_RawDense g) as [raw|]; [|apply consumes_nil].
    destruct (SkipDenseNodes pbr) eqn:Es; [|discriminate].
    unfold id_buffer.
    apply (consumes_raw (group_handler pbr) primitiveGroupDenseNodes
             (fun p => set_raw_dense (Some p))).
    + intros b k. apply gh_raw_dense; exact Es.
    + apply len_prefix_venc. pose proof (id_buffer_len primitiveGroupDenseNodes raw). lia.
Qed.

Lemma ways_consumes pbr g :
  group_typed g -> group_fits g -> group_form pbr g -> zlen (ways_part g) < 2^63 ->
  consumes (group_handler pbr) (ways_part g) (fun _ => ways_U g).
Proof.
  intros (_ & _ & T3 & T4 & _) (_ & F2 & _) (_ & Hf & _) Hl. unfold ways_part, ways_U in *.
  destruct (pg_Ways g) as [ws|].
  - destruct (SkipWays pbr) eqn:Es; [discriminate|].
    specialize (F2 ws eq_refl). specialize (T3 ws eq_refl).
    eapply consumes_ext; [intros r st; apply fold_set_ways|].
    apply (consumes_concat (group_handler pbr) way_field
             (fun w g => set_ways (opt_append (pg_Ways g) w) g)).
    intros w Hw. eapply Forall_forall in F2 as [Fw Fl]; [|exact Hw].
    eapply Forall_forall in T3; [|exact Hw].
    apply (consumes_nested (group_handler pbr) primitiveGroupWays (fun i => ReadWay i Way0)
             (fun w g => set_ways (opt_append (pg_Ways g) w) g)).
    + intros b k. apply gh_ways; exact Es.
    + apply len_prefix_fixed2; exact Fl.
    + intros e. apply ReadWay_enc; [exact T3|exact Fw|lia].
  - eapply consumes_ext; [intros r st; apply fold_set_raw_ways|].
    destruct (SkipWays pbr) eqn:Es.
    + apply (consumes_concat (group_handler pbr) (id_buffer primitiveGroupWays)
             (fun p g => set_raw_ways (pg_RawWays g ++ [p]) g)).
      intros w Hw.
      apply (consumes_raw (group_handler pbr) primitiveGroupWays
             (fun p g => set_raw_ways (pg_RawWays g ++ [p]) g)).
      * intros b k. apply gh_raw_ways; exact Es.
      * apply len_prefix_venc. pose proof (id_buffer_len primitiveGroupWays w).
        pose proof (concat_le (id_buffer primitiveGroupWays) _ w Hw). lia.
    + rewrite Hf. apply consumes_nil.
Qed.

Lemma rels_consumes pbr g :
  group_typed g -> group_fits g -> group_form pbr g -> zlen (rels_part g) < 2^63 ->
  consumes (group_handler pbr) (rels_part g) (fun _ => rels_U g).
Proof.
  intros (_ & _ & _ & _ & T5 & T6) (_ & _ & F3) (_ & _ & Hf) Hl. unfold rels_part, rels_U in *.
  destruct (pg_Relations g) as [ws|].
  - destruct (SkipRelations pbr) eqn:Es; [discriminate|].
    specialize (F3 ws eq_refl). specialize (T5 ws eq_refl).
    eapply consumes_ext; [intros r st; apply fold_set_rels|].
    apply (consumes_concat (group_handler pbr) rel_field
             (fun w g => set_rels (opt_append (pg_Relations g) w) g)).
    intros w Hw. eapply Forall_forall in F3 as [Fw Fl]; [|exact Hw].
    eapply Forall_forall in T5; [|exact Hw].
    apply (consumes_nested (group_handler pbr) primitiveGroupRelations (fun i => ReadRelation i Relation0)
             (fun w g => set_rels (opt_append (pg_Relations g) w) g)).
    + intros b k. apply gh_rels; exact Es.
    + apply len_prefix_fixed3; exact Fl.
    + intros e. apply ReadRelation_enc; [exact T5|exact Fw|lia].
  - eapply consumes_ext; [intros r st; apply fold_set_raw_rels|].
    destruct (SkipRelations pbr) eqn:Es.
    + apply (consumes_concat (group_handler pbr) (id_buffer primitiveGroupRelations)
             (fun p g => set_raw_rels (pg_RawRelations g ++ [p]) g)).
      intros w Hw.
      apply (consumes_raw (group_handler pbr) primitiveGroupRelations
             (fun p g => set_raw_rels (pg_RawRelations g ++ [p]) g)).
      * intros b k. apply gh_raw_rels; exact Es.
      * apply len_prefix_venc. pose proof (id_buffer_len primitiveGroupRelations w).
        pose proof (concat_le (id_buffer primitiveGroupRelations) _ w Hw). lia.
    + rewrite Hf. apply consumes_nil.
Qed.

Lemma ReadPrimitiveGroup_enc pbr g e :
  group_typed g -> group_fits g -> group_form pbr g -> zlen (group_enc g) < 2^63 ->
  ReadPrimitiveGroup pbr (mkslice (group_enc g) e) PrimitiveGroup0 = Ok (group_norm g).
Proof.
  intros T F Hf Hl. unfold ReadPrimitiveGroup.
  assert (Hl' := Hl). unfold group_enc in Hl'. rewrite !zlen_app in Hl'.
  pose proof (zlen_nonneg (dense_part g)). pose proof (zlen_nonneg (ways_part g)).
  pose proof (zlen_nonneg (rels_part g)).
  erewrite read_msg_consumes with (U := fun _ g0 => rels_U g (ways_U g (dense_U g g0)));
    [| |apply group_bytes; assumption|exact Hl].
  - f_equal. destruct Hf as (G1 & G2 & G3). unfold rels_U, ways_U, dense_U, group_norm.
    destruct g as [rd d ws rws rs rrs]; cbn in *.
    destruct (SkipDenseNodes pbr), (SkipWays pbr), (SkipRelations pbr); subst;
      cbn; destruct rd || destruct d; try destruct ws as [[|]|]; try destruct rs as [[|]|];
      reflexivity.
  - unfold group_enc. eapply consumes_ext.
    2:{ apply consumes_app; [apply dense_consumes; try assumption; lia|].
        apply consumes_app; [apply ways_consumes; try assumption; lia|].
        apply rels_consumes; try assumption; lia. }
    reflexivity.
Qed.

(** ** block *)
Definition block_norm (p : PrimitiveBlock) : PrimitiveBlock :=
  mkBlock (pblk_StringTableRaw p) (pblk_StringTable p) (map group_norm (pblk_PrimitiveGroup p))
          (pblk_Granularity p) (pblk_DateGranularity p) (pblk_LatOffset p) (pblk_LonOffset p).

Lemma block_norm_same p : same_block p (block_norm p).
Proof.
  unfold same_block, block_norm; cbn. repeat split.
  induction (pblk_PrimitiveGroup p); constructor; [apply group_norm_same|assumption].
Qed.

Definition st_enc (st : list (list Z)) : list Z := concat (map (id_buffer stringTableS) st).
Definition st_part (p : PrimitiveBlock) : list Z :=
  match pblk_StringTable p with
  | Some st => fixed_field 4 primitiveBlockStringTable (st_enc st)
  | None => match pblk_StringTableRaw p with
            | Some raw => id_buffer primitiveBlockStringTable raw
            | None => []
            end
  end.
Definition group_field (g : PrimitiveGroup) := fixed_field 4 primitiveBlockPrimitiveGroup (group_enc g).
Definition opt_varint (dflt id v : Z) : list Z :=
  if negb (v =? dflt) then venc (MakeIdType id PbVarInt) ++ venc (u64 v) else [].
Definition block_enc (p : PrimitiveBlock) : list Z :=
  st_part p ++ concat (map group_field (pblk_PrimitiveGroup p)) ++
  opt_varint 100 primitiveBlockGranularity (pblk_Granularity p) ++
  opt_varint 1000 primitiveBlockDateGranularity (pblk_DateGranularity p) ++
  opt_varint 0 primitiveBlockLatOffset (pblk_LatOffset p) ++
  opt_varint 0 primitiveBlockLonOffset (pblk_LonOffset p).
Definition block_fits (p : PrimitiveBlock) : Prop :=
  (forall st, pblk_StringTable p = Some st -> zlen (st_enc st) < 268435456) /\
  Forall (fun g => group_fits g /\ zlen (group_enc g) < 268435456) (pblk_PrimitiveGroup p).

Lemma app_opt_varint dflt id v :
  appender (fun b => Ok (if negb (v =? dflt) then EncodeIdVarInt b id (u64 v) else b)) True
           (opt_varint dflt id v).
Proof.
  unfold opt_varint. destruct (negb (v =? dflt)); [apply app_id_varint|apply app_none].
Qed.

Lemma PrimitiveBlock_Write_app p : appender (PrimitiveBlock_Write p) (block_fits p) (block_enc p).
Proof.
  unfold block_enc. eapply appender_iff.
  2:{ eapply appender_ext.
      2:{ apply appender_seq.
        { instantiate (2 := fun buf => match pblk_StringTable p with
             | Some st => Embed268435456 primitiveBlockStringTable (StringTable_Write st) buf
             | None => match pblk_StringTableRaw p with
               | Some raw => Ok (EncodeIdBuffer buf primitiveBlockStringTable raw)
               | None => Ok buf end end).
          instantiate (1 := (forall st, pblk_StringTable p = Some st -> zlen (st_enc st) < 268435456)).
          unfold st_part. destruct (pblk_StringTable p) as [st|].
          - eapply appender_iff; [|apply app_e268435456, StringTable_Write_app].
            split; [intros [_ H] st' E; injection E as <-; exact H|].
            intros H; split; [exact I|apply H; reflexivity].
          - destruct (pblk_StringTableRaw p).
            + eapply appender_iff; [|apply app_id_buffer]. split; [discriminate|auto].
            + eapply appender_iff; [|apply app_none]. split; [discriminate|auto]. }
        apply appender_seq.
        { apply (appender_fold (fun buf g =>
                  Embed268435456 primitiveBlockPrimitiveGroup (PrimitiveGroup_Write g) buf)
                  (fun g => group_fits g /\ zlen (group_enc g) < 268435456)).
          intros g _. apply app_e268435456, PrimitiveGroup_Write_app. }
        apply appender_seq; [apply app_opt_varint|].
        apply appender_seq; [apply app_opt_varint|].
        apply appender_seq; [apply app_opt_varint|].
        apply app_opt_varint. }
      intros b. unfold PrimitiveBlock_Write. cbn [bind]. reflexivity. }
  unfold block_fits. tauto.
Qed.

Lemma opt_varint_bytes d id v : bytes (opt_varint d id v).
Proof.
  unfold opt_varint. destruct (negb _); [apply id_varint_bytes, u64_range|constructor].
Qed.
Lemma st_bytes st : Forall bytes st -> bytes (st_enc st).
Proof.
  intros H. apply concat_bytes. intros a Ha. eapply Forall_forall in H; [|exact Ha].
  apply id_buffer_bytes; assumption.
Qed.

Lemma block_bytes p : block_typed p -> block_fits p -> bytes (block_enc p).
Proof.
  intros (T1 & T2 & T3 & _) (F1 & F2). unfold block_enc. rewrite !bytes_app.
  split; [|split; [|repeat split; apply opt_varint_bytes]].
  - unfold st_part. destruct (pblk_StringTable p) as [st|].
    + apply fixed_field_bytes; [apply F1; reflexivity|apply st_bytes, T1; reflexivity].
    + destruct (pblk_StringTableRaw p); [apply id_buffer_bytes, T2; reflexivity|constructor].
  - apply concat_bytes. intros g Hg. eapply Forall_forall in T3; [|exact Hg].
    eapply Forall_forall in F2 as [Fg Fl]; [|exact Hg].
    apply fixed_field_bytes; [exact Fl|apply group_bytes; assumption].
Qed.

Definition set_st o (p : PrimitiveBlock) :=
  mkBlock (pblk_StringTableRaw p) o (pblk_PrimitiveGroup p)
    (pblk_Granularity p) (pblk_DateGranularity p) (pblk_LatOffset p) (pblk_LonOffset p).
Definition set_st_raw o (p : PrimitiveBlock) :=
  mkBlock o (pblk_StringTable p) (pblk_PrimitiveGroup p)
    (pblk_Granularity p) (pblk_DateGranularity p) (pblk_LatOffset p) (pblk_LonOffset p).
Definition add_groups gs (p : PrimitiveBlock) :=
  mkBlock (pblk_StringTableRaw p) (pblk_StringTable p) (pblk_PrimitiveGroup p ++ gs)
    (pblk_Granularity p) (pblk_DateGranularity p) (pblk_LatOffset p) (pblk_LonOffset p).
Definition st_U (p p0 : PrimitiveBlock) : PrimitiveBlock :=
  match pblk_StringTable p with
  | Some st => set_st (Some st) p0
  | None => match pblk_StringTableRaw p with
            | Some raw => set_st_raw (Some raw) p0
            | None => p0
            end
  end.

Lemma block_eta p : mkBlock (pblk_StringTableRaw p) (pblk_StringTable p) (pblk_PrimitiveGroup p)
    (pblk_Granularity p) (pblk_DateGranularity p) (pblk_LatOffset p) (pblk_LonOffset p) = p.
Proof. destruct p; reflexivity. Qed.

Lemma fold_add_groups {A} (f : A -> PrimitiveGroup) gs p :
  fold_left (fun p g => add_groups [f g] p) gs p = add_groups (map f gs) p.
Proof.
  revert p. induction gs as [|g gs IH]; intros p; cbn [fold_left].
  - unfold add_groups. cbn. rewrite app_nil_r. symmetry. apply block_eta.
  - rewrite IH. unfold add_groups. cbn. rewrite <- app_assoc. reflexivity.
Qed.

Lemma st_consumes pbr p :
  block_typed p -> block_fits p -> block_form pbr p -> zlen (st_part p) < 2^63 ->
  consumes (block_handler pbr) (st_part p) (fun _ => st_U p).
Proof.
  intros (T1 & T2 & _) (F1 & _) (Hf & _) Hl. unfold st_part, st_U in *.
  destruct (pblk_StringTable p) as [st|].
  - destruct (SkipStringTable pbr) eqn:Es; [discriminate|].
    specialize (F1 st eq_refl).
    apply (consumes_nested (block_handler pbr) primitiveBlockStringTable
             (fun i => ReadStringTable i []) (fun st => set_st (Some st))).
    + intros b k. unfold block_handler. rewrite Es. reflexivity.
    + apply len_prefix_fixed4; exact F1.
    + intros e. apply (ReadStringTable_enc st []); [apply T1; reflexivity|].
      unfold st_enc in F1. lia.
  - destruct (pblk_StringTableRaw p) as [raw|]; [|apply consumes_nil].
    destruct (SkipStringTable pbr) eqn:Es; [|discriminate].
    apply (consumes_raw (block_handler pbr) primitiveBlockStringTable
             (fun p => set_st_raw (Some p))).
    + intros b k. unfold block_handler. rewrite Es. reflexivity.
    + apply len_prefix_venc. pose proof (id_buffer_len primitiveBlockStringTable raw). lia.
Qed.

Lemma groups_consumes pbr gs :
  Forall group_typed gs -> Forall (fun g => group_fits g /\ zlen (group_enc g) < 268435456) gs ->
  Forall (group_form pbr) gs ->
  consumes (block_handler pbr) (concat (map group_field gs)) (fun _ => add_groups (map group_norm gs)).
Proof.
  intros T F Hf. eapply consumes_ext; [intros r st; apply fold_add_groups|].
  apply (consumes_concat (block_handler pbr) group_field (fun g => add_groups [group_norm g])).
  intros g Hg. eapply Forall_forall in T; [|exact Hg].
  eapply Forall_forall in F as [Fg Fl]; [|exact Hg]. eapply Forall_forall in Hf; [|exact Hg].
  apply (consumes_nested (block_handler pbr) primitiveBlockPrimitiveGroup
           (fun i => ReadPrimitiveGroup pbr i PrimitiveGroup0) (fun g => add_groups [g])).
  - intros b k. reflexivity.
  - apply len_prefix_fixed4; exact Fl.
  - intros e. apply ReadPrimitiveGroup_enc; try assumption. lia.
Qed.

(** Optional scalar fields. *)
Lemma opt_varint_consumes {St} (h : handler St) f g dflt id v :
  (forall b k, h (MakeIdType id PbVarInt) b k = ('(x, k) <- f b k ;; Ok (k, g x))) ->
  reads f (venc (u64 v)) v ->
  consumes h (opt_varint dflt id v) (fun _ st => if negb (v =? dflt) then g v st else st).
Proof.
  intros Hh R. unfold opt_varint. destruct (negb (v =? dflt)); [|apply consumes_nil].
  apply (consumes_reads h (MakeIdType id PbVarInt) f g); [apply key_u64; unfold PbVarInt; lia|exact Hh|exact R].
Qed.

Lemma ReadPrimitiveBlock_enc pbr p p0 e :
  block_typed p -> block_fits p -> block_form pbr p -> zlen (block_enc p) < 2^63 ->
  pblk_StringTableRaw p0 = None -> pblk_StringTable p0 = None -> pblk_PrimitiveGroup p0 = [] ->
  pblk_LatOffset p0 = 0 -> pblk_LonOffset p0 = 0 ->
  ReadPrimitiveBlock pbr (mkslice (block_enc p) e) p0 = Ok (block_norm p).
Proof.
  intros T F Hf Hl Z1 Z2 Z3 Z4 Z5. unfold ReadPrimitiveBlock. rewrite Z1, Z2, Z3, Z4, Z5.
  assert (Hl' := Hl). unfold block_enc in Hl'. rewrite !zlen_app in Hl'.
  pose proof (zlen_nonneg (st_part p)).
  pose proof (zlen_nonneg (concat (map group_field (pblk_PrimitiveGroup p)))).
  pose proof (block_bytes p T F) as Hb.
  erewrite read_msg_consumes; [| |exact Hb|exact Hl].
  2:{ unfold block_enc. apply consumes_app.
      { apply st_consumes; try eassumption.
        pose proof (zlen_nonneg (opt_varint 100 primitiveBlockGranularity (pblk_Granularity p))).
        pose proof (zlen_nonneg (opt_varint 1000 primitiveBlockDateGranularity (pblk_DateGranularity p))).
        pose proof (zlen_nonneg (opt_varint 0 primitiveBlockLatOffset (pblk_LatOffset p))).
        pose proof (zlen_nonneg (opt_varint 0 primitiveBlockLonOffset (pblk_LonOffset p))).
        lia. }
      destruct T as (_ & _ & T3 & T4 & T5 & T6 & T7). destruct F as (_ & F2).
      destruct Hf as (_ & Hf).
      apply consumes_app; [apply groups_consumes; assumption|].
      apply consumes_app.
      { apply opt_varint_consumes with (f := DecodeI32)
          (g := fun v p => mkBlock (pblk_StringTableRaw p) (pblk_StringTable p)
            (pblk_PrimitiveGroup p) v (pblk_DateGranularity p) (pblk_LatOffset p) (pblk_LonOffset p));
          [intros; reflexivity|apply reads_I32; assumption]. }
      apply consumes_app.
      { apply opt_varint_consumes with (f := DecodeI32)
          (g := fun v p => mkBlock (pblk_StringTableRaw p) (pblk_StringTable p)
            (pblk_PrimitiveGroup p) (pblk_Granularity p) v (pblk_LatOffset p) (pblk_LonOffset p));
          [intros; reflexivity|apply reads_I32; assumption]. }
      apply consumes_app.
      { apply opt_varint_consumes with (f := DecodeI64)
          (g := fun v p => mkBlock (pblk_StringTableRaw p) (pblk_StringTable p)
            (pblk_PrimitiveGroup p) (pblk_Granularity p) (pblk_DateGranularity p) v (pblk_LonOffset p));
          [intros; reflexivity|apply reads_I64; assumption]. }
      apply opt_varint_consumes with (f := DecodeI64)
          (g := fun v p => mkBlock (pblk_StringTableRaw p) (pblk_StringTable p)
            (pblk_PrimitiveGroup p) (pblk_Granularity p) (pblk_DateGranularity p) (pblk_LatOffset p) v);
          [intros; reflexivity|apply reads_I64; assumption]. }
  f_equal. destruct Hf as (Hf & _). clear -Hf.
  unfold Datatypes.id.
  match goal with |- context [add_groups ?gs (st_U ?q ?z)] =>
    assert (E : add_groups gs (st_U q z) =
      mkBlock (if SkipStringTable pbr then pblk_StringTableRaw p else None)
              (if SkipStringTable pbr then None else pblk_StringTable p)
              (map group_norm (pblk_PrimitiveGroup p)) 100 1000 0 0)
  end.
  { unfold st_U, add_groups, set_st, set_st_raw.
    destruct p as [str st gs gr dg lat lon]. cbn in *.
    destruct (SkipStringTable pbr); subst; [destruct str|destruct st]; reflexivity. }
  rewrite E. clear E. unfold block_norm.
  destruct p as [str st gs gr dg lat lon].
  cbn [pblk_StringTableRaw pblk_StringTable pblk_PrimitiveGroup
    pblk_Granularity pblk_DateGranularity pblk_LatOffset pblk_LonOffset block_form] in *.
  assert (E1 : (if SkipStringTable pbr then str else None) = str)
    by (destruct (SkipStringTable pbr); subst; reflexivity).
  assert (E2 : (if SkipStringTable pbr then None else st) = st)
    by (destruct (SkipStringTable pbr); subst; reflexivity).
  rewrite E1, E2. clear.
  destruct (Z.eqb_spec gr 100), (Z.eqb_spec dg 1000), (Z.eqb_spec lat 0), (Z.eqb_spec lon 0);
    subst; vm_compute; reflexivity.
Qed.

(** ** blob header *)
Definition bh_enc (bh : BlobHeader) : list Z :=
  (if negb (zlen (bh_Type bh) =? 0) then id_buffer blobHeaderType (bh_Type bh) else []) ++
  opt_varint 0 blobHeaderDataSize (bh_DataSize bh).

Lemma BlobHeader_Write_eq bh buf : BlobHeader_Write bh buf = buf ++ bh_enc bh.
Proof.
  unfold BlobHeader_Write, bh_enc, opt_varint.
  destruct (negb (zlen (bh_Type bh) =? 0)); destruct (negb (bh_DataSize bh =? 0));
    rewrite ?EncodeIdBuffer_eq, ?EncodeIdVarInt_eq, ?app_nil_r, <- ?app_assoc; reflexivity.
Qed.

Lemma bh_bytes bh : bytes (bh_Type bh) -> bytes (bh_enc bh).
Proof.
  intros H. unfold bh_enc. apply bytes_app. split; [|apply opt_varint_bytes].
  destruct (negb _); [apply id_buffer_bytes; assumption|constructor].
Qed.

Lemma ReadBlobHeader_enc bh e :
  bytes (bh_Type bh) -> is_s32 (bh_DataSize bh) -> zlen (bh_enc bh) < 2^63 ->
  ReadBlobHeader (mkslice (bh_enc bh) e) = Ok bh.
Proof.
  intros Hb Hs Hl. unfold ReadBlobHeader.
  assert (Hl' := Hl). unfold bh_enc in Hl'. rewrite zlen_app in Hl'.
  erewrite read_msg_consumes; [| |apply bh_bytes; assumption|exact Hl].
  2:{ unfold bh_enc. apply consumes_app.
      - instantiate (1 := fun _ st => if negb (zlen (bh_Type bh) =? 0)
             then mkBlobHeader (bh_Type bh) (bh_DataSize st) else st).
        destruct (negb (zlen (bh_Type bh) =? 0)); [|apply consumes_nil].
        apply (consumes_reads bh_handler (MakeIdType blobHeaderType PbFixedBytes) DecodeString
           (fun s bh => mkBlobHeader s (bh_DataSize bh))
           (venc (u64 (zlen (bh_Type bh))) ++ bh_Type bh) (bh_Type bh));
          [apply key_u64; unfold PbFixedBytes; lia|intros; reflexivity|].
        apply reads_string_L, len_prefix_venc.
        pose proof (id_buffer_len blobHeaderType (bh_Type bh)).
        pose proof (zlen_nonneg (opt_varint 0 blobHeaderDataSize (bh_DataSize bh))). lia.
      - apply opt_varint_consumes with (f := DecodeI32)
          (g := fun v bh => mkBlobHeader (bh_Type bh) v);
          [intros; reflexivity|apply reads_I32; assumption]. }
  f_equal. destruct bh as [ty ds]; cbn in *.
  destruct (Z.eqb_spec (zlen ty) 0) as [E|E], (Z.eqb_spec ds 0); subst; cbn;
    try (apply zlen_0 in E; subst); reflexivity.
Qed.

(** ** blob *)

(** what is written for the raw section *)
Definition blob_raw_part (b : Blob) : list Z :=
  match blob_Raw b with
  | Some raw => if 0 <? slen raw then id_buffer blobRaw (vis raw) else []
  | None => []
  end.
Definition blob_size_part (b : Blob) : list Z :=
  match blob_RawSize b with
  | Some n => venc (MakeIdType blobRawSize PbVarInt) ++ venc (u64 n)
  | None => []
  end.
Definition blob_zlib_part (b : Blob) : list Z :=
  match blob_ZLibData b with
  | Some z => if 0 <? zlen z then id_buffer blobZLibData z else []
  | None => []
  end.
Definition blob_enc (b : Blob) : list Z := blob_raw_part b ++ blob_size_part b ++ blob_zlib_part b.

Lemma blob_tail_app b F p0 (f : list Z -> res (list Z)) :
  appender f F p0 ->
  appender (fun buf => buf <- f buf ;;
    let buf := match blob_RawSize b with
               | Some n => EncodeIdVarInt buf blobRawSize (u64 n)
               | None => buf
               end in
    match blob_ZLibData b with
    | Some z => if 0 <? zlen z then Ok (EncodeIdBuffer buf blobZLibData z) else Ok buf
    | None => Ok buf
    end) F (p0 ++ blob_size_part b ++ blob_zlib_part b).
Proof.
  intros A. eapply appender_iff.
  2:{ apply appender_seq; [exact A|].
      eapply appender_ext.
      2:{ apply appender_seq.
          - instantiate (2 := fun buf => Ok (match blob_RawSize b with
               | Some n => EncodeIdVarInt buf blobRawSize (u64 n) | None => buf end)).
            unfold blob_size_part. destruct (blob_RawSize b); [apply app_id_varint|apply app_none].
          - instantiate (2 := fun buf => match blob_ZLibData b with
               | Some z => if 0 <? zlen z then Ok (EncodeIdBuffer buf blobZLibData z) else Ok buf
               | None => Ok buf end).
            unfold blob_zlib_part. destruct (blob_ZLibData b) as [z|]; [|apply app_none].
            destruct (0 <? zlen z); [apply app_id_buffer|apply app_none]. }
      reflexivity. }
  tauto.
Qed.

Lemma Blob_Write_app b : blob_RawFunc b = None -> appender (Blob_Write b) True (blob_enc b).
Proof.
  intros Hf. unfold Blob_Write. rewrite Hf. apply blob_tail_app.
  unfold blob_raw_part. destruct (blob_Raw b) as [raw|]; [|apply app_none].
  destruct (0 <? slen raw); [apply app_id_buffer|apply app_none].
Qed.

(** with RawFunc: the raw section is embedded with a 4-byte length *)
Lemma Blob_Write_func_app b f F p :
  blob_RawFunc b = Some f -> appender f F p ->
  appender (Blob_Write b) (F /\ zlen p < 268435456)
           (fixed_field 4 blobRaw p ++ blob_size_part b ++ blob_zlib_part b).
Proof.
  intros Hf A. unfold Blob_Write. rewrite Hf. apply blob_tail_app.
  apply app_e268435456. exact A.
Qed.

Lemma blob_size_bytes b : bytes (blob_size_part b).
Proof. unfold blob_size_part. destruct (blob_RawSize b); [apply id_varint_bytes, u64_range|constructor]. Qed.
Lemma blob_zlib_bytes b : (forall z, blob_ZLibData b = Some z -> bytes z) -> bytes (blob_zlib_part b).
Proof.
  intros H. unfold blob_zlib_part. destruct (blob_ZLibData b) as [z|]; [|constructor].
  destruct (0 <? zlen z); [apply id_buffer_bytes, H; reflexivity|constructor].
Qed.

Definition set_size (b b0 : Blob) : Blob :=
  match blob_RawSize b with
  | Some n => mkBlob (blob_Raw b0) (Some n) (blob_ZLibData b0) (blob_RawFunc b0)
  | None => b0 end.
Definition set_zlib (b b0 : Blob) : Blob :=
  match blob_ZLibData b with
  | Some z => if 0 <? zlen z then mkBlob (blob_Raw b0) (blob_RawSize b0) (Some z) (blob_RawFunc b0) else b0
  | None => b0 end.

Lemma blob_size_consumes b :
  (forall n, blob_RawSize b = Some n -> is_s32 n) ->
  consumes blob_handler (blob_size_part b) (fun _ => set_size b).
Proof.
  intros H. unfold blob_size_part, set_size. destruct (blob_RawSize b) as [n|]; [|apply consumes_nil].
  apply (consumes_reads blob_handler (MakeIdType blobRawSize PbVarInt) DecodeI32
    (fun v bl => mkBlob (blob_Raw bl) (Some v) (blob_ZLibData bl) (blob_RawFunc bl)));
    [apply key_u64; unfold PbVarInt; lia|intros; reflexivity|apply reads_I32, H; reflexivity].
Qed.
Lemma blob_zlib_consumes b :
  zlen (blob_zlib_part b) < 2^63 ->
  consumes blob_handler (blob_zlib_part b) (fun _ => set_zlib b).
Proof.
  intros Hl. unfold blob_zlib_part, set_zlib in *. destruct (blob_ZLibData b) as [z|]; [|apply consumes_nil].
  destruct (0 <? zlen z); [|apply consumes_nil].
  apply (consumes_raw blob_handler blobZLibData
    (fun p bl => mkBlob (blob_Raw bl) (blob_RawSize bl) (Some p) (blob_RawFunc bl))).
  - intros; reflexivity.
  - apply len_prefix_venc. pose proof (id_buffer_len blobZLibData z). lia.
Qed.
Lemma blob_raw_consumes L p :
  len_prefix L p ->
  consumes blob_handler (venc (MakeIdType blobRaw PbFixedBytes) ++ L ++ p)
    (fun r bl => mkBlob (Some (mkslice p r)) (blob_RawSize bl) (blob_ZLibData bl) (blob_RawFunc bl)).
Proof.
  intros HL. apply consumes_field; [apply key_u64; unfold PbFixedBytes; lia|].
  intros b pre post Hv Hb Hl. unfold blob_handler.
  change (MakeIdType blobRaw PbFixedBytes =? MakeIdType blobRaw PbFixedBytes) with true. cbv iota.
  rewrite (DecodeBytes_at b pre L p post) by assumption. reflexivity.
Qed.

Lemma ReadBlob_raw b L p e :
  len_prefix L p -> bytes p ->
  (forall n, blob_RawSize b = Some n -> is_s32 n) ->
  (forall z, blob_ZLibData b = Some z -> bytes z) ->
  let w := (venc (MakeIdType blobRaw PbFixedBytes) ++ L ++ p) ++ blob_size_part b ++ blob_zlib_part b in
  zlen w < 2^63 ->
  ReadBlob (mkslice w e) Blob0 =
  Ok (set_zlib b (set_size b (mkBlob (Some (mkslice p ((blob_size_part b ++ blob_zlib_part b) ++ e))) None None None))).
Proof.
  intros HL Hp Hs Hz w Hl. unfold ReadBlob.
  assert (Hlz : zlen (blob_zlib_part b) < 2^63).
  { unfold w in Hl. rewrite !zlen_app in Hl.
    pose proof (zlen_nonneg (venc (MakeIdType blobRaw PbFixedBytes))).
    pose proof (zlen_nonneg L). pose proof (zlen_nonneg p).
    pose proof (zlen_nonneg (blob_size_part b)). lia. }
  unfold w in *. erewrite read_msg_consumes; [| | |exact Hl].
  2:{ apply consumes_app; [apply blob_raw_consumes; exact HL|].
      apply consumes_app; [apply blob_size_consumes; exact Hs|apply blob_zlib_consumes; exact Hlz]. }
  - reflexivity.
  - rewrite !bytes_app. repeat split; try assumption.
    + apply venc_bytes, key_u64. unfold PbFixedBytes; lia.
    + eapply len_prefix_bytes; eassumption.
    + apply blob_size_bytes.
    + apply blob_zlib_bytes; assumption.
Qed.

Lemma ReadBlob_noraw b e :
  (forall n, blob_RawSize b = Some n -> is_s32 n) ->
  (forall z, blob_ZLibData b = Some z -> bytes z) ->
  zlen (blob_size_part b ++ blob_zlib_part b) < 2^63 ->
  ReadBlob (mkslice (blob_size_part b ++ blob_zlib_part b) e) Blob0 = Ok (set_zlib b (set_size b Blob0)).
Proof.
  intros Hs Hz Hl. unfold ReadBlob.
  assert (Hlz : zlen (blob_zlib_part b) < 2^63).
  { rewrite zlen_app in Hl. pose proof (zlen_nonneg (blob_size_part b)). lia. }
  erewrite read_msg_consumes; [| | |exact Hl].
  2:{ apply consumes_app; [apply blob_size_consumes; exact Hs|apply blob_zlib_consumes; exact Hlz]. }
  - reflexivity.
  - rewrite !bytes_app. split; [apply blob_size_bytes|apply blob_zlib_bytes; assumption].
Qed.
