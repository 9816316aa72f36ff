(** * TfThms: the tag filter (C30-C33). *)
From Verif Require Import Base PbModel PbSpec TModel HLModel HLSpec FrModel ZlModel TfModel TfSpec HLThms.
From Verif Require Import BaseLemmas PbProofs PbProofs2 TProofs TSpec TMsg TMsg2 T2Thms HLProofs HLProofs2 HLThms FrProofs ZlThms TTyped.

(** ** C30 *)
Lemma hasPrefix_spec s p : hasPrefix s p = true <-> exists r, s = p ++ r.
Proof.
  revert s. induction p as [|y p IH]; intros s; cbn [hasPrefix app].
  - split; [intros _; exists s; reflexivity|intros _; destruct s; reflexivity].
  - destruct s as [|x s]; [split; [discriminate|intros (r & H); discriminate]|].
    cbn [hasPrefix app]. rewrite andb_true_iff, IH, Z.eqb_eq. split.
    + intros (-> & r & ->). exists r. reflexivity.
    + intros (r & H). injection H as -> ->. split; [reflexivity|]. exists r. reflexivity.
Qed.
Lemma not_equal_any_spec l s : not_equal_any l s = false <-> exists x, In x l /\ s = bytes_of x.
Proof.
  induction l as [|f l IH]; cbn [not_equal_any].
  - split; [discriminate|intros (x & [] & _)].
  - destruct (seqb_spec (bytes_of f) s) as [E|E].
    + split; [intros _; exists f; split; [left; reflexivity|symmetry; exact E]|reflexivity].
    + rewrite IH. split.
      * intros (x & H & ->). exists x. split; [right; exact H|reflexivity].
      * intros (x & [->|H] & H'); [congruence|]. exists x. auto.
Qed.
Lemma not_prefixed_any_spec l s : not_prefixed_any l s = false <-> exists x r, In x l /\ s = bytes_of x ++ r.
Proof.
  induction l as [|f l IH]; cbn [not_prefixed_any].
  - split; [discriminate|intros (x & r & [] & _)].
  - destruct (hasPrefix s (bytes_of f)) eqn:E.
    + split; [intros _|reflexivity]. apply hasPrefix_spec in E as (r & ->). exists f, r. split; [left|]; reflexivity.
    + rewrite IH. split.
      * intros (x & r & H & ->). exists x, r. split; [right; exact H|reflexivity].
      * intros (x & r & [->|H] & H').
        -- exfalso. assert (X : hasPrefix s (bytes_of x) = true) by (apply hasPrefix_spec; exists r; exact H'). congruence.
        -- exists x, r. auto.
Qed.
Lemma incl_names : forall s, In s deleteTags <-> In s listed_names.
Proof.
  assert (H : forallb (fun s => if in_dec string_dec s listed_names then true else false) deleteTags = true) by (vm_compute; reflexivity).
  assert (H' : forallb (fun s => if in_dec string_dec s deleteTags then true else false) listed_names = true) by (vm_compute; reflexivity).
  intros s. split; intros I.
  - eapply forallb_forall in H; [|exact I]. destruct (in_dec _ _ _); [assumption|discriminate].
  - eapply forallb_forall in H'; [|exact I]. destruct (in_dec _ _ _); [assumption|discriminate].
Qed.
Lemma incl_prefixes : forall s, In s deletePrefixes <-> In s listed_prefixes.
Proof.
  assert (H : forallb (fun s => if in_dec string_dec s listed_prefixes then true else false) deletePrefixes = true) by (vm_compute; reflexivity).
  assert (H' : forallb (fun s => if in_dec string_dec s deletePrefixes then true else false) listed_prefixes = true) by (vm_compute; reflexivity).
  intros s. split; intros I.
  - eapply forallb_forall in H; [|exact I]. destruct (in_dec _ _ _); [assumption|discriminate].
  - eapply forallb_forall in H'; [|exact I]. destruct (in_dec _ _ _); [assumption|discriminate].
Qed.

(** C30.  For every key: the filter deletes it iff it is one of the listed names or
    starts with one of the listed prefixes. *)
Lemma pC30_rule : forall k, keepTag k = false <-> deleted k.
Proof.
  intros k. unfold keepTag, deleted. destruct (not_equal_any deleteTags k) eqn:E.
  - rewrite not_prefixed_any_spec. split.
    + intros (p & r & I & ->). right. exists p, r. split; [apply incl_prefixes, I|reflexivity].
    + intros [(s & I & ->)|(p & r & I & ->)].
      * exfalso. assert (X : not_equal_any deleteTags (bytes_of s) = false); [|congruence].
        apply not_equal_any_spec. exists s. split; [apply incl_names, I|reflexivity].
      * exists p, r. split; [apply incl_prefixes, I|reflexivity].
  - split; [intros _|reflexivity]. left. apply not_equal_any_spec in E as (s & I & ->).
    exists s. split; [apply incl_names, I|reflexivity].
Qed.
Lemma pC30_ex :
  keepTag (bytes_of "highway") = true /\ keepTag (bytes_of "note") = false /\ keepTag (bytes_of "notes") = true /\
  keepTag (bytes_of "note:de") = false /\ keepTag (bytes_of "tiger:") = false /\ keepTag (bytes_of "tiger") = true /\ keepTag [] = true.
Proof. vm_compute. repeat split. Qed.

Lemma keep_spec k : keepTag k = true <-> ~ deleted k.
Proof. rewrite <- pC30_rule. destruct (keepTag k); split; congruence. Qed.

(** ** C31 *)
Lemma filter_is_map (m : smap (list Z)) f : is_map m -> is_map (filter f m).
Proof.
  unfold is_map. induction m as [|[k v] m IH]; cbn [filter map fst]; [constructor|].
  intros H. apply NoDup_cons_iff in H as [N H]. destruct (f (k, v)); cbn [map fst]; [|auto].
  constructor; [|auto]. intros X. apply N. apply in_map_iff in X as ([k' v'] & <- & X). apply filter_In in X as [X _].
  change k' with (fst (k', v')). apply in_map. exact X.
Qed.
Lemma filter_nodes_interesting ns : Forall (fun n => is_map (hn_Tags n)) ns -> interesting ns (filter_nodes ns).
Proof.
  induction 1 as [|n ns M H IH]; cbn [filter_nodes]; [constructor|].
  destruct (filter_tags (hn_Tags n)) as [|[k v] t] eqn:E.
  - change (0 <? zlen (@nil (list Z * list Z))) with false. cbn match. constructor; [|exact IH].
    intros k v I. apply pC30_rule. destruct (keepTag k) eqn:K; [|reflexivity].
    exfalso. assert (X : In (k, v) (filter_tags (hn_Tags n))) by (apply filter_In; auto). rewrite E in X. exact X.
  - replace (0 <? zlen ((k, v) :: t)) with true by (unfold zlen; cbn [List.length]; lia).
    rewrite <- E. constructor; cbn [hn_Id hn_Lat hn_Lon hn_Tags]; try reflexivity; [| | |exact IH].
    + intros k' v'. unfold filter_tags. rewrite filter_In. cbn [fst]. rewrite keep_spec. reflexivity.
    + apply filter_is_map, M.
    + rewrite E. exists k, v. left. reflexivity.
Qed.
Lemma filter_nodes_typed ns : Forall node_typed ns -> Forall node_typed (filter_nodes ns).
Proof.
  induction 1 as [|n ns (T1 & (T2 & T2') & T3 & T4) H IH]; cbn [filter_nodes]; [constructor|].
  destruct (0 <? _); [|exact IH]. constructor; [|exact IH]. unfold node_typed, tags_typed. cbn [hn_Id hn_Tags hn_Lat hn_Lon].
  split; [exact T1|]. split; [split|split; assumption].
  - apply filter_is_map, T2.
  - apply Forall_forall. intros x X. apply filter_In in X as [X _]. apply (proj1 (Forall_forall _ _) T2' x X).
Qed.
Lemma typed_maps ns : Forall node_typed ns -> Forall (fun n => is_map (hn_Tags n)) ns.
Proof. intros H. eapply Forall_impl; [|exact H]. intros n (_ & (M & _) & _). exact M. Qed.

(** whatever is decompressed is a Go slice *)
Lemma blit_Forall (P : Z -> Prop) l i c : Forall P l -> Forall P c -> Forall P (blit l i c).
Proof.
  intros H1 H2. unfold blit. rewrite !Forall_app. split; [|split; [exact H2|]].
  - rewrite <- (firstn_skipn (Z.to_nat i) l) in H1. apply Forall_app in H1. tauto.
  - rewrite <- (firstn_skipn (Z.to_nat i + List.length c) l) in H1. apply Forall_app in H1. tauto.
Qed.
Lemma zread_bytes evs n c e evs' : Forall (fun e => bytes (fst e)) evs -> zread evs n = (c, e, evs') ->
  bytes c /\ Forall (fun e : list Z * bool => bytes (fst e)) evs'.
Proof.
  intros H E. destruct evs as [|[seg err] r]; cbn [zread] in E.
  - injection E as <- <- <-. split; constructor.
  - apply Forall_cons_iff in H as [H1 H2]. cbn [fst] in H1. destruct (_ <=? _) in E; injection E as <- <- <-.
    + auto.
    + unfold bytes in *. rewrite <- (firstn_skipn (Z.to_nat n) seg) in H1. apply Forall_app in H1 as [A B].
      split; [exact A|]. constructor; [exact B|exact H2].
Qed.
Lemma decodeZLib_sbytes env n s : env_ok env -> (forall k, n = Some k -> is_s32 k) -> decodeZLib env n = Ok s -> sbytes s.
Proof.
  intros (H1 & H2 & H3) Hn H. unfold decodeZLib in H. destruct (negb _) in H; [discriminate|]. destruct n as [n|]; [|discriminate].
  specialize (Hn n eq_refl).
  destruct (pool_get (ze_pooled env) (u64 n)) as [buf| |] eqn:Ep; try discriminate. cbn [bind] in H.
  assert (Sb : sbytes buf).
  { unfold pool_get in Ep. eapply sslice_sbytes; [|exact Ep]. unfold sbytes, go_slice. cbn [exact vis ext].
    destruct (Z.ltb_spec (zlen (ze_pooled env)) (s64 (u64 n))) as [L|L].
    - assert (Hs : s64 (u64 n) = n). { apply s64_u64_id. unfold is_s32 in Hn. unfold is_s64. lia. }
      rewrite Hs in L. pose proof (zlen_nonneg (ze_pooled env)). unfold is_s32 in Hn. rewrite (u64_id n) by (unfold is_u64; lia).
      split; [apply Forall_forall; intros x X; apply repeat_spec in X; subst x; unfold is_u8; lia|]. split; [constructor|].
      unfold scap, slen. cbn [exact vis ext List.length]. rewrite repeat_length. lia.
    - split; [exact H2|]. split; [constructor|]. unfold scap, slen. cbn [exact vis ext List.length]. unfold zlen in H3. lia. }
  destruct Sb as (B1 & B2 & B3).
  destruct (loop _ _ _ _) as [[[[r st] mem] e']| |] eqn:El in H; try discriminate. cbn [bind] in H.
  apply (loop_inv (fun x => let '(_, _, mem, evs) := x in bytes mem /\ zlen mem = scap buf /\ Forall (fun e => bytes (fst e)) evs)) in El as [(M1 & M2 & _) _].
  - eapply sslice_sbytes; [|exact H]. unfold sbytes, go_slice, scap, slen. cbn [exact vis ext List.length].
    split; [exact M1|]. split; [constructor|]. unfold zlen in M2. lia.
  - intros [[[r1 s1] m1] e1] [[[r2 s2] m2] e2] (I1 & I2 & I3) _ Hb. unfold zl_body in Hb.
    destruct (sslice (exact m1) s1 (zlen m1)) as [rb| |] eqn:Es; try discriminate. cbn [bind] in Hb.
    pose proof (sslice_ok _ _ _ _ Es) as (Q1 & Q2 & Q3).
    destruct (zread e1 (slen rb)) as [[c err] e3] eqn:Ez. pose proof (zread_bytes _ _ _ _ _ I3 Ez) as [Cb Eb].
    assert (Lc : zlen c <= zlen m1 - s1).
    { rewrite slen_zlen in Ez. rewrite <- Q3. clear -Ez. destruct e1 as [|[seg er] rr]; cbn [zread] in Ez.
      - injection Ez as <- _ _. change (zlen (@nil Z)) with 0. pose proof (zlen_nonneg (vis rb)). lia.
      - destruct (Z.leb_spec (zlen seg) (zlen (vis rb))); injection Ez as <- _ _; [assumption|].
        unfold zlen in *. rewrite firstn_length. lia. }
    assert (R : bytes (blit m1 s1 c) /\ zlen (blit m1 s1 c) = scap buf /\ Forall (fun e : list Z * bool => bytes (fst e)) e3).
    { split; [apply blit_Forall; assumption|]. split; [|exact Eb]. rewrite blit_len; [exact I2|lia|lia]. }
    destruct (_ =? 0) in Hb; [injection Hb as <- <- <- <-; exact R|]. destruct err; [discriminate|]. injection Hb as <- <- <- <-. exact R.
  - split; [apply Forall_app; split; assumption|]. split; [|exact H1]. unfold scap, slen. rewrite zlen_app. unfold zlen. lia.
Qed.
Lemma GetRawData_sbytes env b s : env_ok env -> (forall raw, blob_Raw b = Some raw -> sbytes raw) ->
  (forall n, blob_RawSize b = Some n -> is_s32 n) -> GetRawData env b = Ok s -> sbytes s.
Proof.
  intros He H1 H2 H. unfold GetRawData in H. destruct (blob_Raw b) as [raw|] eqn:E.
  - injection H as <-. auto.
  - destruct (blob_ZLibData b); [|discriminate]. eapply decodeZLib_sbytes; eauto.
Qed.
Lemma decodes_typed env b p : go_slice (blk_Data b) -> env_ok env -> decodes_to env b p -> block_typed p.
Proof.
  intros Hb He (bl & raw & E1 & E2 & E3). pose proof (ReadBlob_sbytes _ _ Hb E1) as (S1 & S2 & _ & _).
  eapply ReadBlock_typed; [|exact E3]. eapply GetRawData_sbytes; eauto.
Qed.
Lemma entities_typed env b ns ws rs : go_slice (blk_Data b) -> env_ok env -> entities env b ns ws rs ->
  Forall node_typed ns /\ Forall hway_typed ws /\ Forall hrel_typed rs.
Proof.
  intros Hb He (p & D & N & W & R). pose proof (decodes_typed env b p Hb He D) as T.
  split; [eapply ToNodes_typed; eauto|]. split; [eapply ToWays_typed; eauto|eapply ToRelations_typed; eauto].
Qed.

(** the step of a block that decodes *)
Definition out_blob ns ws rs : res (list Z) :=
  Blob_Write (mkBlob None None None (Some (PrimitiveBlock_Write (block_of ns ws rs)))) [].
Definition nothing {A B C} (l1 : list A) (l2 : list B) (l3 : list C) : Prop := l1 = [] /\ l2 = [] /\ l3 = [].
Lemma zlen0 {A} (l : list A) : (0 <? zlen l) = match l with [] => false | _ => true end.
Proof. destruct l; [reflexivity|]. unfold zlen. cbn [List.length]. lia. Qed.
Lemma tf_step_eq env b ns ws rs : blk_Type b = tOSMData -> entities env b ns ws rs ->
  Forall node_typed ns -> Forall hway_typed ws -> Forall hrel_typed rs ->
  tf_step env [] b =
    match filter_nodes ns, ws, rs with
    | [], [], [] => Ok ([], mkBlk (blk_Index b) (exact []) tFiller)
    | _, _, _ => out <- out_blob (filter_nodes ns) ws rs ;; Ok ([], mkBlk (blk_Index b) (exact out) tOSMData)
    end.
Proof.
  intros Ht (p & (bl & raw & E1 & E2 & E3) & N & W & R) T1 T2 T3. unfold tf_step. rewrite Ht, seqb_refl. cbn [negb].
  rewrite E1. cbn [bind]. rewrite E2. cbn [bind]. unfold tf_reader. rewrite E3. cbn [bind].
  rewrite N, W, R. cbn [bind]. unfold nodesToBuffer. change (0 =? 0) with true. change (0 <? 0) with false. cbn match.
  rewrite (maps_of (filter_nodes ns) ws rs) by (try assumption; apply filter_nodes_typed, T1). cbn [bind].
  change (zlen (@nil HLNode)) with 0. rewrite Z.add_0_r, !zlen0.
  unfold out_blob.
  destruct (filter_nodes ns) eqn:F; destruct ws; destruct rs; cbn [orb]; reflexivity.
Qed.
Lemma worker_one env b : tf_worker [(env, b)] =
  ('(pend, m) <- tf_step env [] b ;; if 0 <? zlen pend then Panic (PanicMsg "pending nodes") else Ok [m]).
Proof.
  unfold tf_worker. cbn [tf_loop]. destruct (tf_step env [] b) as [[pend m]| |]; cbn [bind tf_loop app]; reflexivity.
Qed.
Lemma worker_eq env b ns ws rs : blk_Type b = tOSMData -> entities env b ns ws rs ->
  Forall node_typed ns -> Forall hway_typed ws -> Forall hrel_typed rs ->
  tf_worker [(env, b)] =
    match filter_nodes ns, ws, rs with
    | [], [], [] => Ok [mkBlk (blk_Index b) (exact []) tFiller]
    | _, _, _ => out <- out_blob (filter_nodes ns) ws rs ;; Ok [mkBlk (blk_Index b) (exact out) tOSMData]
    end.
Proof.
  intros Ht H T1 T2 T3. rewrite worker_one, (tf_step_eq env b ns ws rs Ht H T1 T2 T3).
  destruct (filter_nodes ns), ws, rs; cbn [bind]; try reflexivity;
    destruct (out_blob _ _ _); reflexivity.
Qed.
Lemma out_blob_len ns ws rs out : out_blob ns ws rs = Ok out -> zlen out < 2^63.
Proof.
  intros H. pose proof (PrimitiveBlock_Write_app (block_of ns ws rs)) as A.
  unfold out_blob in H.
  apply (Blob_Write_func_app (mkBlob None None None (Some (PrimitiveBlock_Write (block_of ns ws rs)))) _ _ _ eq_refl A) in H as [[F Hlt] E].
  subst out. unfold fixed_field, blob_size_part, blob_zlib_part. cbn [blob_RawSize blob_ZLibData app]. rewrite !app_nil_r, !zlen_app.
  pose proof (venc_zlen (MakeIdType blobRaw PbFixedBytes) ltac:(vm_compute; split; discriminate || reflexivity)).
  assert (F' : forall n v, zlen (leb_fixed n v) = Z.of_nat n) by (intros; unfold zlen; rewrite leb_fixed_length; reflexivity).
  rewrite F'. lia.
Qed.

(** C31, other blocks: a block whose type is not OSMData is passed on as it is. *)
Lemma pC31_other_blocks : forall env b, blk_Type b <> bytes_of "OSMData" -> tf_worker [(env, b)] = Ok [b].
Proof.
  intros env b H. rewrite worker_one. unfold tf_step. destruct (seqb_spec (blk_Type b) tOSMData) as [E|E]; [exfalso; exact (H E)|].
  cbn [negb bind]. reflexivity.
Qed.

(** C31, a data block.  Let the block decode to nodes [ns], ways [ws] and relations
    [rs].  Then there are [ns'], exactly the nodes with a kept tag, in order, with exactly
    their kept tags, such that: if nothing is left a filler block is sent; otherwise either
    the filtered block is too large to be encoded, or one data block is sent, whose bytes
    decode, in any environment, to all the ways and relations unchanged. *)
Lemma pC31_filter : forall env b ns ws rs, blk_Type b = bytes_of "OSMData" ->
  go_slice (blk_Data b) -> env_ok env -> entities env b ns ws rs ->
  exists ns', interesting ns ns' /\
    (ns' = [] /\ ws = [] /\ rs = [] ->
       tf_worker [(env, b)] = Ok [mkBlk (blk_Index b) (exact []) (bytes_of "Filler")]) /\
    (~ (ns' = [] /\ ws = [] /\ rs = []) ->
       (exists p, MakePrimitiveBlock ns' ws rs = Ok p /\
          forall out, Blob_Write (mkBlob None None None (Some (PrimitiveBlock_Write p))) [] <> Ok out) \/
       exists out, tf_worker [(env, b)] = Ok [mkBlk (blk_Index b) (exact out) (bytes_of "OSMData")] /\
         forall env', exists p ws' rs',
            decodes_to env' (mkBlk (blk_Index b) (exact out) (bytes_of "OSMData")) p /\
            ToWays p = Ok ws' /\ ToRelations p = Ok rs' /\ Forall2 same_way ws ws' /\ Forall2 same_rel rs rs').
Proof.
  intros env b ns ws rs Ht Hb He H. destruct (entities_typed env b ns ws rs Hb He H) as (T1 & T2 & T3).
  pose proof (filter_nodes_typed ns T1) as T1'.
  exists (filter_nodes ns). split; [apply filter_nodes_interesting, typed_maps, T1|].
  rewrite (worker_eq env b ns ws rs Ht H T1 T2 T3). split.
  - intros (-> & -> & ->). reflexivity.
  - intros Hn.
    assert (E : match filter_nodes ns, ws, rs with
      | [], [], [] => Ok [mkBlk (blk_Index b) (exact []) tFiller]
      | _, _, _ => out <- out_blob (filter_nodes ns) ws rs ;; Ok [mkBlk (blk_Index b) (exact out) tOSMData]
      end = (out <- out_blob (filter_nodes ns) ws rs ;; Ok [mkBlk (blk_Index b) (exact out) tOSMData])).
    { destruct (filter_nodes ns), ws, rs; try reflexivity. exfalso. apply Hn. auto. }
    rewrite E. clear E.
    destruct (out_blob (filter_nodes ns) ws rs) as [out| |] eqn:Eo.
    + right. exists out. split; [reflexivity|]. intros env'. pose proof (written_small _ _ _ _ _ T1' T2 T3 Eo) as Hs.
      destruct (byte_trip (filter_nodes ns) ws rs [] out T1' T2 T3 Eo (out_blob_len _ _ _ _ Eo)) as (enc & -> & R). cbn [app] in *.
      destruct (R []) as (bl & raw & R1 & R2 & R3).
      exists (block_of (filter_nodes ns) ws rs), (map back_way ws), (map back_rel rs).
      split; [exists bl, raw; split; [exact R1|]; split; [unfold GetRawData; rewrite R2; reflexivity|exact R3]|].
      split; [apply ToWays_block; assumption|]. split; [apply ToRelations_block; assumption|].
      split; [apply same_ways, T2|apply same_rels, T3].
    + left. exists (block_of (filter_nodes ns) ws rs). split; [apply maps_of; assumption|]. intros out X.
      unfold out_blob in Eo. rewrite Eo in X. discriminate.
    + left. exists (block_of (filter_nodes ns) ws rs). split; [apply maps_of; assumption|]. intros out X.
      unfold out_blob in Eo. rewrite Eo in X. discriminate.
Qed.

Lemma nodes_core : forall env b ns ws rs out, blk_Type b = bytes_of "OSMData" ->
  go_slice (blk_Data b) -> env_ok env -> entities env b ns ws rs ->
  tf_worker [(env, b)] = Ok [mkBlk (blk_Index b) (exact out) (bytes_of "OSMData")] ->
  exists ns', interesting ns ns' /\ zlen (all_strings ns' ws rs) < 2^31 /\
    forall env', exists p,
       decodes_to env' (mkBlk (blk_Index b) (exact out) (bytes_of "OSMData")) p /\
       ((exists ns'', ToNodes p = Ok ns'' /\ Forall2 quantised_node ns' ns'') <-> first_key_free ns' ws rs).
Proof.
  intros env b ns ws rs out Ht Hb He H Hw. destruct (entities_typed env b ns ws rs Hb He H) as (T1 & T2 & T3).
  pose proof (filter_nodes_typed ns T1) as T1'.
  exists (filter_nodes ns). split; [apply filter_nodes_interesting, typed_maps, T1|].
  rewrite (worker_eq env b ns ws rs Ht H T1 T2 T3) in Hw.
  assert (Eo : out_blob (filter_nodes ns) ws rs = Ok out).
  { destruct (filter_nodes ns), ws, rs; [exfalso; injection Hw as _ Hw; vm_compute in Hw; discriminate Hw|..];
      (destruct (out_blob _ _ _) as [o| |]; [injection Hw as <-; reflexivity|discriminate..]). }
  pose proof (written_small _ _ _ _ _ T1' T2 T3 Eo) as Hs. split; [exact Hs|]. intros env'.
  destruct (byte_trip (filter_nodes ns) ws rs [] out T1' T2 T3 Eo (out_blob_len _ _ _ _ Eo)) as (enc & -> & R). cbn [app] in *.
  destruct (R []) as (bl & raw & R1 & R2 & R3).
  exists (block_of (filter_nodes ns) ws rs).
  split; [exists bl, raw; split; [exact R1|]; split; [unfold GetRawData; rewrite R2; reflexivity|exact R3]|].
  destruct (pC27_nodes_exact (filter_nodes ns) ws rs T1' T2 T3 Hs) as (q & Hq & Q).
  rewrite (maps_of _ _ _ T1' T2 T3) in Hq. injection Hq as <-. exact Q.
Qed.

(** C31, the nodes of the block sent: they are the interesting nodes, coordinates moved to
    a multiple of 100, if and only if no interesting node has a tag whose key is the string
    the new block's table puts first (see C27_nodes_refuted for what happens otherwise). *)
Lemma pC31_nodes_exact : forall env b ns ws rs out, blk_Type b = bytes_of "OSMData" ->
  go_slice (blk_Data b) -> env_ok env -> entities env b ns ws rs ->
  tf_worker [(env, b)] = Ok [mkBlk (blk_Index b) (exact out) (bytes_of "OSMData")] ->
  exists ns', interesting ns ns' /\
    forall env', exists p,
       decodes_to env' (mkBlk (blk_Index b) (exact out) (bytes_of "OSMData")) p /\
       ((exists ns'', ToNodes p = Ok ns'' /\ Forall2 quantised_node ns' ns'') <-> first_key_free ns' ws rs).
Proof.
  intros env b ns ws rs out Ht Hb He H Hw. destruct (nodes_core env b ns ws rs out Ht Hb He H Hw) as (ns' & I & _ & E). exists ns'. split; [exact I|exact E].
Qed.
(** C31, in particular when no empty string is left among the strings of the filtered
    entities. *)
Lemma pC31_nodes_partial : forall env b ns ws rs out, blk_Type b = bytes_of "OSMData" ->
  go_slice (blk_Data b) -> env_ok env -> entities env b ns ws rs ->
  tf_worker [(env, b)] = Ok [mkBlk (blk_Index b) (exact out) (bytes_of "OSMData")] ->
  exists ns', interesting ns ns' /\
    (~ In [] (all_strings ns' ws rs) -> forall env', exists p ns'',
       decodes_to env' (mkBlk (blk_Index b) (exact out) (bytes_of "OSMData")) p /\
       ToNodes p = Ok ns'' /\ Forall2 quantised_node ns' ns'').
Proof.
  intros env b ns ws rs out Ht Hb He H Hw.
  destruct (nodes_core env b ns ws rs out Ht Hb He H Hw) as (ns' & I & Hs & E). exists ns'. split; [exact I|].
  intros NE env'. destruct (E env') as (p & D & Q). destruct (proj2 Q) as (ns'' & Q1 & Q2).
  - apply no_empty_free; [exact NE|lia].
  - exists p, ns''. auto.
Qed.

(** ** C32 *)
Lemma tf_step_pending env b p : tf_step env [] b = Ok p -> fst p = [].
Proof.
  unfold tf_step. destruct (negb _); [intros H; injection H as <-; reflexivity|].
  destruct (ReadBlob _ _); cbn [bind]; try discriminate. destruct (GetRawData _ _); cbn [bind]; try discriminate.
  destruct (ReadPrimitiveBlock _ _ _); cbn [bind]; try discriminate.
  destruct (ToNodes _) as [ns| |]; cbn [bind]; try discriminate. destruct (ToWays _) as [ws| |]; cbn [bind]; try discriminate.
  destruct (ToRelations _) as [rs| |]; cbn [bind]; try discriminate.
  unfold nodesToBuffer. change (0 =? 0) with true. change (0 <? 0) with false. cbn match.
  destruct (_ || _) eqn:E.
  - destruct (MakePrimitiveBlock _ _ _); cbn [bind]; try discriminate. destruct (Blob_Write _ _); cbn [bind]; try discriminate.
    intros H; injection H as <-. reflexivity.
  - intros H. injection H as <-. cbn [fst app]. rewrite !orb_false_iff in E. destruct E as [[E _] _].
    change (zlen (@nil HLNode)) with 0 in E. rewrite Z.add_0_r, zlen0 in E. destruct (filter_nodes ns); [reflexivity|discriminate].
Qed.
Lemma tf_step_index env pend b p : tf_step env pend b = Ok p -> blk_Index (snd p) = blk_Index b.
Proof.
  unfold tf_step. destruct (negb _); [intros H; injection H as <-; reflexivity|].
  destruct (ReadBlob _ _); cbn [bind]; try discriminate. destruct (GetRawData _ _); cbn [bind]; try discriminate.
  destruct (ReadPrimitiveBlock _ _ _); cbn [bind]; try discriminate.
  destruct (ToNodes _) as [ns| |]; cbn [bind]; try discriminate. destruct (ToWays _) as [ws| |]; cbn [bind]; try discriminate.
  destruct (ToRelations _) as [rs| |]; cbn [bind]; try discriminate.
  destruct (_ || _).
  - destruct (if _ =? _ then _ else _); cbn [bind]; try discriminate. destruct (Blob_Write _ _); cbn [bind]; try discriminate.
    intros H; injection H as <-. reflexivity.
  - intros H. injection H as <-. reflexivity.
Qed.
Lemma tf_loop_ok bs : forall sent r, tf_loop [] bs sent = Ok r <->
  exists ms, r = ([], sent ++ ms) /\ Forall2 (fun b m => tf_step (fst b) [] (snd b) = Ok ([], m)) bs ms.
Proof.
  induction bs as [|[env b] bs IH]; intros sent r; cbn [tf_loop].
  - split.
    + intros H. injection H as <-. exists []. rewrite app_nil_r. split; constructor.
    + intros (ms & -> & F). inversion F. subst. rewrite app_nil_r. reflexivity.
  - destruct (tf_step env [] b) as [[pend m]| |] eqn:E; cbn [bind].
    + pose proof (tf_step_pending _ _ _ E) as P. cbn [fst] in P. subst pend. rewrite IH. split.
      * intros (ms & -> & F). exists (m :: ms). rewrite <- app_assoc. split; [reflexivity|]. constructor; [exact E|exact F].
      * intros (ms & -> & F). inversion F as [|x y l l' X Y]. subst. cbn [fst snd] in X. assert (y = m) by congruence. subst y.
        exists l'. rewrite <- app_assoc. split; [reflexivity|exact Y].
    + split; [discriminate|]. intros (ms & -> & F). inversion F as [|x y l l' X Y]. subst. cbn [fst snd] in X. congruence.
    + split; [discriminate|]. intros (ms & -> & F). inversion F as [|x y l l' X Y]. subst. cbn [fst snd] in X. congruence.
Qed.
Lemma worker_ok bs ms : tf_worker bs = Ok ms <-> Forall2 (fun b m => tf_step (fst b) [] (snd b) = Ok ([], m)) bs ms.
Proof.
  unfold tf_worker. split.
  - intros H. destruct (tf_loop [] bs []) as [r| |] eqn:E; try discriminate.
    apply tf_loop_ok in E as (ms' & -> & F). cbn [bind app] in H. change (0 <? zlen (@nil HLNode)) with false in H. cbn match in H. injection H as <-. exact F.
  - intros F. assert (E : tf_loop [] bs [] = Ok ([], ms)) by (apply tf_loop_ok; exists ms; auto). rewrite E. reflexivity.
Qed.

(** C32.  For every sequence of blocks a worker is given: it finishes with messages [ms]
    iff [ms] has one message per block, in order, each being the message sent for a worker
    given only that block; message indexes are those of the blocks; and whenever the loop
    over the blocks ends there are no pending nodes, so the check after it never fails. *)
Lemma pC32_one_message_each : forall bs ms,
  (tf_worker bs = Ok ms <-> Forall2 (fun b m => tf_worker [b] = Ok [m]) bs ms) /\
  (tf_worker bs = Ok ms -> map (fun b => blk_Index (snd b)) bs = map blk_Index ms) /\
  (forall pending, tf_loop [] bs [] = Ok (pending, ms) -> pending = []).
Proof.
  intros bs ms. split; [|split].
  - rewrite worker_ok. split; intros F.
    + induction F as [|b m bs ms H F IH]; constructor; [|exact IH]. apply worker_ok. constructor; [exact H|constructor].
    + induction F as [|b m bs ms H F IH]; constructor; [|exact IH]. apply worker_ok in H. inversion H. assumption.
  - intros H. apply worker_ok in H. induction H as [|[env b] m bs ms H F IH]; [reflexivity|]. cbn [map snd]. rewrite IH. f_equal.
    symmetry. apply (tf_step_index _ _ _ _ H).
  - intros pend E. apply tf_loop_ok in E as (ms' & E & _). injection E as -> _. reflexivity.
Qed.

(** ** C33 *)
Definition quantise (n : HLNode) : HLNode :=
  mkNode (hn_Id n) (hn_Tags n) (100 * Z.quot (hn_Lat n) 100) (100 * Z.quot (hn_Lon n) 100).
Lemma quot_quant x : Z.quot (100 * Z.quot x 100) 100 = Z.quot x 100.
Proof. rewrite Z.mul_comm. apply Z.quot_mul. lia. Qed.
Lemma block_of_quantise ns ws rs : block_of (map quantise ns) ws rs = block_of ns ws rs.
Proof.
  assert (S : all_strings (map quantise ns) ws rs = all_strings ns ws rs).
  { unfold all_strings. f_equal. induction ns as [|n ns IH]; [reflexivity|]. cbn [map flat_map]. rewrite IH. reflexivity. }
  unfold block_of. rewrite S. generalize (table (all_strings ns ws rs)). intros t.
  assert (D : dense_of t (map quantise ns) = dense_of t ns).
  { unfold dense_of. rewrite !map_map. unfold zlen. rewrite !map_length.
    f_equal; [apply map_ext; intros n; apply quot_quant|apply map_ext; intros n; apply quot_quant]. }
  rewrite D. destruct ns; reflexivity.
Qed.
Lemma same_quantised ns : Forall node_typed ns -> Forall2 same_node (map quantise ns) (map back_node ns).
Proof.
  induction 1 as [|n ns (T1 & (T2 & _) & T3 & T4) H IH]; constructor; [|exact IH].
  unfold same_node, back_node, quantise. cbn. auto using sorted_tags_perm.
Qed.
Lemma block_of_back ns ws rs : Forall node_typed ns -> Forall hway_typed ws -> Forall hrel_typed rs ->
  MakePrimitiveBlock (map back_node ns) (map back_way ws) (map back_rel rs) = Ok (block_of ns ws rs).
Proof.
  intros T1 T2 T3. rewrite <- (block_of_quantise ns ws rs).
  assert (Tq : Forall node_typed (map quantise ns)).
  { apply Forall_map. eapply Forall_impl; [|exact T1]. intros n (A & B & C & D). unfold node_typed, quantise. cbn.
    destruct (quot100 _ C), (quot100 _ D). auto. }
  rewrite <- (maps_of (map quantise ns) ws rs Tq T2 T3). apply pC25_order_independent.
  - apply typed_maps, Tq.
  - eapply Forall_impl; [|exact T2]. intros w (_ & (M & _) & _). exact M.
  - eapply Forall_impl; [|exact T3]. intros w (_ & (M & _) & _). exact M.
  - apply same_quantised, T1.
  - apply same_ways, T2.
  - apply same_rels, T3.
Qed.
Lemma filter_all {A} (f : A -> bool) l : Forall (fun x => f x = true) l -> filter f l = l.
Proof. induction 1 as [|x l H F IH]; [reflexivity|]. cbn [filter]. rewrite H, IH. reflexivity. Qed.
Definition clean (n : HLNode) : Prop := Forall (fun kv => keepTag (fst kv) = true) (hn_Tags n) /\ hn_Tags n <> [].
Lemma filter_nodes_clean ns : Forall clean (filter_nodes ns).
Proof.
  induction ns as [|n ns IH]; cbn [filter_nodes]; [constructor|]. rewrite zlen0.
  destruct (filter_tags (hn_Tags n)) eqn:E; [exact IH|]. constructor; [|exact IH]. rewrite <- E. unfold clean. cbn [hn_Tags].
  split; [|rewrite E; discriminate]. apply Forall_forall. intros x X. apply filter_In in X. tauto.
Qed.
Lemma filter_nodes_fix ns : Forall clean ns -> filter_nodes ns = ns.
Proof.
  induction 1 as [|n ns (H1 & H2) F IH]; [reflexivity|]. cbn [filter_nodes]. unfold filter_tags. rewrite filter_all by exact H1.
  rewrite zlen0, IH. destruct n as [i t la lo]. cbn in *. destruct t; [congruence|reflexivity].
Qed.
Lemma back_clean ns : Forall node_typed ns -> Forall clean ns -> Forall clean (map back_node ns).
Proof.
  intros T C. apply Forall_map. apply Forall_forall. intros n Hn.
  pose proof (proj1 (Forall_forall _ _) T n Hn) as (_ & (M & _) & _). pose proof (proj1 (Forall_forall _ _) C n Hn) as (C1 & C2).
  pose proof (sorted_tags_perm _ M) as P. unfold clean, back_node. cbn [hn_Tags]. split.
  - apply Forall_forall. intros x X. apply (proj1 (Forall_forall _ _) C1). apply Permutation_sym in P. eapply Permutation_in; eauto.
  - intros X. rewrite X in P. apply Permutation_sym, Permutation_nil in P. congruence.
Qed.

(** C33, entities: the nodes left by filtering filtered nodes are the filtered nodes. *)
Lemma pC33_nodes : forall ns,
  filter_nodes (filter_nodes ns) = filter_nodes ns /\
  forall ns' ns'', interesting ns ns' -> interesting ns' ns'' -> Forall2 same_node ns' ns''.
Proof.
  intros ns. split; [apply filter_nodes_fix, filter_nodes_clean|].
  intros ns' ns'' H. revert ns''. induction H as [|n ns out D H IH|n n' ns out E1 E2 E3 Ht M Ex H IH]; intros ns'' H2.
  - inversion H2. constructor.
  - apply IH, H2.
  - inversion H2 as [|m ms o D' H2' Q1 Q2|m m' ms o F1 F2 F3 Ht' M' Ex' H2' Q1 Q2]; subst.
    + exfalso. destruct Ex as (k & v & Ex). apply (proj2 (proj1 (Ht k v) Ex)). exact (D' k v Ex).
    + constructor; [|apply IH, H2']. split; [exact F1|]. split; [|split; [exact F2|exact F3]].
      apply NoDup_Permutation; [apply (NoDup_map_inv fst), M|apply (NoDup_map_inv fst), M'|].
      intros [k v]. split; intros X; [apply Ht'; split; [exact X|]; apply Ht in X; apply X|apply Ht' in X; apply X].
Qed.
Lemma pC33_nodes_ex :
  filter_nodes [mkNode 1 [(bytes_of "note", [1]); (bytes_of "highway", [2])] 3 4; mkNode 5 [(bytes_of "tiger:x", [])] 6 7; mkNode 8 [] 9 10] =
  [mkNode 1 [(bytes_of "highway", [2])] 3 4].
Proof. vm_compute. reflexivity. Qed.

(** C33, blocks: running the filter on the block it sent gives the same block, byte for
    byte, when no interesting node has a tag whose key is the string the new block's table
    puts first. *)
Lemma pC33_blocks_partial : forall env env' b m, go_slice (blk_Data b) -> env_ok env ->
  tf_worker [(env, b)] = Ok [m] ->
  (forall ns ws rs ns', entities env b ns ws rs -> interesting ns ns' ->
     first_key_free ns' ws rs) ->
  tf_worker [(env', m)] = Ok [m].
Proof.
  intros env env' b m Hb He Hw Hc.
  destruct (seqb_spec (blk_Type b) tOSMData) as [Ht|Ht].
  2:{ rewrite pC31_other_blocks in Hw by exact Ht. injection Hw as <-. apply pC31_other_blocks, Ht. }
  assert (H : exists ns ws rs, entities env b ns ws rs).
  { rewrite worker_one in Hw. unfold tf_step in Hw. rewrite Ht, seqb_refl in Hw. cbn [negb] in Hw.
    destruct (ReadBlob _ _) as [bl| |] eqn:E1; cbn [bind] in Hw; try discriminate.
    destruct (GetRawData _ _) as [raw| |] eqn:E2; cbn [bind] in Hw; try discriminate.
    destruct (ReadPrimitiveBlock _ _ _) as [p| |] eqn:E3; cbn [bind] in Hw; try discriminate.
    destruct (ToNodes _) as [ns| |] eqn:E4; cbn [bind] in Hw; try discriminate. destruct (ToWays _) as [ws| |] eqn:E5; cbn [bind] in Hw; try discriminate.
    destruct (ToRelations _) as [rs| |] eqn:E6; cbn [bind] in Hw; try discriminate.
    exists ns, ws, rs, p. split; [exists bl, raw; auto|auto]. }
  destruct H as (ns & ws & rs & H). destruct (entities_typed env b ns ws rs Hb He H) as (T1 & T2 & T3).
  pose proof (filter_nodes_typed ns T1) as T1'.
  pose proof (Hc ns ws rs (filter_nodes ns) H (filter_nodes_interesting ns (typed_maps ns T1))) as NE.
  rewrite (worker_eq env b ns ws rs Ht H T1 T2 T3) in Hw.
  destruct (match filter_nodes ns, ws, rs with [], [], [] => true | _, _, _ => false end) eqn:Em.
  { destruct (filter_nodes ns), ws, rs; try discriminate. injection Hw as <-. apply pC31_other_blocks. vm_compute. discriminate. }
  assert (Eo : exists out, out_blob (filter_nodes ns) ws rs = Ok out /\ m = mkBlk (blk_Index b) (exact out) tOSMData).
  { destruct (filter_nodes ns), ws, rs; [discriminate Em|..];
      (destruct (out_blob _ _ _) as [o| |]; [injection Hw as <-; exists o; auto|discriminate..]). }
  destruct Eo as (out & Eo & ->). pose proof (written_small _ _ _ _ _ T1' T2 T3 Eo) as Hs.
  destruct (byte_trip (filter_nodes ns) ws rs [] out T1' T2 T3 Eo (out_blob_len _ _ _ _ Eo)) as (enc & -> & R). cbn [app] in *.
  destruct (R []) as (bl & raw & R1 & R2 & R3).
  assert (H2 : entities env' (mkBlk (blk_Index b) (exact enc) tOSMData) (map back_node (filter_nodes ns)) (map back_way ws) (map back_rel rs)).
  { exists (block_of (filter_nodes ns) ws rs).
    split; [exists bl, raw; split; [exact R1|]; split; [unfold GetRawData; rewrite R2; reflexivity|exact R3]|].
    split; [apply ToNodes_block; assumption|]. split; [apply ToWays_block; assumption|apply ToRelations_block; assumption]. }
  pose proof (filter_nodes_fix _ (back_clean _ T1' (filter_nodes_clean ns))) as FX.
  destruct H2 as (p & (bl' & raw' & E1 & E2 & E3) & N & W & Rr).
  rewrite worker_one. unfold tf_step. cbn [blk_Type blk_Data blk_Index]. rewrite seqb_refl. cbn [negb].
  cbn [blk_Data] in E1. rewrite E1. cbn [bind]. rewrite E2. cbn [bind]. unfold tf_reader. rewrite E3. cbn [bind].
  rewrite N, W, Rr. cbn [bind]. rewrite FX. unfold nodesToBuffer. change (0 =? 0) with true. change (0 <? 0) with false. cbn match.
  rewrite (block_of_back (filter_nodes ns) ws rs T1' T2 T3). cbn [bind]. unfold out_blob in Eo. rewrite Eo. cbn [bind].
  change (zlen (@nil HLNode)) with 0. rewrite Z.add_0_r, !zlen0.
  destruct (filter_nodes ns), ws, rs; [discriminate Em|..]; reflexivity.
Qed.

(** a block made from entities *)
Definition mk_block (ns : list HLNode) ws rs : Block :=
  mkBlk 7 (match (p <- MakePrimitiveBlock ns ws rs ;; Blob_Write (mkBlob None None None (Some (PrimitiveBlock_Write p))) []) with
           | Ok out => exact out | _ => exact [] end) (bytes_of "OSMData").
Definition ex_tf_nodes := [mkNode 1 [(bytes_of "note", [65]); (bytes_of "highway", [66])] 300 (-400);
  mkNode 5 [(bytes_of "tiger:x", [65])] 600 700; mkNode 8 [] 900 1000; mkNode 9 [(bytes_of "name", [67])] 0 100].
Definition ex_tf_block := mk_block ex_tf_nodes [ex_hway'] [ex_hrel'].
Definition ex_env := mkZenv true [] [].
Definition u8b (x : Z) : bool := (0 <=? x) && (x <? 2^8).
Lemma forallb_bytes l : forallb u8b l = true -> bytes l.
Proof. intros H. apply Forall_forall. intros x X. eapply forallb_forall in H; [|exact X]. unfold u8b in H. unfold is_u8. lia. Qed.
Lemma ex_go s : forallb u8b (vis s) && forallb u8b (ext s) && (scap s <? 2^63) = true -> go_slice s.
Proof.
  intros H. apply andb_true_iff in H as [H H3]. apply andb_true_iff in H as [H1 H2].
  split; [apply forallb_bytes, H1|]. split; [apply forallb_bytes, H2|]. lia.
Qed.
Lemma ex_env_ok : env_ok ex_env.
Proof. split; [constructor|]. split; [constructor|]. vm_compute. reflexivity. Qed.

(** The filtered block of an example: note and tiger:x tags gone, nodes 5 and 8 gone. *)
Lemma pC31_ex :
  blk_Type ex_tf_block = bytes_of "OSMData" /\ go_slice (blk_Data ex_tf_block) /\ env_ok ex_env /\
  (exists ns ws rs, entities ex_env ex_tf_block ns ws rs) /\
  tf_worker [(ex_env, ex_tf_block)] =
    Ok [mk_block [mkNode 1 [(bytes_of "highway", [66])] 300 (-400); mkNode 9 [(bytes_of "name", [67])] 0 100] [ex_hway'] [ex_hrel']].
Proof.
  split; [reflexivity|]. split; [apply ex_go; vm_compute; reflexivity|]. split; [exact ex_env_ok|].
  split; [|vm_compute; reflexivity].
  do 4 eexists. split; [do 2 eexists; split; [vm_compute; reflexivity|]; split; [vm_compute; reflexivity|]; vm_compute; reflexivity|].
  split; [vm_compute; reflexivity|]. split; [vm_compute; reflexivity|]. vm_compute; reflexivity.
Qed.
Lemma pC32_ex : exists m1 m2, tf_worker [(ex_env, ex_tf_block); (ex_env, mkBlk 8 (exact [1]) (bytes_of "OSMHeader"))] = Ok [m1; m2] /\
  blk_Index m1 = 7 /\ blk_Index m2 = 8.
Proof. do 2 eexists. split; [vm_compute; reflexivity|]. split; reflexivity. Qed.
Lemma pC33_ex : exists m, tf_worker [(ex_env, ex_tf_block)] = Ok [m] /\ tf_worker [(ex_env, m)] = Ok [m].
Proof. eexists. split; [vm_compute; reflexivity|]. vm_compute. reflexivity. Qed.

(** C33 without the restriction is false of the code: a relation with an empty role, and a
    node whose kept tag key becomes string 0: the node is in the first output, and gone
    after a second run. *)
Definition ex_empty_role : Block :=
  mkBlk 7 (match Blob_Write (mkBlob None None None (Some (PrimitiveBlock_Write
      (mkBlock None (Some [[]; [97]; [98]])
        [mkGroup None (Some (mkDense [5] [0] [0] [1; 2; 0] [] [])) None [] None [];
         mkGroup None None None [] (Some [mkRelation 8 [1] [1] [0] [5] [0]]) []] 100 1000 0 0)))) [] with
           | Ok out => exact out | _ => exact [] end) (bytes_of "OSMData").
Lemma pC33_blocks_refuted : exists b m m2, go_slice (blk_Data b) /\ env_ok ex_env /\
  entities ex_env b [mkNode 5 [([97], [98])] 0 0] [] [mkHRel 8 [([97], [97])] [[]] [5] [0]] /\
  tf_worker [(ex_env, b)] = Ok [m] /\ tf_worker [(ex_env, m)] = Ok [m2] /\
  entities ex_env m2 [] [] [mkHRel 8 [([97], [97])] [[]] [5] [0]].
Proof.
  exists ex_empty_role.
  do 2 eexists. split; [apply ex_go; vm_compute; reflexivity|]. split; [exact ex_env_ok|].
  split; [eexists; split; [do 2 eexists; split; [vm_compute; reflexivity|]; split; [vm_compute; reflexivity|]; vm_compute; reflexivity|];
          split; [vm_compute; reflexivity|]; split; vm_compute; reflexivity|].
  split; [vm_compute; reflexivity|]. split; [vm_compute; reflexivity|].
  eexists; split; [do 2 eexists; split; [vm_compute; reflexivity|]; split; [vm_compute; reflexivity|]; vm_compute; reflexivity|].
  split; [vm_compute; reflexivity|]. split; vm_compute; reflexivity.
Qed.
