(** * HLProofs2: reading entities back from a built block. *)
From Coq Require Import Permutation Sorted.
From Verif Require Import Base BaseLemmas PbModel PbSpec PbProofs PbProofs2 TModel TSpec TProofs TMsg TMsg2 TThms HLModel HLSpec HLProofs.

Lemma lidx_nth {A} (l : list A) n x : nth_error l n = Some x -> lidx l (Z.of_nat n) = Ok x.
Proof.
  intros H. unfold lidx. assert (n < List.length l)%nat by (apply nth_error_Some; congruence).
  destruct (_ && _) eqn:E; [|unfold zlen in E; lia]. rewrite Nat2Z.id, H. reflexivity.
Qed.
Lemma lidx_app {A} (pre : list A) x post : lidx (pre ++ x :: post) (zlen pre) = Ok x.
Proof.
  unfold zlen. apply lidx_nth. rewrite nth_error_app2 by lia. rewrite Nat.sub_diag. reflexivity.
Qed.
Lemma idx_small t s : In s t -> zlen t <= 2^31 -> idx t s = Z.of_nat (posn t s) /\ 0 <= idx t s < 2^31.
Proof.
  intros H Hl. pose proof (posn_lt t s H). unfold idx. unfold zlen in Hl.
  rewrite u32_id by (unfold is_u32; lia). lia.
Qed.
Lemma GetString_idx p t s : pblk_StringTable p = Some t -> In s t -> zlen t <= 2^31 ->
  GetString p (idx t s) = Ok s.
Proof.
  intros Hp H Hl. destruct (idx_small t s H Hl) as [-> _]. unfold GetString. rewrite Hp.
  apply lidx_nth, posn_nth, H.
Qed.
Lemma tag_loop_ok p t tags : pblk_StringTable p = Some t -> zlen t <= 2^31 ->
  forall pre acc, (forall s, In s (tag_strings tags) -> In s t) ->
  NoDup (map fst acc ++ map fst tags) ->
  tag_loop p (map (fun e => idx t (fst e)) tags) (pre ++ map (fun e => idx t (snd e)) tags) (zlen pre) acc =
  Ok (acc ++ tags).
Proof.
  intros Hp Hl. induction tags as [|[k v] tags IH]; intros pre acc Hin ND; cbn [map tag_loop fst snd].
  - rewrite app_nil_r. reflexivity.
  - rewrite (GetString_idx p t k) by (try assumption; apply Hin; left; reflexivity). cbn [bind].
    rewrite lidx_app. cbn [bind].
    rewrite (GetString_idx p t v) by (try assumption; apply Hin; right; left; reflexivity). cbn [bind].
    cbn [map fst] in ND.
    rewrite mset_new.
    2:{ apply NoDup_remove_2 in ND. intros X. apply ND. apply in_app_iff. auto. }
    specialize (IH (pre ++ [idx t v]) (acc ++ [(k, v)])).
    rewrite <- !app_assoc in IH. cbn [app] in IH. rewrite zlen_app in IH. apply IH.
    + intros s Hs. apply Hin. right; right; exact Hs.
    + rewrite map_app. cbn [map fst]. rewrite <- app_assoc. exact ND.
Qed.
Lemma sorted_tags_nodup m : is_map m -> NoDup (map fst (sorted_tags m)).
Proof.
  intros H. eapply Permutation_NoDup; [apply Permutation_map, sorted_tags_perm; exact H|exact H].
Qed.
Lemma tag_loop_kv p t m : pblk_StringTable p = Some t -> zlen t <= 2^31 -> is_map m ->
  (forall s, In s (tag_strings m) -> In s t) ->
  tag_loop p (map fst (kv t m)) (map snd (kv t m)) 0 [] = Ok (sorted_tags m).
Proof.
  intros Hp Hl H Hin. unfold kv. rewrite !map_map. cbn [fst snd].
  apply (tag_loop_ok p t (sorted_tags m) Hp Hl [] []).
  - intros s Hs. apply Hin, sorted_tags_strings; assumption.
  - cbn [map app]. apply sorted_tags_nodup, H.
Qed.

Lemma foldm_groups {A} (f : PrimitiveGroup -> res (list A)) gs outs acc :
  Forall2 (fun g o => f g = Ok o) gs outs ->
  foldm (fun acc g => new <- f g ;; Ok (acc ++ new)) gs acc = Ok (acc ++ concat outs).
Proof.
  intros H. revert acc. induction H as [|g o gs outs E H IH]; intros acc; cbn [foldm concat].
  - rewrite app_nil_r. reflexivity.
  - rewrite E. cbn [bind]. rewrite IH, app_assoc. reflexivity.
Qed.

Definition back_way (w : HLWay) : HLWay := mkHWay (hw_Id w) (sorted_tags (hw_Tags w)) (hw_Nodes w).
Definition back_rel (r : HLRelation) : HLRelation :=
  mkHRel (hr_Id r) (sorted_tags (hr_Tags r)) (hr_Roles r) (hr_Members r) (hr_MemberType r).
Definition back_node (n : HLNode) : HLNode :=
  mkNode (hn_Id n) (sorted_tags (hn_Tags n)) (100 * Z.quot (hn_Lat n) 100) (100 * Z.quot (hn_Lon n) 100).

(** groups of a block as produced by [block_of], possibly written and read back *)
Definition strings_in ns ws rs t : Prop :=
  (forall n s, In n ns -> In s (tag_strings (hn_Tags n)) -> In s t) /\
  (forall w s, In w ws -> In s (tag_strings (hw_Tags w)) -> In s t) /\
  (forall r s, In r rs -> In s (tag_strings (hr_Tags r)) \/ In s (hr_Roles r) -> In s t).
Lemma strings_in_table ns ws rs : strings_in ns ws rs (table (all_strings ns ws rs)).
Proof.
  unfold all_strings. split; [|split]; intros x s H1 H2; apply table_in; right; rewrite !in_app_iff.
  - left. apply in_flat_map. exists x; auto.
  - right; left. apply in_flat_map. exists x; auto.
  - right; right. apply in_flat_map. exists x. rewrite in_app_iff. auto.
Qed.

Lemma map_back {A} (f g : A -> A) l : Forall (fun x => f (g x) = x) l -> map f (map g l) = l.
Proof.
  induction 1 as [|x l E H IH]; cbn; [reflexivity|]. rewrite E, IH. reflexivity.
Qed.
Lemma u64_s64_id x : is_u64 x -> u64 (s64 x) = x.
Proof. intros. rewrite u64_s64. apply u64_id. assumption. Qed.
Lemma s64_u64_id x : is_s64 x -> s64 (u64 x) = x.
Proof. intros. rewrite s64_u64. apply s64_id. assumption. Qed.
Lemma u32_s32_id x : is_u32 x -> u32 (s32 x) = x.
Proof.
  unfold is_u32, u32, s32. intros H. rewrite Zminus_mod, Z.mod_mod, <- Zminus_mod by lia.
  replace (x + 2^31 - 2^31) with x by lia. apply Z.mod_small. lia.
Qed.
Lemma s32_small x : 0 <= x < 2^31 -> s32 x = x.
Proof. intros. apply s32_id. unfold is_s32. lia. Qed.

Lemma to_hl_way_ok p t w : pblk_StringTable p = Some t -> zlen t <= 2^31 -> hway_typed w ->
  (forall s, In s (tag_strings (hw_Tags w)) -> In s t) -> to_hl_way p (way_of t w) = Ok (back_way w).
Proof.
  intros Hp Hl (T1 & (T2 & _) & T3) Hin. unfold to_hl_way, way_of. cbn [way_Keys way_Vals way_Refs way_ID].
  rewrite tag_loop_kv by assumption. cbn [bind]. unfold back_way. do 2 f_equal.
  apply map_back. eapply Forall_impl; [|exact T3]. intros. apply u64_s64_id; assumption.
Qed.
Lemma to_hl_rel_ok p t r : pblk_StringTable p = Some t -> zlen t <= 2^31 -> hrel_typed r ->
  (forall s, In s (tag_strings (hr_Tags r)) \/ In s (hr_Roles r) -> In s t) ->
  to_hl_rel p (rel_of t r) = Ok (back_rel r).
Proof.
  intros Hp Hl (T1 & (T2 & _) & T3 & T4 & T5) Hin. unfold to_hl_rel, rel_of.
  cbn [rel_Keys rel_Vals rel_RolesSID rel_MemIDs rel_MemberType rel_ID].
  rewrite tag_loop_kv by auto. cbn [bind].
  assert (E : mapm (fun role => GetString p (u32 role)) (map (fun s => s32 (idx t s)) (hr_Roles r)) = Ok (hr_Roles r)).
  { assert (Hr : forall s, In s (hr_Roles r) -> In s t) by auto. revert Hr. clear - Hp Hl.
    induction (hr_Roles r) as [|s l IH]; intros Hr; cbn [map mapm]; [reflexivity|].
    assert (In s t) by (apply Hr; left; reflexivity).
    rewrite u32_s32_id by (destruct (idx_small t s) as [_ ?]; try assumption; unfold is_u32; lia).
    rewrite (GetString_idx p t s) by assumption. cbn [bind]. rewrite IH by (intros; apply Hr; right; assumption).
    reflexivity. }
  rewrite E. cbn [bind]. unfold back_rel. do 2 f_equal.
  apply map_back. eapply Forall_impl; [|exact T5]. intros. apply s64_u64_id; assumption.
Qed.

(** ** nodes *)
Lemma GetKeyVals_fields d i ks vs d' : GetKeyVals d i = Ok (ks, vs, d') ->
  dn_Id d' = dn_Id d /\ dn_Lat d' = dn_Lat d /\ dn_Lon d' = dn_Lon d /\ dn_KeyVals d' = dn_KeyVals d.
Proof.
  unfold GetKeyVals. destruct (zlen (dn_KeyVals d) =? 0); [intros H; injection H as <- <- <-; auto|].
  destruct (zlen (dn_cacheKeys d) =? 0); cbn [bind].
  - destruct (kv_cache _ _ _ _ _) as [[ck cv]|?|]; cbn [bind]; try discriminate.
    destruct (lidx _ i); cbn [bind]; try discriminate. destruct (lidx _ i); cbn [bind]; try discriminate.
    intros H; injection H as <- <- <-; auto.
  - destruct (lidx _ i); cbn [bind]; try discriminate. destruct (lidx _ i); cbn [bind]; try discriminate.
    intros H; injection H as <- <- <-; auto.
Qed.

(** the section answers a lookup of node [i] with that node's pairs, now and later *)
Definition answers (kvs : list (list (Z * Z))) (d : DenseNodes) : Prop :=
  exists P : DenseNodes -> Prop, P d /\
    forall d, P d -> forall i e, nth_error kvs i = Some e ->
      exists d', GetKeyVals d (Z.of_nat i) = Ok (map fst e, map snd e, d') /\ P d'.
Lemma answers_good kvs : Forall (Forall tag_ok) kvs -> forall d, kv_good kvs d -> answers kvs d.
Proof.
  intros Ht d0 G0. exists (kv_good kvs). split; [exact G0|]. intros d G i e H.
  pose proof (GetKeyVals_good kvs d (Z.of_nat i) Ht G) as S.
  assert (E : kv_expect kvs (Z.of_nat i) = Ok (map fst e, map snd e)).
  { unfold kv_expect. destruct kvs; [destruct i; discriminate|]. rewrite (lidx_nth _ _ _ H). reflexivity. }
  rewrite E in S. exact S.
Qed.
Lemma answers_none kvs : Forall (fun e => e = []) kvs -> forall d, dn_KeyVals d = [] -> answers kvs d.
Proof.
  intros Ht d0 G0. exists (fun d => dn_KeyVals d = []). split; [exact G0|]. intros d G i e H.
  exists d. split; [|exact G]. eapply nth_error_In in H. eapply Forall_forall in Ht; [|exact H]. subst.
  unfold GetKeyVals. rewrite G. reflexivity.
Qed.

Lemma quot100 x : is_s64 x -> is_s64 (100 * Z.quot x 100) /\ toward_zero_100 x (100 * Z.quot x 100).
Proof.
  unfold is_s64, toward_zero_100. intros H. pose proof (Z.quot_rem' x 100).
  destruct (Z.le_gt_cases 0 x).
  - pose proof (Z.rem_bound_pos x 100 ltac:(lia) ltac:(lia)).
    assert (0 <= Z.quot x 100) by (apply Z.quot_pos; lia).
    split; [lia|]. split; [eexists; reflexivity|]. split; [lia|]. split; [nia|lia].
  - pose proof (Z.rem_bound_pos_neg x 100 ltac:(lia) ltac:(lia)).
    assert (Z.quot x 100 <= 0) by (pose proof (Z.quot_pos (-x) 100 ltac:(lia) ltac:(lia)) as Q; rewrite Z.quot_opp_l in Q; lia).
    split; [lia|]. split; [eexists; reflexivity|]. split; [lia|]. split; [nia|lia].
Qed.

Lemma dense_loop_ok p t : pblk_StringTable p = Some t -> zlen t <= 2^31 ->
  pblk_LatOffset p = 0 -> pblk_LonOffset p = 0 -> pblk_Granularity p = 100 ->
  forall rest pre d,
  Forall node_typed rest ->
  (forall n s, In n rest -> In s (tag_strings (hn_Tags n)) -> In s t) ->
  answers (map (fun n => kv t (hn_Tags n)) (pre ++ rest)) d ->
  dn_Id d = map (fun n => s64 (hn_Id n)) (pre ++ rest) ->
  dn_Lat d = map (fun n => Z.quot (hn_Lat n) 100) (pre ++ rest) ->
  dn_Lon d = map (fun n => Z.quot (hn_Lon n) 100) (pre ++ rest) ->
  dense_loop p d (map Z.of_nat (seq (List.length pre) (List.length rest))) = Ok (map back_node rest).
Proof.
  intros Hp Hl O1 O2 O3. induction rest as [|n rest IH]; intros pre d Ht Hin A D1 D2 D3; [reflexivity|].
  cbn [List.length seq map dense_loop].
  apply Forall_cons_iff in Ht as [(T1 & (T2 & _) & T3 & T4) Ht].
  assert (N : forall B (f : HLNode -> B), nth_error (map f (pre ++ n :: rest)) (List.length pre) = Some (f n)).
  { intros B f. rewrite map_app, nth_error_app2; rewrite map_length; [|lia]. rewrite Nat.sub_diag. reflexivity. }
  destruct A as (P & Pd & A). destruct (A _ Pd _ _ (N _ (fun n => kv t (hn_Tags n)))) as (d' & E & Pd').
  assert (A' : answers (map (fun n => kv t (hn_Tags n)) (pre ++ n :: rest)) d') by (exists P; auto).
  rewrite E. cbn [bind]. destruct (GetKeyVals_fields _ _ _ _ _ E) as (F1 & F2 & F3 & F4).
  rewrite tag_loop_kv; [|assumption..|intros; eapply Hin; [left; reflexivity|assumption]]. cbn [bind].
  rewrite F1, F2, F3, D1, D2, D3.
  rewrite (lidx_nth _ _ _ (N _ (fun n => s64 (hn_Id n)))). cbn [bind].
  rewrite (lidx_nth _ _ _ (N _ (fun n => Z.quot (hn_Lat n) 100))). cbn [bind].
  rewrite (lidx_nth _ _ _ (N _ (fun n => Z.quot (hn_Lon n) 100))). cbn [bind].
  specialize (IH (pre ++ [n]) d'). rewrite <- app_assoc in IH. cbn [app] in IH.
  rewrite app_length in IH. cbn [List.length] in IH. rewrite Nat.add_1_r in IH.
  rewrite IH; [|assumption| |assumption|congruence..].
  2:{ intros n' s Hn'. apply Hin. right; exact Hn'. }
  cbn [bind]. unfold back_node at 2. rewrite O1, O2, O3.
  rewrite !Z.add_0_l. rewrite u64_s64_id by assumption.
  rewrite !(s64_id (100 * _)) by (apply quot100; assumption). reflexivity.
Qed.

Lemma dense_array_len nodes : zlen (dense_array nodes) = zlen nodes + 2 * zlen (concat nodes).
Proof.
  induction nodes as [|e nodes IH]; [reflexivity|]. cbn [dense_array concat].
  assert (F : zlen (flat e) = 2 * zlen e).
  { clear. induction e as [|[k v] e IH]; [reflexivity|]. cbn [flat]. rewrite !zlen_cons. lia. }
  rewrite zlen_app, zlen_cons, IH, F, zlen_cons, zlen_app. lia.
Qed.
Lemma wless_empty_first L : ~ In [] L -> zlen L < 2^32 -> exists r, table L = [] :: r.
Proof.
  intros Hn Hl.
  assert (S := isort_sorted (wless L) (nodup (list_eq_dec Z.eq_dec) ([] :: L)) (freq_less_sto (weight L))).
  fold (table L) in S. destruct (table L) as [|x r] eqn:E.
  - assert (In [] (table L)) by (apply table_in; left; reflexivity). rewrite E in H. destruct H.
  - exists r. f_equal. apply StronglySorted_inv in S as [_ F].
    assert (Hin : In [] (x :: r)) by (rewrite <- E; apply table_in; left; reflexivity).
    destruct Hin as [<-|Hin]; [reflexivity|]. eapply Forall_forall in F; [|exact Hin].
    unfold ord, wless in F.
    assert (Wx : weight L x <= 2^32 - 1) by (unfold weight, u32; pose proof (Z.mod_pos_bound (base x + occurrences L x) (2^32) ltac:(lia)); lia).
    assert (We : weight L [] = 2^32 - 1).
    { unfold weight, base. rewrite seqb_refl, occ_notin by assumption. reflexivity. }
    rewrite We in F. destruct (Z.eqb_spec (2^32 - 1) (weight L x)); cbn [negb] in F.
    + destruct x; [reflexivity|]. cbn in F. discriminate.
    + destruct (Z.ltb_spec (weight L x) (2^32 - 1)); [discriminate|lia].
Qed.

Lemma heavier_wless L a b : heavier L a b <-> wless L a b = true.
Proof.
  assert (W : forall s, weight L s = ((match s with [] => 2^32 - 1 | _ => 0 end) + occurrences L s) mod 2^32).
  { intros s. unfold weight, base, u32. destruct s; reflexivity. }
  unfold heavier. cbn zeta. rewrite <- !W. unfold wless.
  destruct (Z.eqb_spec (weight L a) (weight L b)) as [Ew|Nw]; cbn [negb].
  - rewrite slt_spec. split; [intros [H|[_ H]]; [lia|exact H]|auto].
  - rewrite Z.ltb_lt. split; [intros [H|[H _]]; [exact H|lia]|auto].
Qed.
Lemma table_heavier L : StronglySorted (heavier L) (table L).
Proof.
  pose proof (freq_less_sto (weight L)) as STO. change (sto (wless L)) in STO.
  assert (S := isort_sorted (wless L) (nodup (list_eq_dec Z.eq_dec) ([] :: L)) STO). fold (table L) in S.
  pose proof (table_nodup L) as ND. induction S as [|a l S IH Hf]; [constructor|].
  apply NoDup_cons_iff in ND as [Na ND]. constructor; [auto|].
  apply Forall_forall. intros b Hb. eapply Forall_forall in Hf; [|exact Hb]. unfold ord in Hf.
  apply heavier_wless. destruct (wless L a b) eqn:Eab; [reflexivity|]. exfalso. apply Na.
  destruct STO as (_ & _ & Tot). rewrite (Tot a b Eab Hf). exact Hb.
Qed.
Lemma table_first L s : first_string L s <-> exists r, table L = s :: r.
Proof.
  pose proof (table_heavier L) as S. pose proof (table_in L) as TI. split.
  - intros [Hin Hf]. assert (Hin' := Hin). apply TI in Hin'. destruct (table L) as [|x r] eqn:E; [destruct Hin'|].
    exists r. f_equal. destruct (list_eq_dec Z.eq_dec x s) as [|Ne]; [assumption|]. exfalso.
    destruct Hin' as [<-|Hr]; [congruence|]. apply StronglySorted_inv in S as [_ S]. eapply Forall_forall in S; [|exact Hr].
    assert (Hx : heavier L s x) by (apply Hf; [apply TI; left; reflexivity|assumption]).
    apply heavier_wless in S. apply heavier_wless in Hx.
    pose proof (freq_less_sto (weight L)) as STO. change (sto (wless L)) in STO.
    rewrite (sto_asym _ _ _ STO S) in Hx. discriminate.
  - intros [r E]. rewrite E in S, TI. split; [apply TI; left; reflexivity|].
    intros t Ht Ne. apply TI in Ht as [->|Ht]; [congruence|]. apply StronglySorted_inv in S as [_ S].
    eapply Forall_forall in S; [exact S|exact Ht].
Qed.
Lemma no_empty_free ns ws rs : ~ In [] (all_strings ns ws rs) -> zlen (all_strings ns ws rs) < 2^32 -> first_key_free ns ws rs.
Proof.
  intros NE Hl n k v Hn Ht Hf. apply table_first in Hf as [r E].
  destruct (wless_empty_first _ NE Hl) as [r' E']. rewrite E in E'. injection E' as -> _.
  apply NE. unfold all_strings. apply in_app_iff. left. apply in_flat_map. exists n. split; [exact Hn|].
  unfold tag_strings. apply in_flat_map. exists ([], v). split; [exact Ht|left; reflexivity].
Qed.

Lemma kv_tag_ok t m : zlen t <= 2^31 -> is_map m ->
  (forall k v r, In (k, v) m -> t <> k :: r) -> (forall s, In s (tag_strings m) -> In s t) ->
  Forall tag_ok (kv t m).
Proof.
  intros Hl H Hne Hin. unfold kv. apply Forall_map, Forall_forall. intros [k v] He. cbn [fst snd].
  assert (Hk : In k (tag_strings m)).
  { apply sorted_tags_strings; [assumption|]. apply in_flat_map. exists (k, v); cbn; auto. }
  assert (Hv : In v (tag_strings m)).
  { apply sorted_tags_strings; [assumption|]. apply in_flat_map. exists (k, v); cbn; auto. }
  destruct (idx_small t k (Hin _ Hk) Hl) as [E1 B1]. destruct (idx_small t v (Hin _ Hv) Hl) as [E2 B2].
  split; cbn [fst snd]; [|lia]. split; [|lia]. rewrite E1.
  destruct t as [|x r]; [destruct (Hin _ Hk)|]. cbn [posn].
  destruct (seqb_spec x k) as [->|]; [|lia]. exfalso.
  eapply Permutation_in in He; [|apply Permutation_sym, sorted_tags_perm, H]. exact (Hne k v r He eq_refl).
Qed.
Lemma kvs32_kv t m : Forall tag_ok (kv t m) -> map (fun e => (s32 (fst e), s32 (snd e))) (kv t m) = kv t m.
Proof.
  intros H. rewrite <- (map_id (kv t m)) at 2. apply map_ext_in. intros [a b] Hin.
  eapply Forall_forall in H; [|exact Hin]. destruct H as [H1 H2]. cbn [fst snd] in *.
  rewrite !s32_small by lia. reflexivity.
Qed.
Lemma dense_answers t ns : Forall (Forall tag_ok) (map (fun n => kv t (hn_Tags n)) ns) ->
  answers (map (fun n => kv t (hn_Tags n)) ns) (dense_of t ns).
Proof.
  intros H. unfold dense_of.
  assert (E : map (kvs32 t) ns = map (fun n => kv t (hn_Tags n)) ns).
  { apply map_ext_in. intros n Hn. apply kvs32_kv. rewrite Forall_map in H.
    eapply Forall_forall in H; [|exact Hn]. exact H. }
  rewrite E. set (K := map (fun n => kv t (hn_Tags n)) ns) in *.
  assert (Hlen : zlen K = zlen ns) by (apply zlen_map).
  destruct (Z.eqb_spec (zlen (dense_array K)) (zlen ns)) as [Eq|Ne].
  - apply answers_none; [|reflexivity]. rewrite dense_array_len, Hlen in Eq.
    assert (C : concat K = []) by (apply zlen_0; pose proof (zlen_nonneg (concat K)); lia).
    clear - C. induction K as [|e K IH]; [constructor|]. cbn in C. apply app_eq_nil in C as [-> C]. constructor; auto.
  - apply answers_good; [exact H|]. split; [reflexivity|]. left. split; reflexivity.
Qed.

(** any block carrying the groups of [block_of] (possibly re-read) gives the entities *)
Lemma one_foldm {A B} (f : PrimitiveGroup -> res (list B)) (l : list A) g o :
  f g = Ok o -> (l = [] -> o = []) -> exists outs, Forall2 (fun g o => f g = Ok o) (one l g) outs /\ concat outs = o.
Proof.
  intros Hf Hn. destruct l as [|a l]; cbn [one].
  - exists []. split; [constructor|]. symmetry. apply Hn. reflexivity.
  - exists [o]. split; [repeat constructor; exact Hf|]. cbn. apply app_nil_r.
Qed.
Lemma groups_foldm {A B C D} (f : PrimitiveGroup -> res (list D)) (l1 : list A) (l2 : list B) (l3 : list C) g1 g2 g3 o1 o2 o3 :
  f g1 = Ok o1 -> (l1 = [] -> o1 = []) -> f g2 = Ok o2 -> (l2 = [] -> o2 = []) ->
  f g3 = Ok o3 -> (l3 = [] -> o3 = []) ->
  foldm (fun acc g => new <- f g ;; Ok (acc ++ new)) (one l1 g1 ++ one l2 g2 ++ one l3 g3) [] = Ok (o1 ++ o2 ++ o3).
Proof.
  intros H1 N1 H2 N2 H3 N3.
  destruct (one_foldm f l1 g1 o1 H1 N1) as (u1 & F1 & <-).
  destruct (one_foldm f l2 g2 o2 H2 N2) as (u2 & F2 & <-).
  destruct (one_foldm f l3 g3 o3 H3 N3) as (u3 & F3 & <-).
  rewrite (foldm_groups f _ (u1 ++ u2 ++ u3)); [|repeat apply Forall2_app; assumption].
  rewrite !concat_app. reflexivity.
Qed.

Lemma ToWays_block ns ws rs : zlen (all_strings ns ws rs) < 2^31 -> Forall hway_typed ws ->
  ToWays (block_of ns ws rs) = Ok (map back_way ws).
Proof.
  intros Hl T. unfold ToWays. pose proof (strings_in_table ns ws rs) as (S1 & S2 & S3).
  pose proof (table_len (all_strings ns ws rs)) as Tl.
  unfold block_of at 2. cbn [pblk_PrimitiveGroup].
  rewrite (groups_foldm (fun pg => mapm (to_hl_way (block_of ns ws rs)) (match pg_Ways pg with Some l => l | None => [] end))
    ns ws rs _ _ _ [] (map back_way ws) []); try reflexivity; [cbn [app]; rewrite app_nil_r; reflexivity| |intros ->; reflexivity].
  cbn [pg_Ways].
  assert (forall w, In w ws -> to_hl_way (block_of ns ws rs) (way_of (table (all_strings ns ws rs)) w) = Ok (back_way w)).
  { intros w Hw. apply to_hl_way_ok; [reflexivity|lia| |intros; eapply S2; eauto].
    eapply Forall_forall in T; eauto. }
  revert H. generalize (block_of ns ws rs), (table (all_strings ns ws rs)). clear. intros p t.
  induction ws as [|w ws IH]; intros H; [reflexivity|]. cbn [map mapm]. rewrite H by (left; reflexivity).
  cbn [bind]. rewrite IH by (intros; apply H; right; assumption). reflexivity.
Qed.
Lemma ToRelations_block ns ws rs : zlen (all_strings ns ws rs) < 2^31 -> Forall hrel_typed rs ->
  ToRelations (block_of ns ws rs) = Ok (map back_rel rs).
Proof.
  intros Hl T. unfold ToRelations. pose proof (strings_in_table ns ws rs) as (S1 & S2 & S3).
  pose proof (table_len (all_strings ns ws rs)) as Tl.
  unfold block_of at 2. cbn [pblk_PrimitiveGroup].
  rewrite (groups_foldm (fun pg => mapm (to_hl_rel (block_of ns ws rs)) (match pg_Relations pg with Some l => l | None => [] end))
    ns ws rs _ _ _ [] [] (map back_rel rs)); try reflexivity; [|intros ->; reflexivity].
  cbn [pg_Relations].
  assert (forall w, In w rs -> to_hl_rel (block_of ns ws rs) (rel_of (table (all_strings ns ws rs)) w) = Ok (back_rel w)).
  { intros w Hw. apply to_hl_rel_ok; [reflexivity|lia| |intros; eapply S3; eauto].
    eapply Forall_forall in T; eauto. }
  revert H. generalize (block_of ns ws rs), (table (all_strings ns ws rs)). clear. intros p t.
  induction rs as [|w rs IH]; intros H; [reflexivity|]. cbn [map mapm]. rewrite H by (left; reflexivity).
  cbn [bind]. rewrite IH by (intros; apply H; right; assumption). reflexivity.
Qed.
Lemma ToNodes_foldm p : ToNodes p =
  foldm (fun acc g => new <- (match pg_Dense g with None => Ok [] | Some d => dense_loop p d (indexes (dn_Id d)) end) ;; Ok (acc ++ new))
    (pblk_PrimitiveGroup p) [].
Proof.
  unfold ToNodes.
  assert (H : forall gs acc,
    foldm (fun ns pg => match pg_Dense pg with None => Ok ns | Some d => new <- dense_loop p d (indexes (dn_Id d)) ;; Ok (ns ++ new) end) gs acc =
    foldm (fun acc g => new <- (match pg_Dense g with None => Ok [] | Some d => dense_loop p d (indexes (dn_Id d)) end) ;; Ok (acc ++ new)) gs acc).
  { induction gs as [|g gs IH]; intros acc; [reflexivity|].
    cbn [foldm]. destruct (pg_Dense g); cbn [bind].
    - destruct (dense_loop _ d _); cbn [bind]; [apply IH|reflexivity..].
    - rewrite app_nil_r. apply IH. }
  apply H.
Qed.
Lemma ToNodes_block ns ws rs : zlen (all_strings ns ws rs) < 2^31 -> Forall node_typed ns ->
  first_key_free ns ws rs ->
  ToNodes (block_of ns ws rs) = Ok (map back_node ns).
Proof.
  intros Hl T NE. pose proof (strings_in_table ns ws rs) as (S1 & S2 & S3).
  pose proof (table_len (all_strings ns ws rs)) as Tl.
  assert (Ed : dense_loop (block_of ns ws rs) (dense_of (table (all_strings ns ws rs)) ns)
    (indexes (dn_Id (dense_of (table (all_strings ns ws rs)) ns))) = Ok (map back_node ns)).
  { unfold indexes. cbn [dense_of dn_Id]. rewrite map_length.
    apply (dense_loop_ok (block_of ns ws rs) (table (all_strings ns ws rs)) eq_refl ltac:(lia) eq_refl eq_refl eq_refl ns []);
      try reflexivity; try assumption.
    cbn [app]. apply dense_answers. apply Forall_map, Forall_forall. intros n Hn.
    apply kv_tag_ok.
    - lia.
    - eapply Forall_forall in T; [|exact Hn]. apply T.
    - intros k v r Hkv X. apply (NE n k v Hn Hkv). apply table_first. exists r. exact X.
    - intros s. apply S1. assumption. }
  rewrite ToNodes_foldm.
  unfold block_of at 2. cbn [pblk_PrimitiveGroup].
  rewrite (groups_foldm (fun g => match pg_Dense g with None => Ok [] | Some d => dense_loop (block_of ns ws rs) d (indexes (dn_Id d)) end)
    ns ws rs _ _ _ (map back_node ns) [] []); try reflexivity; [cbn [app]; rewrite app_nil_r; reflexivity|exact Ed|intros ->; reflexivity].
Qed.
