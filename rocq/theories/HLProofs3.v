(** * HLProofs3: a node tag whose key is the first string of the block is lost. *)
From Coq Require Import Permutation Sorted.
From Verif Require Import Base BaseLemmas PbModel PbSpec PbProofs PbProofs2 TModel TSpec TProofs TMsg TMsg2 TThms HLModel HLSpec HLProofs HLProofs2.

Lemma first_split {A} (f : A -> bool) l x : In x l -> f x = true ->
  exists pre y post, l = pre ++ y :: post /\ f y = true /\ Forall (fun z => f z = false) pre.
Proof.
  intros Hx Fx. induction l as [|a l IH]; [destruct Hx|].
  destruct (f a) eqn:Fa; [exists [], a, l; auto|].
  destruct Hx as [->|Hx]; [congruence|]. destruct (IH Hx) as (pre & y & post & -> & F & Fp).
  exists (a :: pre), y, post. auto.
Qed.
Lemma dense_array_app a b : dense_array (a ++ b) = dense_array a ++ dense_array b.
Proof.
  induction a as [|e a IH]; [reflexivity|]. cbn [app dense_array]. rewrite IH, <- app_assoc. reflexivity.
Qed.
Lemma flat_app_ a b : flat (a ++ b) = flat a ++ flat b.
Proof. induction a as [|[k v] a IH]; [reflexivity|]. cbn [app flat]. rewrite IH. reflexivity. Qed.
Lemma kv_cache_pre nodes rest CK CV : Forall (Forall tag_ok) nodes ->
  kv_cache (dense_array nodes ++ rest) [] [] CK CV =
  kv_cache rest [] [] (CK ++ map (map fst) nodes) (CV ++ map (map snd) nodes).
Proof.
  revert CK CV. induction nodes as [|tags nodes IH]; intros CK CV H.
  - cbn [dense_array app map]. rewrite !app_nil_r. reflexivity.
  - apply Forall_cons_iff in H as [Ht H]. cbn [dense_array map]. rewrite <- app_assoc. cbn [app].
    rewrite kv_cache_flat, IH by assumption. rewrite <- !app_assoc. reflexivity.
Qed.
Lemma kv_cache_more : forall n kvs cK cV CK CV ck cv, (List.length kvs <= n)%nat ->
  kv_cache kvs cK cV CK CV = Ok (ck, cv) -> exists m, ck = CK ++ m.
Proof.
  induction n as [|n IH]; intros kvs cK cV CK CV ck cv Hn H.
  - destruct kvs; [|cbn in Hn; lia]. injection H as <- <-. exists []. rewrite app_nil_r. reflexivity.
  - destruct kvs as [|k kvs]; cbn [kv_cache] in H; [injection H as <- <-; exists []; rewrite app_nil_r; reflexivity|].
    cbn [List.length] in Hn. destruct (k =? 0).
    + apply IH in H as [m ->]; [|lia]. eexists. rewrite <- app_assoc. reflexivity.
    + destruct kvs as [|v kvs]; [discriminate|]. cbn [List.length] in Hn. apply IH in H as [m ->]; [|lia]. eexists; reflexivity.
Qed.

(** the section is not yet split, or is split as the code splits it *)
Definition split_state (K : list Z) (d : DenseNodes) : Prop :=
  dn_KeyVals d = K /\
  (dn_cacheKeys d = [] /\ dn_cacheVals d = [] \/
   dn_cacheKeys d <> [] /\ exists cv, kv_cache K [] [] [] [] = Ok (dn_cacheKeys d, cv)).
Lemma lidx_ok_nonempty {A} (l : list A) i x : lidx l i = Ok x -> l <> [].
Proof.
  intros H ->. unfold lidx in H. change (zlen (@nil A)) with 0 in H.
  destruct (_ && _) eqn:E; [lia|discriminate].
Qed.
Lemma GetKeyVals_split K d i ks vs d' : K <> [] -> split_state K d -> GetKeyVals d i = Ok (ks, vs, d') ->
  split_state K d' /\ exists ck cv, kv_cache K [] [] [] [] = Ok (ck, cv) /\ lidx ck i = Ok ks.
Proof.
  intros HK [E1 E2] H. unfold GetKeyVals in H. rewrite E1 in H.
  destruct (Z.eqb_spec (zlen K) 0) as [Z0|_]; [apply zlen_0 in Z0; contradiction|].
  destruct E2 as [[E2 E3]|[E2 [cv E3]]].
  - rewrite E2, E3 in H. change (zlen (@nil (list Z)) =? 0) with true in H. cbv iota in H.
    destruct (kv_cache K [] [] [] []) as [[ck cv]| |] eqn:EK; cbn [bind] in H; try discriminate.
    cbn [dn_cacheKeys dn_cacheVals] in H.
    destruct (lidx ck i) as [ks'| |] eqn:L1; cbn [bind] in H; try discriminate.
    destruct (lidx cv i) as [vs'| |] eqn:L2; cbn [bind] in H; try discriminate.
    injection H as <- <- <-. split; [|exists ck, cv; auto].
    split; [reflexivity|]. right. cbn [dn_cacheKeys]. split; [eapply lidx_ok_nonempty; eauto|eauto].
  - destruct (Z.eqb_spec (zlen (dn_cacheKeys d)) 0) as [Z0|_]; [apply zlen_0 in Z0; contradiction|].
    cbn [bind] in H.
    destruct (lidx (dn_cacheKeys d) i) as [ks'| |] eqn:L1; cbn [bind] in H; try discriminate.
    destruct (lidx (dn_cacheVals d) i) as [vs'| |] eqn:L2; cbn [bind] in H; try discriminate.
    injection H as <- <- <-. split; [split; [exact E1|right; split; [exact E2|eauto]]|eauto].
Qed.
Lemma mset_len {V} (m : smap V) k v : (List.length (mset m k v) <= S (List.length m))%nat.
Proof. induction m as [|[k' v'] m IH]; cbn; [lia|]. destruct (seqb k' k); cbn; lia. Qed.
Lemma tag_loop_len p vs ks : forall i acc tags, tag_loop p ks vs i acc = Ok tags ->
  (List.length tags <= List.length acc + List.length ks)%nat.
Proof.
  induction ks as [|k ks IH]; intros i acc tags H; cbn [tag_loop] in H.
  - injection H as <-. lia.
  - destruct (GetString p k); cbn [bind] in H; try discriminate. destruct (lidx vs i); cbn [bind] in H; try discriminate.
    destruct (GetString p _); cbn [bind] in H; try discriminate. apply IH in H. pose proof (mset_len acc a a1). cbn [List.length]. lia.
Qed.
Lemma dense_loop_split p K idxs : K <> [] -> forall d out j i, split_state K d -> dense_loop p d idxs = Ok out ->
  nth_error idxs j = Some i ->
  exists n ck cv ks, nth_error out j = Some n /\ kv_cache K [] [] [] [] = Ok (ck, cv) /\ lidx ck i = Ok ks /\
    (List.length (hn_Tags n) <= List.length ks)%nat.
Proof.
  intros HK. induction idxs as [|i0 idxs IH]; intros d out j i S H Hj; [destruct j; discriminate|].
  cbn [dense_loop] in H. destruct (GetKeyVals d i0) as [[[ks vs] d']| |] eqn:G; cbn [bind] in H; try discriminate.
  destruct (GetKeyVals_split _ _ _ _ _ _ HK S G) as (S' & ck & cv & EK & L).
  destruct (tag_loop p ks vs 0 []) as [tags| |] eqn:T; cbn [bind] in H; try discriminate.
  destruct (lidx (dn_Id d') i0); cbn [bind] in H; try discriminate.
  destruct (lidx (dn_Lat d') i0); cbn [bind] in H; try discriminate.
  destruct (lidx (dn_Lon d') i0); cbn [bind] in H; try discriminate.
  destruct (dense_loop p d' idxs) as [rest| |] eqn:D; cbn [bind] in H; try discriminate. injection H as <-.
  destruct j as [|j]; cbn [nth_error] in *.
  - injection Hj as ->. eexists. exists ck, cv, ks. split; [reflexivity|]. split; [exact EK|]. split; [exact L|].
    cbn [hn_Tags]. apply tag_loop_len in T. cbn in T. exact T.
  - apply (IH d' rest j i S' D Hj).
Qed.

Lemma kv_small t m : zlen t <= 2^31 -> is_map m -> (forall s, In s (tag_strings m) -> In s t) ->
  Forall (fun e => 0 <= fst e < 2^31 /\ 0 <= snd e < 2^31) (kv t m).
Proof.
  intros Hl H Hin. unfold kv. apply Forall_map, Forall_forall. intros [k v] He. cbn [fst snd].
  assert (Hk : In k (tag_strings m)).
  { apply sorted_tags_strings; [assumption|]. apply in_flat_map. exists (k, v); cbn; auto. }
  assert (Hv : In v (tag_strings m)).
  { apply sorted_tags_strings; [assumption|]. apply in_flat_map. exists (k, v); cbn; auto. }
  destruct (idx_small t k (Hin _ Hk) Hl) as [E1 B1]. destruct (idx_small t v (Hin _ Hv) Hl) as [E2 B2]. lia.
Qed.
Lemma kvs32_small t m : Forall (fun e => 0 <= fst e < 2^31 /\ 0 <= snd e < 2^31) (kv t m) ->
  map (fun e => (s32 (fst e), s32 (snd e))) (kv t m) = kv t m.
Proof.
  intros H. rewrite <- (map_id (kv t m)) at 2. apply map_ext_in. intros [a b] Hin.
  eapply Forall_forall in H; [|exact Hin]. destruct H as [H1 H2]. cbn [fst snd] in *.
  rewrite !s32_small by lia. reflexivity.
Qed.
Lemma kv_len t m : is_map m -> List.length (kv t m) = List.length m.
Proof. intros H. unfold kv. rewrite map_length. symmetry. apply Permutation_length, sorted_tags_perm, H. Qed.

Lemma dense_bad p t ns k v r n : t = k :: r -> zlen t <= 2^31 -> Forall node_typed ns ->
  (forall n s, In n ns -> In s (tag_strings (hn_Tags n)) -> In s t) ->
  In n ns -> In (k, v) (hn_Tags n) ->
  forall out, dense_loop p (dense_of t ns) (indexes (dn_Id (dense_of t ns))) = Ok out ->
  exists j n n', nth_error ns j = Some n /\ nth_error out j = Some n' /\ (List.length (hn_Tags n') < List.length (hn_Tags n))%nat.
Proof.
  intros Et Hl T Hin Hn Hkv out H.
  assert (SM : Forall (fun n => Forall (fun e => 0 <= fst e < 2^31 /\ 0 <= snd e < 2^31) (kv t (hn_Tags n))) ns).
  { apply Forall_forall. intros m Hm. eapply Forall_forall in T; [|exact Hm]. destruct T as (_ & (M & _) & _).
    apply kv_small; [exact Hl|exact M|]. intros s. apply Hin, Hm. }
  assert (E : map (kvs32 t) ns = map (fun n => kv t (hn_Tags n)) ns).
  { apply map_ext_in. intros m Hm. apply kvs32_small. eapply Forall_forall in SM; [|exact Hm]. exact SM. }
  set (f := fun e : Z * Z => fst e =? 0).
  assert (Fn : existsb f (kv t (hn_Tags n)) = true).
  { apply existsb_exists. exists (idx t k, idx t v). split.
    - unfold kv. apply in_map_iff. exists (k, v). split; [reflexivity|].
      eapply Permutation_in; [|exact Hkv]. apply sorted_tags_perm. eapply Forall_forall in T; [|exact Hn]. apply T.
    - unfold f. cbn [fst]. unfold idx. rewrite Et. cbn [posn]. rewrite seqb_refl. reflexivity. }
  destruct (first_split (fun n => existsb f (kv t (hn_Tags n))) ns n Hn Fn) as (pre & m & post & Ens & Fm & Fp).
  apply existsb_exists in Fm as (e & He & Fe).
  destruct (first_split f _ e He Fe) as (P & y & Q & EP & Fy & FP).
  set (K := dense_array (map (fun n => kv t (hn_Tags n)) ns)).
  assert (EK : dn_KeyVals (dense_of t ns) = K).
  { unfold dense_of. cbn [dn_KeyVals]. rewrite E. fold K.
    destruct (Z.eqb_spec (zlen K) (zlen ns)) as [Eq|]; [exfalso|reflexivity].
    unfold K in Eq. rewrite dense_array_len, zlen_map in Eq.
    assert (C : concat (map (fun n => kv t (hn_Tags n)) ns) = []) by (apply zlen_0; pose proof (zlen_nonneg (concat (map (fun n => kv t (hn_Tags n)) ns))); lia).
    rewrite Ens, map_app, concat_app in C. apply app_eq_nil in C as [_ C]. cbn [map concat] in C.
    apply app_eq_nil in C as [C _]. rewrite C in He. destruct He. }
  assert (TP : Forall tag_ok P).
  { assert (HmI : In m ns) by (rewrite Ens; apply in_app_iff; right; left; reflexivity).
    eapply Forall_forall in SM; [|exact HmI]. cbn beta in SM. rewrite EP in SM. apply Forall_app in SM as [SM _].
    apply Forall_forall. intros e' He'. eapply Forall_forall in SM; [|exact He']. eapply Forall_forall in FP; [|exact He'].
    unfold f in FP. unfold tag_ok. lia. }
  assert (TPre : Forall (Forall tag_ok) (map (fun n => kv t (hn_Tags n)) pre)).
  { apply Forall_map, Forall_forall. intros m' Hm'.
    assert (HmI : In m' ns) by (rewrite Ens; apply in_app_iff; left; exact Hm').
    eapply Forall_forall in SM; [|exact HmI]. eapply Forall_forall in Fp; [|exact Hm']. cbn beta in SM, Fp.
    apply Forall_forall. intros e' He'. eapply Forall_forall in SM; [|exact He'].
    assert (f e' = false) by (destruct (f e') eqn:X; [|reflexivity]; rewrite <- Fp; symmetry; apply existsb_exists; eauto).
    unfold f in H0. unfold tag_ok. lia. }
  assert (HK : K <> []).
  { unfold K. intros X. apply dense_array_nil in X. rewrite Ens in X. destruct pre; discriminate. }
  assert (S : split_state K (dense_of t ns)).
  { split; [exact EK|]. left. split; reflexivity. }
  assert (Hj : nth_error (indexes (dn_Id (dense_of t ns))) (List.length pre) = Some (Z.of_nat (List.length pre))).
  { unfold indexes. cbn [dense_of dn_Id]. rewrite map_length, nth_error_map.
    rewrite (nth_error_nth' _ 0%nat) by (rewrite seq_length, Ens, app_length; cbn; lia).
    rewrite seq_nth by (rewrite Ens, app_length; cbn; lia). reflexivity. }
  destruct (dense_loop_split p K _ HK _ _ _ _ S H Hj) as (n' & ck & cv & ks & Ho & Ec & El & Hlen).
  exists (List.length pre), m, n'. split; [rewrite Ens, nth_error_app2, Nat.sub_diag by lia; reflexivity|].
  split; [exact Ho|].
  assert (Ck : exists mm, ck = map (map fst) (map (fun n => kv t (hn_Tags n)) pre) ++ map fst P :: mm).
  { unfold K in Ec. rewrite Ens, map_app, dense_array_app in Ec. rewrite kv_cache_pre in Ec by exact TPre.
    cbn [map dense_array app] in Ec. rewrite EP, flat_app_ in Ec. destruct y as [y1 y2]. unfold f in Fy. cbn [fst] in Fy.
    apply Z.eqb_eq in Fy. subst y1. cbn [flat] in Ec. rewrite <- app_assoc in Ec. cbn [app] in Ec.
    rewrite kv_cache_flat in Ec by exact TP. apply kv_cache_more with (n := List.length (y2 :: flat Q ++ 0 :: dense_array (map (fun n => kv t (hn_Tags n)) post))) in Ec; [|lia].
    destruct Ec as [mm ->]. exists mm. rewrite <- app_assoc. reflexivity. }
  destruct Ck as [mm ->].
  assert (Ek : ks = map fst P).
  { pose proof (lidx_app (map (map fst) (map (fun n => kv t (hn_Tags n)) pre)) (map fst P) mm) as L.
    unfold zlen in L. rewrite !map_length in L. rewrite L in El. congruence. }
  subst ks. rewrite map_length in Hlen.
  assert (M : is_map (hn_Tags m)).
  { assert (HmI : In m ns) by (rewrite Ens; apply in_app_iff; right; left; reflexivity).
    eapply Forall_forall in T; [|exact HmI]. apply T. }
  rewrite <- (kv_len t _ M), EP, app_length. cbn [List.length]. lia.
Qed.

Lemma ToNodes_bad ns ws rs n k v : zlen (all_strings ns ws rs) < 2^31 -> Forall node_typed ns ->
  In n ns -> In (k, v) (hn_Tags n) -> first_string (all_strings ns ws rs) k ->
  forall out, ToNodes (block_of ns ws rs) = Ok out ->
  exists j n n', nth_error ns j = Some n /\ nth_error out j = Some n' /\ (List.length (hn_Tags n') < List.length (hn_Tags n))%nat.
Proof.
  intros Hl T Hn Hkv Hf out H. pose proof (strings_in_table ns ws rs) as (S1 & S2 & S3).
  pose proof (table_len (all_strings ns ws rs)) as Tl. apply table_first in Hf as [r Er].
  rewrite ToNodes_foldm in H.
  destruct (dense_loop (block_of ns ws rs) (dense_of (table (all_strings ns ws rs)) ns)
    (indexes (dn_Id (dense_of (table (all_strings ns ws rs)) ns)))) as [o| |] eqn:Ed.
  - unfold block_of at 2 in H. cbn [pblk_PrimitiveGroup] in H.
    rewrite (groups_foldm (fun g => match pg_Dense g with None => Ok [] | Some d => dense_loop (block_of ns ws rs) d (indexes (dn_Id d)) end)
      ns ws rs _ _ _ o [] []) in H; try reflexivity; [|exact Ed|intros ->; destruct Hn].
    cbn [app] in H. rewrite app_nil_r in H. injection H as <-.
    eapply dense_bad; eauto. lia.
  - exfalso. unfold block_of at 2 in H. cbn [pblk_PrimitiveGroup] in H. destruct ns as [|n0 ns]; [destruct Hn|].
    cbn [one app foldm pg_Dense] in H. rewrite Ed in H. discriminate.
  - exfalso. unfold block_of at 2 in H. cbn [pblk_PrimitiveGroup] in H. destruct ns as [|n0 ns]; [destruct Hn|].
    cbn [one app foldm pg_Dense] in H. rewrite Ed in H. discriminate.
Qed.
