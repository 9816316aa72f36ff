(** * HLThms: proofs of the string table and entity round-trip properties (C23-C29). *)
From Verif Require Import Base BaseLemmas PbModel PbSpec PbProofs PbProofs2 TModel TSpec TProofs TMsg TMsg2 HLModel HLSpec HLProofs HLProofs2 HLProofs3 TThms.

(** C23.  Strings [L] are added in order, then the builder is finalised; fewer than
    2^32-1 additions.  Every added string and the empty string has exactly one index,
    the table entry at that index is the string, distinct strings have distinct
    indexes, the table holds nothing else and no string twice, and any other string
    panics. *)
Lemma pC23_index_bijection : forall L, zlen L < 2^32 - 1 ->
  exists stb, (stb <- foldm AddString L NewStringTableBuilder ;; Finalize stb) = Ok stb /\
    let t := ToStringTable stb in
    NoDup t /\ (forall s, In s t <-> In s ([] :: L)) /\
    (forall s, In s ([] :: L) -> exists i, GetIndex stb s = Ok i /\ 0 <= i < zlen t /\
       (forall j, lidx t j = Ok s <-> j = i)) /\
    (forall s s' i, GetIndex stb s = Ok i -> GetIndex stb s' = Ok i -> s = s') /\
    (forall s, ~ In s ([] :: L) -> exists m, GetIndex stb s = Panic m).
Proof.
  intros L Hl. destruct (built L) as (stb & E & F). exists stb. split; [exact E|].
  pose proof F as [Fl Fi]. unfold ToStringTable. rewrite Fl. cbn zeta.
  pose proof (table_len L) as Tl. pose proof (table_nodup L) as ND.
  assert (Hin : forall s, In s (table L) <-> In s ([] :: L)).
  { intros s. rewrite table_in. cbn. intuition. }
  assert (Hidx : forall s, In s (table L) -> idx (table L) s = Z.of_nat (posn (table L) s)).
  { intros s Hs. pose proof (posn_lt _ _ Hs). unfold idx. apply u32_id. unfold is_u32, zlen in *. lia. }
  assert (Hex : forall s, In s (table L) -> GetIndex stb s = Ok (idx (table L) s)).
  { intros s Hs. rewrite Fi. destruct (in_dec _ s (table L)); [reflexivity|tauto]. }
  split; [exact ND|]. split; [exact Hin|]. split; [|split].
  - intros s Hs. apply Hin in Hs. exists (idx (table L) s). split; [apply Hex, Hs|].
    rewrite Hidx by assumption. pose proof (posn_lt _ _ Hs). split; [unfold zlen; lia|].
    intros j. split.
    + unfold lidx. destruct ((0 <=? j) && (j <? zlen (table L))) eqn:Eb; [|discriminate].
      destruct (nth_error (table L) (Z.to_nat j)) as [x|] eqn:En; [|discriminate]. intros Ex. injection Ex as ->.
      rewrite <- (posn_nth (table L) s Hs) in En. apply NoDup_nth_error in En; [lia|exact ND|].
      apply andb_prop in Eb as [B1 B2]. unfold zlen in B2. lia.
    + intros ->. apply lidx_nth, posn_nth, Hs.
  - intros s s' i H1 H2. rewrite Fi in H1. rewrite Fi in H2.
    destruct (in_dec _ s (table L)) as [I1|]; [|discriminate]. destruct (in_dec _ s' (table L)) as [I2|]; [|discriminate].
    injection H1 as <-. injection H2 as H2. rewrite !Hidx in H2 by assumption.
    pose proof (posn_nth _ _ I1) as P1. pose proof (posn_nth _ _ I2) as P2.
    apply Nat2Z.inj in H2. rewrite H2, P1 in P2. congruence.
  - intros s Hs. rewrite Fi. destruct (in_dec _ s (table L)) as [I|]; [|eexists; reflexivity].
    exfalso. apply Hs, Hin, I.
Qed.
Lemma pC23_ex :
  exists stb, (stb <- foldm AddString [[98]; [97]; [98]; []] NewStringTableBuilder ;; Finalize stb) = Ok stb /\
    ToStringTable stb = [[98]; [97]; []] /\ GetIndex stb [98] = Ok 0 /\ GetIndex stb [] = Ok 2 /\
    GetIndex stb [99] = Panic (PanicMsg "unknown string").
Proof. eexists. split; [vm_compute; reflexivity|]. vm_compute. auto. Qed.

(** C24, what the order is, for all additions: by decreasing weight, ties by bytes,
    where the weight is the number of additions, plus 2^32-1 for the empty string,
    modulo 2^32; and there is only one list of the table's strings in this order, so
    the sorting algorithm does not matter. *)
Lemma pC24_order : forall L,
  exists stb, (stb <- foldm AddString L NewStringTableBuilder ;; Finalize stb) = Ok stb /\
    StronglySorted (heavier L) (ToStringTable stb) /\
    forall l, Permutation l (ToStringTable stb) -> StronglySorted (heavier L) l -> l = ToStringTable stb.
Proof.
  intros L. destruct (built L) as (stb & E & [Fl _]). exists stb. split; [exact E|].
  unfold ToStringTable. rewrite Fl.
  pose proof (freq_less_sto (weight L)) as STO. change (sto (wless L)) in STO.
  pose proof (heavier_wless L) as Hv. pose proof (table_heavier L) as Hs.
  split; [exact Hs|].
  intros l P Hl. apply (sorted_unique (wless L)); [exact STO| | |exact P].
  - clear -Hl Hv STO. induction Hl as [|a l S IH Hf]; constructor; [auto|].
    eapply Forall_impl; [|exact Hf]. intros b Hb. apply Hv in Hb. apply sto_asym; assumption.
  - apply isort_sorted, STO.
Qed.

(** C24 as stated holds when the empty string is never added explicitly: the empty
    string first, then by decreasing number of additions, ties by bytes. *)
Lemma pC24_frequency_order_partial : forall L, ~ In [] L -> zlen L < 2^32 - 1 ->
  exists stb r, (stb <- foldm AddString L NewStringTableBuilder ;; Finalize stb) = Ok stb /\
    ToStringTable stb = [] :: r /\
    StronglySorted (fun a b => occurrences L b < occurrences L a \/
                               occurrences L a = occurrences L b /\ bytes_lt a b) r.
Proof.
  intros L Hn Hl. destruct (pC24_order L) as (stb & E & Hs & _).
  destruct (built L) as (stb' & E' & [Fl _]). rewrite E in E'. injection E' as <-.
  destruct (wless_empty_first L Hn ltac:(lia)) as [r Hr].
  exists stb, r. split; [exact E|]. unfold ToStringTable in *. rewrite Fl in *. split; [exact Hr|].
  pose proof (table_nodup L) as ND. rewrite Hr in Hs, ND. apply StronglySorted_inv in Hs as [Hs _].
  apply NoDup_cons_iff in ND as [Hne _].
  clear -Hs Hne Hl. induction Hs as [|a r Hs IH Hf]; [constructor|].
  constructor; [apply IH; intros X; apply Hne; right; exact X|].
  apply Forall_forall. intros b Hb. eapply Forall_forall in Hf; [|exact Hb].
  unfold heavier in Hf. cbn zeta in Hf.
  destruct a as [|a0 a]; [exfalso; apply Hne; left; reflexivity|].
  destruct b as [|b0 b]; [exfalso; apply Hne; right; exact Hb|].
  pose proof (occ_le L (a0 :: a)). pose proof (occ_le L (b0 :: b)).
  pose proof (occ_nonneg L (a0 :: a)). pose proof (occ_nonneg L (b0 :: b)).
  rewrite !Z.add_0_l, !Z.mod_small in Hf by lia. exact Hf.
Qed.
Lemma pC24_partial_ex :
  let L := [[98]; [97]; [99; 1]; [98]; [97]] in ~ In [] L /\
  exists stb, (stb <- foldm AddString L NewStringTableBuilder ;; Finalize stb) = Ok stb /\
    ToStringTable stb = [[]; [97]; [98]; [99; 1]].
Proof.
  split; [cbn; intuition discriminate|]. eexists. split; [vm_compute; reflexivity|]. reflexivity.
Qed.
(** C24 fails when the empty string is added: its counter wraps around from 2^32-1 to
    0 and it is sorted last although it was added most often. *)
Lemma pC24_frequency_order_refuted :
  exists L stb, (stb <- foldm AddString L NewStringTableBuilder ;; Finalize stb) = Ok stb /\
    occurrences L [] = 1 /\ occurrences L [97] = 1 /\ ToStringTable stb = [[97]; []].
Proof. exists [[97]; []]. eexists. split; [vm_compute; reflexivity|]. vm_compute. auto. Qed.

(** C25.  Two lists of entities that differ only in the iteration order of their tag
    maps give the same block. *)
Lemma pC25_order_independent : forall ns ws rs ns' ws' rs',
  Forall (fun n => is_map (hn_Tags n)) ns -> Forall (fun w => is_map (hw_Tags w)) ws ->
  Forall (fun r => is_map (hr_Tags r)) rs ->
  Forall2 same_node ns ns' -> Forall2 same_way ws ws' -> Forall2 same_rel rs rs' ->
  MakePrimitiveBlock ns' ws' rs' = MakePrimitiveBlock ns ws rs.
Proof.
  intros ns ws rs ns' ws' rs' Mn Mw Mr Sn Sw Sr.
  assert (Mn' : Forall (fun n => is_map (hn_Tags n)) ns').
  { induction Sn as [|a b la lb (_ & P & _) Sn IH]; [constructor|]. apply Forall_cons_iff in Mn as [M Mn].
    constructor; [|auto]. eapply Permutation_NoDup; [apply Permutation_map; exact P|exact M]. }
  assert (Mw' : Forall (fun n => is_map (hw_Tags n)) ws').
  { induction Sw as [|a b la lb (_ & P & _) Sw IH]; [constructor|]. apply Forall_cons_iff in Mw as [M Mw].
    constructor; [|auto]. eapply Permutation_NoDup; [apply Permutation_map; exact P|exact M]. }
  assert (Mr' : Forall (fun n => is_map (hr_Tags n)) rs').
  { induction Sr as [|a b la lb (_ & P & _) Sr IH]; [constructor|]. apply Forall_cons_iff in Mr as [M Mr].
    constructor; [|auto]. eapply Permutation_NoDup; [apply Permutation_map; exact P|exact M]. }
  rewrite !MakePrimitiveBlock_ok by assumption. f_equal.
  assert (TS : forall m m', Permutation m m' -> Permutation (tag_strings m) (tag_strings m')).
  { intros m m' P. unfold tag_strings. apply Permutation_flat_map, P. }
  assert (PL : Permutation (all_strings ns ws rs) (all_strings ns' ws' rs')).
  { unfold all_strings. repeat apply Permutation_app.
    - clear -Sn TS. induction Sn as [|a b la lb (_ & P & _) Sn IH]; cbn [flat_map]; [reflexivity|].
      apply Permutation_app; [apply TS, P|exact IH].
    - clear -Sw TS. induction Sw as [|a b la lb (_ & P & _) Sw IH]; cbn [flat_map]; [reflexivity|].
      apply Permutation_app; [apply TS, P|exact IH].
    - clear -Sr TS. induction Sr as [|a b la lb (_ & P & R & _) Sr IH]; cbn [flat_map]; [reflexivity|].
      apply Permutation_app; [|exact IH]. rewrite R. apply Permutation_app_tail, TS, P. }
  assert (KV : forall t m m', is_map m -> Permutation m m' -> kv t m' = kv t m).
  { intros t m m' M P. unfold kv. rewrite (sorted_tags_same m m' M P). reflexivity. }
  unfold block_of. rewrite (table_perm _ _ PL). generalize (table (all_strings ns' ws' rs')). intros t.
  assert (D : dense_of t ns' = dense_of t ns).
  { assert (D : map (kvs32 t) ns' = map (kvs32 t) ns /\ map (fun n => s64 (hn_Id n)) ns' = map (fun n => s64 (hn_Id n)) ns /\
      map (fun n => Z.quot (hn_Lat n) 100) ns' = map (fun n => Z.quot (hn_Lat n) 100) ns /\
      map (fun n => Z.quot (hn_Lon n) 100) ns' = map (fun n => Z.quot (hn_Lon n) 100) ns).
    { clear -Sn Mn KV. induction Sn as [|a b la lb (I & P & La & Lo) Sn IH]; [auto|].
      apply Forall_cons_iff in Mn as [M Mn]. destruct (IH Mn) as (I1 & I2 & I3 & I4). cbn [map].
      assert (Q : kvs32 t b = kvs32 t a) by (unfold kvs32; rewrite (KV t _ _ M P); reflexivity).
      rewrite Q, I1, I2, I3, I4, I, La, Lo. auto. }
    assert (Zl : zlen ns' = zlen ns).
    { clear -Sn. induction Sn as [|a b la lb _ Sn IH]; [reflexivity|]. rewrite !zlen_cons, IH. reflexivity. }
    destruct D as (D1 & D2 & D3 & D4). unfold dense_of. rewrite D1, D2, D3, D4, Zl. reflexivity. }
  assert (W : map (way_of t) ws' = map (way_of t) ws).
  { clear -Sw Mw KV. induction Sw as [|a b la lb (I & P & N) Sw IH]; [reflexivity|].
    apply Forall_cons_iff in Mw as [M Mw]. cbn [map]. rewrite (IH Mw). f_equal.
    unfold way_of. rewrite (KV t _ _ M P), I, N. reflexivity. }
  assert (R : map (rel_of t) rs' = map (rel_of t) rs).
  { clear -Sr Mr KV. induction Sr as [|a b la lb (I & P & N & N2 & N3) Sr IH]; [reflexivity|].
    apply Forall_cons_iff in Mr as [M Mr]. cbn [map]. rewrite (IH Mr). f_equal.
    unfold rel_of. rewrite (KV t _ _ M P), I, N, N2, N3. reflexivity. }
  rewrite D, W, R.
  destruct Sn; destruct Sw; destruct Sr; reflexivity.
Qed.

Definition ex_node := mkNode (2^63 + 5) [([97], [98]); ([99], [98])] 1234567 (-1299).
Definition ex_node2 := mkNode 7 [] (-2^63) 300.
Definition ex_hway := mkHWay (-3) [([100], []); ([97], [98])] [5; 2^64 - 1].
Definition ex_hrel := mkHRel 8 [([100], [101])] [[]; [120]; [97]] [1; -2; 3] [0; 2; 1].
Definition ex_hrel' := mkHRel 8 [([100], [101])] [[121]; [120]; [97]] [1; -2; 3] [0; 2; 1].
Definition ex_hway' := mkHWay (-3) [([100], [101]); ([97], [98])] [5; 2^64 - 1].
Ltac typed_tac :=
  repeat match goal with
  | |- _ /\ _ => split
  | |- Forall _ [] => constructor
  | |- Forall _ (_ :: _) => constructor
  | |- is_map _ => unfold is_map; cbn [map fst]
  | |- NoDup [] => constructor
  | |- NoDup (_ :: _) => constructor; [cbn [In]; intuition discriminate|]
  | |- bytes _ => unfold bytes; cbn [fst snd]
  | |- NoDup (map _ _) => progress cbn [map fst]
  | |- _ => progress cbn [hn_Id hn_Tags hn_Lat hn_Lon hw_Id hw_Tags hw_Nodes hr_Id hr_Tags hr_Roles hr_Members hr_MemberType]
  end; try (unfold is_u64, is_s64, is_u8; cbn; lia).
Lemma ex_typed : Forall node_typed [ex_node; ex_node2] /\ Forall hway_typed [ex_hway] /\ Forall hrel_typed [ex_hrel] /\
  Forall hway_typed [ex_hway'] /\ Forall hrel_typed [ex_hrel'].
Proof.
  unfold node_typed, hway_typed, hrel_typed, tags_typed, ex_node, ex_node2, ex_hway, ex_hrel, ex_hway', ex_hrel'.
  cbn [hn_Id hn_Tags hn_Lat hn_Lon hw_Id hw_Tags hw_Nodes hr_Id hr_Tags hr_Roles hr_Members hr_MemberType].
  typed_tac.
Qed.
Lemma pC25_ex :
  Forall (fun n => is_map (hn_Tags n)) [ex_node; ex_node2] /\
  Forall2 same_node [ex_node; ex_node2] [mkNode (2^63 + 5) [([99], [98]); ([97], [98])] 1234567 (-1299); ex_node2] /\
  exists p, MakePrimitiveBlock [ex_node; ex_node2] [ex_hway] [ex_hrel] = Ok p /\
            MakePrimitiveBlock [mkNode (2^63 + 5) [([99], [98]); ([97], [98])] 1234567 (-1299); ex_node2] [ex_hway] [ex_hrel] = Ok p.
Proof.
  split; [destruct ex_typed as (T & _); eapply Forall_impl; [|exact T]; intros a (_ & (M & _) & _); exact M|].
  split.
  - repeat apply Forall2_cons; [| |apply Forall2_nil]; unfold same_node, ex_node, ex_node2; cbn;
      repeat split; auto using perm_swap.
  - eexists. split; [vm_compute; reflexivity|]. vm_compute. reflexivity.
Qed.

Lemma same_ways ws : Forall hway_typed ws -> Forall2 same_way ws (map back_way ws).
Proof.
  induction 1 as [|w ws (T1 & (T2 & _) & T3) H IH]; constructor; [|exact IH].
  unfold same_way, back_way. cbn. auto using sorted_tags_perm.
Qed.
Lemma same_rels rs : Forall hrel_typed rs -> Forall2 same_rel rs (map back_rel rs).
Proof.
  induction 1 as [|w ws (T1 & (T2 & _) & T3) H IH]; constructor; [|exact IH].
  unfold same_rel, back_rel. cbn. auto using sorted_tags_perm.
Qed.
Lemma quant_nodes ns : Forall node_typed ns -> Forall2 quantised_node ns (map back_node ns).
Proof.
  induction 1 as [|n ns (T1 & (T2 & _) & T3 & T4) H IH]; constructor; [|exact IH].
  unfold quantised_node, back_node. cbn. destruct (quot100 _ T3), (quot100 _ T4). auto using sorted_tags_perm.
Qed.
Lemma maps_of ns ws rs : Forall node_typed ns -> Forall hway_typed ws -> Forall hrel_typed rs ->
  MakePrimitiveBlock ns ws rs = Ok (block_of ns ws rs).
Proof.
  intros Tn Tw Tr. apply MakePrimitiveBlock_ok; [eapply Forall_impl; [|exact Tn]|eapply Forall_impl; [|exact Tw]|eapply Forall_impl; [|exact Tr]];
    cbn; intros a (_ & (M & _) & _); exact M.
Qed.

(** C26. *)
Lemma pC26_ways_relations : forall ns ws rs,
  Forall node_typed ns -> Forall hway_typed ws -> Forall hrel_typed rs ->
  zlen (all_strings ns ws rs) < 2^31 ->
  exists p, MakePrimitiveBlock ns ws rs = Ok p /\
    exists ws' rs', ToWays p = Ok ws' /\ ToRelations p = Ok rs' /\
      Forall2 same_way ws ws' /\ Forall2 same_rel rs rs'.
Proof.
  intros ns ws rs Tn Tw Tr Hl. eexists. split; [apply maps_of; assumption|].
  exists (map back_way ws), (map back_rel rs).
  split; [apply ToWays_block; assumption|]. split; [apply ToRelations_block; assumption|].
  split; [apply same_ways, Tw|apply same_rels, Tr].
Qed.
Lemma pC26_ex :
  Forall node_typed [ex_node; ex_node2] /\ Forall hway_typed [ex_hway] /\ Forall hrel_typed [ex_hrel] /\
  exists p, MakePrimitiveBlock [ex_node; ex_node2] [ex_hway] [ex_hrel] = Ok p /\
    ToWays p = Ok [mkHWay (-3) [([97], [98]); ([100], [])] [5; 2^64 - 1]] /\ ToRelations p = Ok [ex_hrel].
Proof.
  destruct ex_typed as (T1 & T2 & T3 & _). split; [exact T1|]. split; [exact T2|]. split; [exact T3|].
  eexists. split; [vm_compute; reflexivity|]. split; vm_compute; reflexivity.
Qed.

(** C27, exactly: the nodes come back as they should if and only if no node has a tag
    whose key is the string the block's table puts first.  (The first string has index 0,
    which in the nodes' key/value list means "next node".) *)
Lemma pC27_nodes_exact : forall ns ws rs,
  Forall node_typed ns -> Forall hway_typed ws -> Forall hrel_typed rs ->
  zlen (all_strings ns ws rs) < 2^31 ->
  exists p, MakePrimitiveBlock ns ws rs = Ok p /\
    ((exists ns', ToNodes p = Ok ns' /\ Forall2 quantised_node ns ns') <-> first_key_free ns ws rs).
Proof.
  intros ns ws rs Tn Tw Tr Hl. eexists. split; [apply maps_of; assumption|]. split.
  - intros (ns' & E & F) n k v Hn Hkv Hf.
    destruct (ToNodes_bad ns ws rs n k v Hl Tn Hn Hkv Hf ns' E) as (j & m & m' & J1 & J2 & J3).
    assert (Q : quantised_node m m').
    { revert j J1 J2. clear -F. induction F as [|a b l l' Hab F IH]; intros [|j] J1 J2; cbn in *; try discriminate; [|eauto].
      injection J1 as <-. injection J2 as <-. exact Hab. }
    destruct Q as (_ & P & _). apply Permutation_length in P. lia.
  - intros FK. exists (map back_node ns). split; [apply ToNodes_block; assumption|apply quant_nodes, Tn].
Qed.
(** C27, in particular when no tag key, tag value or role of the block is the empty
    string: then the empty string is the first. *)
Lemma pC27_nodes_partial : forall ns ws rs,
  Forall node_typed ns -> Forall hway_typed ws -> Forall hrel_typed rs ->
  zlen (all_strings ns ws rs) < 2^31 -> ~ In [] (all_strings ns ws rs) ->
  exists p, MakePrimitiveBlock ns ws rs = Ok p /\
    exists ns', ToNodes p = Ok ns' /\ Forall2 quantised_node ns ns'.
Proof.
  intros ns ws rs Tn Tw Tr Hl NE. destruct (pC27_nodes_exact ns ws rs Tn Tw Tr Hl) as (p & Hp & E).
  exists p. split; [exact Hp|]. apply E, no_empty_free; [exact NE|lia].
Qed.
Lemma pC27_partial_ex :
  let ns := [ex_node; ex_node2] in let ws := [ex_hway'] in let rs := [ex_hrel'] in
  Forall node_typed ns /\ Forall hway_typed ws /\ Forall hrel_typed rs /\ ~ In [] (all_strings ns ws rs) /\
  exists p, MakePrimitiveBlock ns ws rs = Ok p /\
    ToNodes p = Ok [mkNode (2^63 + 5) [([97], [98]); ([99], [98])] 1234500 (-1200);
                    mkNode 7 [] (-2^63 + 8) 300].
Proof.
  cbn zeta. destruct ex_typed as (T1 & _ & _ & T2 & T3). split; [exact T1|]. split; [exact T2|]. split; [exact T3|].
  split; [vm_compute; intuition discriminate|].
  eexists. split; [vm_compute; reflexivity|]. vm_compute. reflexivity.
Qed.
(** An empty role, and still no tag is lost: the first string is a value. *)
Lemma pC27_exact_ex :
  let ns := [mkNode 5 [([97], [98])] 100 0; mkNode 6 [([99], [98])] 200 0] in let rs := [mkHRel 8 [] [[]] [5] [0]] in
  Forall node_typed ns /\ Forall hrel_typed rs /\ In [] (all_strings ns [] rs) /\
  first_string (all_strings ns [] rs) [98] /\ first_key_free ns [] rs /\
  exists p, MakePrimitiveBlock ns [] rs = Ok p /\ ToNodes p = Ok ns.
Proof.
  cbn zeta.
  assert (F : first_string (all_strings [mkNode 5 [([97], [98])] 100 0; mkNode 6 [([99], [98])] 200 0] [] [mkHRel 8 [] [[]] [5] [0]]) [98]).
  { apply table_first. eexists. vm_compute. reflexivity. }
  split; [|split; [|split; [|split; [|split]]]].
  - unfold node_typed, tags_typed. typed_tac.
  - unfold hrel_typed, tags_typed. typed_tac.
  - vm_compute. tauto.
  - exact F.
  - intros n k v Hn Hkv Hf. apply table_first in F as [r F]. apply table_first in Hf as [r' Hf]. rewrite F in Hf.
    destruct Hn as [<-|[<-|[]]]; cbn in Hkv; destruct Hkv as [Hkv|[]]; injection Hkv as <- <-; discriminate Hf.
  - eexists. split; [vm_compute; reflexivity|]. vm_compute. reflexivity.
Qed.
(** C27 fails when an empty string occurs anywhere in the block: here one relation has
    an empty role (a common case) and the node loses its only tag. *)
Lemma pC27_nodes_refuted :
  exists ns rs, Forall node_typed ns /\ Forall hrel_typed rs /\ zlen (all_strings ns [] rs) < 2^31 /\
  exists p ns', MakePrimitiveBlock ns [] rs = Ok p /\ ToNodes p = Ok ns' /\ map hn_Tags ns = [[([97], [98])]] /\
    map hn_Tags ns' = [[]].
Proof.
  exists [mkNode 5 [([97], [98])] 0 0], [mkHRel 8 [([97], [97])] [[]] [5] [0]].
  split; [|split; [|split]].
  - unfold node_typed, tags_typed. cbn [hn_Id hn_Tags hn_Lat hn_Lon]. typed_tac.
  - unfold hrel_typed, tags_typed. cbn [hr_Id hr_Tags hr_Roles hr_Members hr_MemberType]. typed_tac.
  - vm_compute. reflexivity.
  - do 2 eexists. split; [vm_compute; reflexivity|]. split; [vm_compute; reflexivity|]. split; reflexivity.
Qed.

(** C28.  For every int64 coordinates, the node comes back with each coordinate moved
    towards zero by less than 100, to a multiple of 100; a multiple of 100 comes back
    unchanged. *)
Lemma pC28_quantisation : forall id lat lon, is_u64 id -> is_s64 lat -> is_s64 lon ->
  exists p lat' lon', MakePrimitiveBlock [mkNode id [] lat lon] [] [] = Ok p /\
    ToNodes p = Ok [mkNode id [] lat' lon'] /\
    toward_zero_100 lat lat' /\ toward_zero_100 lon lon' /\
    ((exists k, lat = 100 * k) -> lat' = lat) /\ ((exists k, lon = 100 * k) -> lon' = lon).
Proof.
  intros id lat lon Hi Ha Ho.
  assert (T : Forall node_typed [mkNode id [] lat lon]).
  { repeat constructor; try apply Hi; try apply Ha; try apply Ho. }
  eexists. exists (100 * Z.quot lat 100), (100 * Z.quot lon 100).
  split; [apply maps_of; [exact T|constructor|constructor]|].
  split; [rewrite ToNodes_block; [reflexivity|vm_compute; reflexivity|exact T|apply no_empty_free; [intros []|vm_compute; reflexivity]]|].
  split; [apply quot100, Ha|]. split; [apply quot100, Ho|].
  assert (Q : forall x, (exists k, x = 100 * k) -> 100 * Z.quot x 100 = x).
  { intros x [k ->]. rewrite (Z.mul_comm 100 k), Z.quot_mul by lia. lia. }
  split; apply Q.
Qed.
Lemma pC28_ex :
  exists p, MakePrimitiveBlock [mkNode 1 [] (-199) 1700000000] [] [] = Ok p /\
    ToNodes p = Ok [mkNode 1 [] (-100) 1700000000].
Proof. eexists. split; [vm_compute; reflexivity|]. vm_compute. reflexivity. Qed.

(** ** C29 *)
Lemma table_bytes L : Forall bytes L -> Forall bytes (table L).
Proof.
  intros H. apply Forall_forall. intros s Hs. apply table_in in Hs as [->|Hs]; [constructor|].
  eapply Forall_forall in H; [exact H|exact Hs].
Qed.
Lemma tag_strings_bytes m : tags_typed m -> Forall bytes (tag_strings m).
Proof.
  intros [_ H]. unfold tag_strings. induction H as [|[k v] m [H1 H2] H IH]; cbn [flat_map fst snd app]; [constructor|].
  constructor; [exact H1|]. constructor; [exact H2|exact IH].
Qed.
Lemma all_strings_bytes ns ws rs : Forall node_typed ns -> Forall hway_typed ws -> Forall hrel_typed rs ->
  Forall bytes (all_strings ns ws rs).
Proof.
  intros Tn Tw Tr. unfold all_strings. rewrite !Forall_app. split; [|split].
  - induction Tn as [|n ns (_ & T & _) Tn IH]; cbn [flat_map]; [constructor|]. apply Forall_app. split; [apply tag_strings_bytes, T|exact IH].
  - induction Tw as [|n ws (_ & T & _) Tw IH]; cbn [flat_map]; [constructor|]. apply Forall_app. split; [apply tag_strings_bytes, T|exact IH].
  - induction Tr as [|n rs (_ & T & R & _) Tr IH]; cbn [flat_map]; [constructor|]. rewrite !Forall_app.
    split; [split; [apply tag_strings_bytes, T|exact R]|exact IH].
Qed.
Lemma is_s32_s32 x : is_s32 (s32 x).
Proof. unfold is_s32, s32. pose proof (Z.mod_pos_bound (x + 2^31) (2^32) ltac:(lia)). lia. Qed.
Lemma is_s64_s64 x : is_s64 (s64 x).
Proof. unfold is_s64, s64. pose proof (Z.mod_pos_bound (x + 2^63) (2^64) ltac:(lia)). lia. Qed.
Lemma is_u64_u64 x : is_u64 (u64 x).
Proof. unfold is_u64, u64. pose proof (Z.mod_pos_bound x (2^64) ltac:(lia)). lia. Qed.
Lemma is_u32_u32 x : is_u32 (u32 x).
Proof. unfold is_u32, u32. pose proof (Z.mod_pos_bound x (2^32) ltac:(lia)). lia. Qed.
Lemma quot_s64 x : is_s64 x -> is_s64 (Z.quot x 100).
Proof.
  unfold is_s64. intros H. pose proof (Z.quot_rem' x 100). destruct (Z.le_gt_cases 0 x).
  - pose proof (Z.rem_bound_pos x 100 ltac:(lia) ltac:(lia)). lia.
  - pose proof (Z.rem_bound_pos_neg x 100 ltac:(lia) ltac:(lia)). lia.
Qed.
Lemma dense_array_s32 t ns : Forall is_s32 (dense_array (map (kvs32 t) ns)).
Proof.
  induction ns as [|n ns IH]; cbn [map dense_array]; [constructor|]. apply Forall_app. split.
  - unfold kvs32. induction (kv t (hn_Tags n)) as [|e l IHl]; cbn [map flat]; [constructor|].
    constructor; [apply is_s32_s32|]. constructor; [apply is_s32_s32|exact IHl].
  - constructor; [unfold is_s32; lia|exact IH].
Qed.
Lemma kv_u32 t m : Forall is_u32 (map fst (kv t m)) /\ Forall is_u32 (map snd (kv t m)).
Proof.
  unfold kv. rewrite !map_map. split; apply Forall_map, Forall_forall; intros; cbn [fst snd]; apply is_u32_u32.
Qed.
Lemma way_of_typed t w : hway_typed w -> way_typed (way_of t w).
Proof.
  intros (T & _). unfold way_typed, way_of. cbn [way_ID way_Keys way_Vals way_Refs].
  split; [exact T|]. destruct (kv_u32 t (hw_Tags w)). split; [assumption|]. split; [assumption|].
  apply Forall_map, Forall_forall. intros. apply is_s64_s64.
Qed.
Lemma rel_of_typed t r : hrel_typed r -> relation_typed (rel_of t r).
Proof.
  intros (T & _ & _ & Tm & _). unfold relation_typed, rel_of.
  cbn [rel_ID rel_Keys rel_Vals rel_RolesSID rel_MemIDs rel_MemberType].
  split; [exact T|]. destruct (kv_u32 t (hr_Tags r)). split; [assumption|]. split; [assumption|].
  split; [apply Forall_map, Forall_forall; intros; apply is_s32_s32|]. split; [exact Tm|].
  apply Forall_map, Forall_forall. intros. apply is_u64_u64.
Qed.
Lemma dense_of_typed t ns : Forall node_typed ns -> dense_typed (dense_of t ns).
Proof.
  intros T. unfold dense_typed, dense_of. cbn [dn_Id dn_Lat dn_Lon dn_KeyVals].
  split; [apply Forall_map, Forall_forall; intros; apply is_s64_s64|].
  split; [|split].
  - apply Forall_map. eapply Forall_impl; [|exact T]. intros n (_ & _ & T1 & T2). apply quot_s64, T1.
  - apply Forall_map. eapply Forall_impl; [|exact T]. intros n (_ & _ & T1 & T2). apply quot_s64, T2.
  - destruct (_ =? _); [constructor|apply dense_array_s32].
Qed.
Lemma block_of_typed ns ws rs : Forall node_typed ns -> Forall hway_typed ws -> Forall hrel_typed rs ->
  block_typed (block_of ns ws rs).
Proof.
  intros Tn Tw Tr. pose proof (all_strings_bytes ns ws rs Tn Tw Tr) as B. unfold block_typed, block_of.
  set (t := table (all_strings ns ws rs)).
  cbn [pblk_StringTable pblk_StringTableRaw pblk_PrimitiveGroup pblk_Granularity pblk_DateGranularity pblk_LatOffset pblk_LonOffset].
  split; [intros st E; injection E as <-; apply table_bytes, B|].
  split; [discriminate|].
  split; [|unfold is_s32, is_s64; lia].
  rewrite !Forall_app. split; [|split].
  - destruct ns as [|n ns]; [constructor|]. cbn [one]. constructor; [|constructor].
    unfold group_typed. cbn [pg_Dense pg_RawDense pg_Ways pg_RawWays pg_Relations pg_RawRelations].
    split; [intros d E; injection E as <-; apply dense_of_typed, Tn|]. repeat split; try discriminate; constructor.
  - destruct ws as [|n ws]; [constructor|]. cbn [one]. constructor; [|constructor].
    unfold group_typed. cbn [pg_Dense pg_RawDense pg_Ways pg_RawWays pg_Relations pg_RawRelations].
    split; [discriminate|]. split; [discriminate|]. split; [|repeat split; try discriminate; constructor].
    intros l E. injection E as <-. change (Forall way_typed (map (way_of t) (n :: ws))).
    apply Forall_map. eapply Forall_impl; [|exact Tw]. intros a. apply way_of_typed.
  - destruct rs as [|n rs]; [constructor|]. cbn [one]. constructor; [|constructor].
    unfold group_typed. cbn [pg_Dense pg_RawDense pg_Ways pg_RawWays pg_Relations pg_RawRelations].
    split; [discriminate|]. split; [discriminate|]. split; [discriminate|]. split; [constructor|]. split; [|constructor].
    intros l E. injection E as <-. change (Forall relation_typed (map (rel_of t) (n :: rs))).
    apply Forall_map. eapply Forall_impl; [|exact Tr]. intros a. apply rel_of_typed.
Qed.
(** a reader that skips nothing, the zero value *)
Definition PBReader0 := mkReader false false false false.
Lemma block_of_form ns ws rs : block_form PBReader0 (block_of ns ws rs).
Proof.
  unfold block_form, block_of, group_form. cbn [SkipStringTable SkipDenseNodes SkipWays SkipRelations PBReader0 pblk_StringTableRaw pblk_PrimitiveGroup].
  split; [reflexivity|]. rewrite !Forall_app. split; [destruct ns|split; [destruct ws|destruct rs]]; cbn [one]; repeat constructor.
Qed.
Lemma block_of_norm ns ws rs : block_norm (block_of ns ws rs) = block_of ns ws rs.
Proof.
  unfold block_norm, block_of. cbn [pblk_StringTable pblk_StringTableRaw pblk_PrimitiveGroup pblk_Granularity pblk_DateGranularity pblk_LatOffset pblk_LonOffset].
  f_equal. rewrite !map_app. f_equal; [|f_equal].
  - destruct ns; reflexivity.
  - destruct ws; reflexivity.
  - destruct rs; reflexivity.
Qed.

(** the whole trip: entities to a block, the block's writer to a blob, the blob to
    bytes, and back through the readers *)
Lemma byte_trip ns ws rs buf out :
  Forall node_typed ns -> Forall hway_typed ws -> Forall hrel_typed rs ->
  Blob_Write (mkBlob None None None (Some (PrimitiveBlock_Write (block_of ns ws rs)))) buf = Ok out ->
  zlen out < 2^63 ->
  exists enc, out = buf ++ enc /\ forall e, exists b' raw,
    ReadBlob (mkslice enc e) Blob0 = Ok b' /\ blob_Raw b' = Some raw /\
    ReadPrimitiveBlock PBReader0 raw PrimitiveBlock0 = Ok (block_of ns ws rs).
Proof.
  intros Tn Tw Tr H Hl. set (p := block_of ns ws rs) in *.
  pose proof (block_of_typed ns ws rs Tn Tw Tr) as BT. fold p in BT.
  pose proof (PrimitiveBlock_Write_app p) as A.
  pose proof H as H'. apply (Blob_Write_func_app (mkBlob None None None (Some (PrimitiveBlock_Write p))) _ _ _ eq_refl A) in H' as [[F Hlt] _].
  assert (HP : PrimitiveBlock_Write p [] = Ok (block_enc p)).
  { apply (A [] ([] ++ block_enc p)). split; [exact F|reflexivity]. }
  pose proof (block_bytes p BT F) as Bb.
  pose proof (pC21_blob_writer_roundtrip (mkBlob None None None (Some (PrimitiveBlock_Write p))) p (block_enc p) buf out eq_refl HP Bb
    ltac:(discriminate) ltac:(constructor) H Hl) as (enc & -> & R).
  exists enc. split; [reflexivity|]. intros e. destruct (R e) as (b' & Rb & Rr & _).
  assert (Lp : 0 < zlen (block_enc p)).
  { unfold block_enc. rewrite zlen_app. unfold st_part, p, block_of. cbn [pblk_StringTable pblk_StringTableRaw].
    pose proof (zlen_nonneg (concat (map group_field (pblk_PrimitiveGroup p)) ++ opt_varint 100 primitiveBlockGranularity (pblk_Granularity p) ++ opt_varint 1000 primitiveBlockDateGranularity (pblk_DateGranularity p))).
    match goal with |- 0 < zlen ?x + zlen ?y => pose proof (zlen_nonneg y); assert (0 < zlen x); [|lia] end.
    unfold fixed_field. rewrite zlen_app. match goal with |- 0 < zlen ?x + zlen ?y => pose proof (zlen_nonneg y); assert (0 < zlen x); [vm_compute; reflexivity|lia] end. }
  destruct (blob_Raw b') as [raw|] eqn:Er; cbn [raw_bytes] in Rr; [|rewrite <- Rr in Lp; vm_compute in Lp; discriminate].
  exists b', raw. split; [exact Rb|]. split; [exact Er|].
  destruct raw as [v m]. cbn [vis] in Rr. subst v.
  rewrite (ReadPrimitiveBlock_enc PBReader0 p PrimitiveBlock0 m BT F (block_of_form ns ws rs)); try reflexivity.
  - unfold p. rewrite block_of_norm. reflexivity.
  - lia.
Qed.

(** A block that can be written has fewer than 2^31 strings. *)
Lemma ext_ge l : zlen l <= zlen (p_u64ext l).
Proof.
  unfold p_u64ext. etransitivity; [|apply vencs_len]; [unfold zlen; rewrite map_length; lia|]. apply Forall_map, Forall_forall. intros x _. apply u64_range.
Qed.
Lemma fixed_ge n id p : zlen p <= zlen (fixed_field n id p).
Proof. unfold fixed_field. rewrite !zlen_app. pose proof (zlen_nonneg (venc (MakeIdType id PbFixedBytes))). pose proof (zlen_nonneg (leb_fixed n (zlen p))). lia. Qed.
Lemma way_ge w : zlen (way_Keys w) + zlen (way_Vals w) <= zlen (way_field w).
Proof.
  etransitivity; [|apply fixed_ge]. unfold way_enc. rewrite !zlen_app. pose proof (fixed_ge 2 wayKeys (p_u64ext (way_Keys w))). pose proof (fixed_ge 2 wayVals (p_u64ext (way_Vals w))).
  pose proof (ext_ge (way_Keys w)). pose proof (ext_ge (way_Vals w)). pose proof (zlen_nonneg (venc (MakeIdType wayId PbVarInt))). pose proof (zlen_nonneg (venc (u64 (way_ID w)))). pose proof (zlen_nonneg (fixed_field 2 wayRefs (p_delta (way_Refs w)))). lia.
Qed.
Lemma rel_ge r : zlen (rel_Keys r) + zlen (rel_Vals r) + zlen (rel_RolesSID r) <= zlen (rel_field r).
Proof.
  etransitivity; [|apply fixed_ge]. unfold relation_enc. rewrite !zlen_app. pose proof (fixed_ge 2 relationKeys (p_u64ext (rel_Keys r))). pose proof (fixed_ge 2 relationVals (p_u64ext (rel_Vals r))). pose proof (fixed_ge 3 relationRolesSID (p_u64ext (rel_RolesSID r))).
  pose proof (ext_ge (rel_Keys r)). pose proof (ext_ge (rel_Vals r)). pose proof (ext_ge (rel_RolesSID r)). pose proof (zlen_nonneg (venc (MakeIdType relationId PbVarInt))). pose proof (zlen_nonneg (venc (u64 (rel_ID r)))).
  pose proof (zlen_nonneg (fixed_field 3 relationMemIDs (p_delta (rel_MemIDs r)))). pose proof (zlen_nonneg (fixed_field 3 relationMemberType (vencs (rel_MemberType r)))). lia.
Qed.
Lemma tag_strings_len m : zlen (tag_strings m) = 2 * zlen m.
Proof. unfold tag_strings. induction m as [|[k v] m IH]; [reflexivity|]. cbn [flat_map app]. rewrite !zlen_cons, IH. lia. Qed.
Lemma kv_zlen t m : is_map m -> zlen (kv t m) = zlen m.
Proof. intros H. unfold zlen. rewrite (kv_len t m H). reflexivity. Qed.
Lemma strings_small ns ws rs : Forall node_typed ns -> Forall hway_typed ws -> Forall hrel_typed rs ->
  block_fits (block_of ns ws rs) -> zlen (all_strings ns ws rs) < 2^31.
Proof.
  intros Tn Tw Tr (_ & F). unfold block_of in F. cbn [pblk_PrimitiveGroup] in F. set (t := table (all_strings ns ws rs)) in F. rewrite !Forall_app in F. destruct F as (Fn & Fw & Fr).
  clearbody t. unfold all_strings. rewrite !zlen_app.
  assert (N : zlen (flat_map (fun n => tag_strings (hn_Tags n)) ns) < 2^29).
  { assert (L : zlen (flat_map (fun n => tag_strings (hn_Tags n)) ns) = 2 * zlen (concat (map (kvs32 t) ns))).
    { clear -Tn. induction Tn as [|n ns (_ & (M & _) & _) Tn IH]; [reflexivity|]. cbn [flat_map map concat]. rewrite !zlen_app, IH, tag_strings_len.
      replace (zlen (kvs32 t n)) with (zlen (hn_Tags n)); [lia|]. unfold kvs32. rewrite <- (kv_zlen t _ M). unfold zlen. rewrite map_length. reflexivity. }
    rewrite L. destruct ns as [|n ns]; [reflexivity|]. cbn [one] in Fn. apply Forall_inv in Fn as [(Fd & _) _]. destruct (Fd _ eq_refl) as ((_ & _ & _ & K) & _).
    unfold dense_of in K. cbn [dn_KeyVals] in K. pose proof (dense_array_len (map (kvs32 t) (n :: ns))) as D. pose proof (zlen_nonneg (n :: ns)) as P.
    assert (zlen (map (kvs32 t) (n :: ns)) = zlen (n :: ns)) as Lm by (unfold zlen; rewrite map_length; reflexivity). rewrite Lm in D.
    destruct (Z.eqb_spec (zlen (dense_array (map (kvs32 t) (n :: ns)))) (zlen (n :: ns))) as [E|E]; [lia|].
    pose proof (ext_ge (dense_array (map (kvs32 t) (n :: ns)))) as G. destruct K as [K|K]; [rewrite K in D, E; change (zlen (@nil Z)) with 0 in D, E; lia|lia]. }
  assert (W : zlen (flat_map (fun w => tag_strings (hw_Tags w)) ws) < 2^28).
  { assert (G : zlen (flat_map (fun w => tag_strings (hw_Tags w)) ws) <= zlen (concat (map way_field (map (way_of t) ws)))).
    { clear -Tw. induction Tw as [|w ws (_ & (M & _) & _) Tw IH]; [vm_compute; discriminate|]. cbn [flat_map map concat]. rewrite !zlen_app, tag_strings_len.
      pose proof (way_ge (way_of t w)) as K. unfold way_of in K at 1 2. cbn [way_Keys way_Vals] in K. pose proof (kv_zlen t _ M) as K3. unfold zlen in K at 1 2. rewrite !map_length in K. unfold zlen in K3 at 1. lia. }
    destruct ws as [|w ws]; [reflexivity|]. cbn [one] in Fw. apply Forall_inv in Fw as [_ Fl]. unfold group_enc, dense_part, ways_part, rels_part in Fl. cbn [pg_Dense pg_RawDense pg_Ways pg_Relations pg_RawRelations] in Fl. rewrite !zlen_app in Fl. change (zlen []) with 0 in Fl.
    pose proof (zlen_nonneg (concat (map (id_buffer primitiveGroupRelations) []))). lia. }
  assert (R : zlen (flat_map (fun r => tag_strings (hr_Tags r) ++ hr_Roles r) rs) < 2^28).
  { assert (G : zlen (flat_map (fun r => tag_strings (hr_Tags r) ++ hr_Roles r) rs) <= zlen (concat (map rel_field (map (rel_of t) rs)))).
    { clear -Tr. induction Tr as [|w ws (_ & (M & _) & _) Tw IH]; [vm_compute; discriminate|]. cbn [flat_map map concat]. rewrite !zlen_app, tag_strings_len.
      pose proof (rel_ge (rel_of t w)) as K. unfold rel_of in K at 1 2 3. cbn [rel_Keys rel_Vals rel_RolesSID] in K. pose proof (kv_zlen t _ M) as K3. unfold zlen in K at 1 2 3. rewrite !map_length in K. fold (zlen (hr_Roles w)) in K. unfold zlen in K3 at 1. lia. }
    destruct rs as [|w ws']; [reflexivity|]. cbn [one] in Fr. apply Forall_inv in Fr as [_ Fl]. unfold group_enc, dense_part, ways_part, rels_part in Fl. cbn [pg_Dense pg_RawDense pg_Ways pg_RawWays pg_Relations pg_RawRelations] in Fl. rewrite !zlen_app in Fl. change (zlen []) with 0 in Fl.
    pose proof (zlen_nonneg (concat (map (id_buffer primitiveGroupWays) []))). lia. }
  lia.
Qed.
Lemma written_small ns ws rs buf out : Forall node_typed ns -> Forall hway_typed ws -> Forall hrel_typed rs ->
  Blob_Write (mkBlob None None None (Some (PrimitiveBlock_Write (block_of ns ws rs)))) buf = Ok out -> zlen (all_strings ns ws rs) < 2^31.
Proof.
  intros Tn Tw Tr H. apply (Blob_Write_func_app (mkBlob None None None (Some (PrimitiveBlock_Write (block_of ns ws rs)))) _ _ _ eq_refl (PrimitiveBlock_Write_app _)) in H as [[F _] _].
  apply strings_small; assumption.
Qed.

(** C29, ways and relations.  Whenever the block of the entities can be written as a
    blob appended to [buf] (the only failure is a section of 2^28 bytes or more), the
    bytes appended decode, whatever follows them in memory, to a blob whose raw data
    decodes to a block giving the same ways and relations. *)
Lemma pC29_rewrite_ways_relations : forall ns ws rs p buf out,
  Forall node_typed ns -> Forall hway_typed ws -> Forall hrel_typed rs ->
  MakePrimitiveBlock ns ws rs = Ok p ->
  Blob_Write (mkBlob None None None (Some (PrimitiveBlock_Write p))) buf = Ok out -> zlen out < 2^63 ->
  exists enc, out = buf ++ enc /\ forall e, exists b raw p' ws' rs',
    ReadBlob (mkslice enc e) Blob0 = Ok b /\ blob_Raw b = Some raw /\
    ReadPrimitiveBlock (mkReader false false false false) raw PrimitiveBlock0 = Ok p' /\
    ToWays p' = Ok ws' /\ ToRelations p' = Ok rs' /\
    Forall2 same_way ws ws' /\ Forall2 same_rel rs rs'.
Proof.
  intros ns ws rs p buf out Tn Tw Tr Hp H Hl. rewrite (maps_of ns ws rs Tn Tw Tr) in Hp. injection Hp as <-. pose proof (written_small ns ws rs buf out Tn Tw Tr H) as Hs.
  destruct (byte_trip ns ws rs buf out Tn Tw Tr H Hl) as (enc & -> & R). exists enc. split; [reflexivity|].
  intros e. destruct (R e) as (b & raw & R1 & R2 & R3).
  exists b, raw, (block_of ns ws rs), (map back_way ws), (map back_rel rs).
  split; [exact R1|]. split; [exact R2|]. split; [exact R3|].
  split; [apply ToWays_block; assumption|]. split; [apply ToRelations_block; assumption|].
  split; [apply same_ways, Tw|apply same_rels, Tr].
Qed.
(** C29, nodes: they come back through the bytes if and only if no node has a tag whose
    key is the string the block's table puts first (see C27_nodes_refuted). *)
Lemma pC29_rewrite_nodes_exact : forall ns ws rs p buf out,
  Forall node_typed ns -> Forall hway_typed ws -> Forall hrel_typed rs ->
  MakePrimitiveBlock ns ws rs = Ok p ->
  Blob_Write (mkBlob None None None (Some (PrimitiveBlock_Write p))) buf = Ok out -> zlen out < 2^63 ->
  exists enc, out = buf ++ enc /\ forall e, exists b raw p',
    ReadBlob (mkslice enc e) Blob0 = Ok b /\ blob_Raw b = Some raw /\
    ReadPrimitiveBlock (mkReader false false false false) raw PrimitiveBlock0 = Ok p' /\
    ((exists ns', ToNodes p' = Ok ns' /\ Forall2 quantised_node ns ns') <-> first_key_free ns ws rs).
Proof.
  intros ns ws rs p buf out Tn Tw Tr Hp H Hl.
  assert (Hs : zlen (all_strings ns ws rs) < 2^31) by (rewrite (maps_of ns ws rs Tn Tw Tr) in Hp; injection Hp as <-; exact (written_small ns ws rs buf out Tn Tw Tr H)).
  destruct (pC27_nodes_exact ns ws rs Tn Tw Tr Hs) as (q & Hq & Q). rewrite Hp in Hq. injection Hq as <-.
  rewrite (maps_of ns ws rs Tn Tw Tr) in Hp. injection Hp as <-.
  destruct (byte_trip ns ws rs buf out Tn Tw Tr H Hl) as (enc & -> & R). exists enc. split; [reflexivity|].
  intros e. destruct (R e) as (b & raw & R1 & R2 & R3).
  exists b, raw, (block_of ns ws rs). auto.
Qed.
(** C29, nodes, in particular when no tag key, tag value or role is the empty string. *)
Lemma pC29_rewrite_nodes_partial : forall ns ws rs p buf out,
  Forall node_typed ns -> Forall hway_typed ws -> Forall hrel_typed rs ->
  ~ In [] (all_strings ns ws rs) ->
  MakePrimitiveBlock ns ws rs = Ok p ->
  Blob_Write (mkBlob None None None (Some (PrimitiveBlock_Write p))) buf = Ok out -> zlen out < 2^63 ->
  exists enc, out = buf ++ enc /\ forall e, exists b raw p' ns',
    ReadBlob (mkslice enc e) Blob0 = Ok b /\ blob_Raw b = Some raw /\
    ReadPrimitiveBlock (mkReader false false false false) raw PrimitiveBlock0 = Ok p' /\
    ToNodes p' = Ok ns' /\ Forall2 quantised_node ns ns'.
Proof.
  intros ns ws rs p buf out Tn Tw Tr NE Hp H Hl.
  assert (Hs : zlen (all_strings ns ws rs) < 2^31) by (rewrite (maps_of ns ws rs Tn Tw Tr) in Hp; injection Hp as <-; exact (written_small ns ws rs buf out Tn Tw Tr H)).
  destruct (pC29_rewrite_nodes_exact ns ws rs p buf out Tn Tw Tr Hp H Hl) as (enc & E1 & E2).
  exists enc. split; [exact E1|]. intros e. destruct (E2 e) as (b & raw & p' & H1 & H2 & H3 & H4).
  destruct (proj2 H4) as (ns' & H5 & H6); [apply no_empty_free; [exact NE|lia]|]. exists b, raw, p', ns'. auto.
Qed.
Lemma pC29_ex :
  let ns := [ex_node; ex_node2] in let ws := [ex_hway'] in let rs := [ex_hrel'] in
  Forall node_typed ns /\ Forall hway_typed ws /\ Forall hrel_typed rs /\ ~ In [] (all_strings ns ws rs) /\
  exists p out b raw, MakePrimitiveBlock ns ws rs = Ok p /\
    Blob_Write (mkBlob None None None (Some (PrimitiveBlock_Write p))) [] = Ok out /\
    ReadBlob (mkslice out [7; 7]) Blob0 = Ok b /\ blob_Raw b = Some raw /\
    ReadPrimitiveBlock (mkReader false false false false) raw PrimitiveBlock0 = Ok p.
Proof.
  cbn zeta. destruct ex_typed as (T1 & _ & _ & T2 & T3). split; [exact T1|]. split; [exact T2|]. split; [exact T3|].
  split; [vm_compute; intuition discriminate|].
  eexists. eexists. eexists. eexists. split; [vm_compute; reflexivity|]. split; [vm_compute; reflexivity|].
  split; [vm_compute; reflexivity|]. split; [vm_compute; reflexivity|]. vm_compute. reflexivity.
Qed.
