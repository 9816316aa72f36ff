(** * FcThms: the tag filter in the tool chain (C89). *)
From Verif Require Import NiThms Base PbSpec TModel HLModel HLSpec FrModel FrSpec ZlModel ZlSpec TfModel TfSpec MtModel IoModel IoSpec NiModel NiSpec RwModel RwSpec WiModel WiSpec RiModel RiSpec WsSpec PlModel PlSpec PlThms CxThms EeSpec ChSpec EeThms ChThms.
From Verif Require Import BaseLemmas PbModel PbProofs PbProofs2 TSpec TProofs TMsg TMsg2 TThms TTyped HLProofs HLProofs2 HLProofs3 HLThms FrProofs FrThms ZlThms TfThms NiProofs NiProofs2 NiThms RwThms WiThms RiThms WsProofs WsRead WsWrite WsThms EeProofs EeFin IoThms MtThms NiProofs3 NiProofs4 CxThms ChProofs FlProofs EeThms.
From Verif Require Import NiSpec RwSpec TfSpec PlModel PlSpec.

(** ** ways, relations and nodes of the elements of a file *)
Definition e_ways (es : list (option elements_of)) : list (Z * list Z) := flat_map (fun e => match e with Some e => map (fun h => (hw_Id h, hw_Nodes h)) (el_ways e) | None => [] end) es.
Definition e_rels (es : list (option elements_of)) : list (Z * list Z * list Z) := flat_map (fun e => match e with Some e => map (fun h => (hr_Id h, hr_Members h, hr_MemberType h)) (el_relations e) | None => [] end) es.
Definition e_nodes (es : list (option elements_of)) : list input_node := flat_map (fun e => match e with Some e => map node_place (el_nodes e) | None => [] end) es.
Definition uways (l : list (Z * list Z)) : list (Z * list Z) := map (fun w => (fst w, map (fun r => r mod 2^64) (snd w))) l.

Lemma block_ways_elems p : block_ways p = map (fun w => (way_ID w, way_Refs w)) (flat_map (fun g => elems (pg_Ways g)) (pblk_PrimitiveGroup p)).
Proof. unfold block_ways. induction (pblk_PrimitiveGroup p) as [|g gs IH]; [reflexivity|]. cbn [flat_map]. rewrite map_app, IH. destruct (pg_Ways g); reflexivity. Qed.
Lemma block_relations_elems p : block_relations p = flat_map (fun g => elems (pg_Relations g)) (pblk_PrimitiveGroup p).
Proof. unfold block_relations. induction (pblk_PrimitiveGroup p) as [|g gs IH]; [reflexivity|]. cbn [flat_map]. rewrite IH. destruct (pg_Relations g); reflexivity. Qed.
Lemma ways_of_block p hs : ways_are p hs -> uways (block_ways p) = map (fun h => (hw_Id h, hw_Nodes h)) hs.
Proof.
  rewrite block_ways_elems. unfold ways_are, uways. rewrite map_map. induction 1 as [|w h l m (A & _ & B) F IH]; [reflexivity|]. cbn [map]. f_equal; [cbn [fst snd]; rewrite A, B; reflexivity|exact IH].
Qed.
Lemma rels_of_block p hs : relations_are p hs -> map members (block_relations p) = map (fun h => (hr_Id h, hr_Members h, hr_MemberType h)) hs.
Proof.
  rewrite block_relations_elems. unfold relations_are. induction 1 as [|w h l m (A & _ & _ & B & C & _) F IH]; [reflexivity|]. cbn [map]. f_equal; [unfold members; rewrite A, B, C; reflexivity|exact IH].
Qed.
Lemma are_places p ids lats lons kvs ns : Forall is_s64 ids -> are_nodes p ids lats lons kvs ns -> dense_nodes p ids lats lons = map node_place ns.
Proof.
  intros S A. induction A as [|id lat lon kv nd ids lats lons kvs ns N1 N2 N3 N4 N5 N6 N7 N8 N9 A IHA]; [reflexivity|]. apply Forall_cons_iff in S as [S1 S]. cbn [dense_nodes map]. rewrite (IHA S). f_equal.
  unfold node_place, coordinate. rewrite N1, N2, N5. f_equal. symmetry. apply s64_u64_id. exact S1.
Qed.
Lemma nodes_of_block p ns : (forall g d, In g (pblk_PrimitiveGroup p) -> pg_Dense g = Some d -> Forall is_s64 (dn_Id d)) -> nodes_are p ns -> block_nodes p = map node_place ns.
Proof.
  intros S (nss & F & ->). unfold block_nodes. revert nss F S. induction (pblk_PrimitiveGroup p) as [|g gs IH]; intros nss F S; inversion F as [|? l ? nss' D F']; subst; [reflexivity|].
  cbn [flat_map concat]. rewrite map_app, (IH nss' F') by (intros g' d Hg; apply S; right; exact Hg). f_equal. unfold dense_nodes_are in D. destruct (pg_Dense g) as [d|] eqn:E; [|subst l; reflexivity].
  destruct D as (kvs & A & _). eapply are_places; [|exact A]. apply (S g d); [left; reflexivity|exact E].
Qed.
Lemma osm_ids {R} (envs : R -> Z -> zenv) file blocks : osm_file envs file blocks -> forall p g d, In (Some p) blocks -> In g (pblk_PrimitiveGroup p) -> pg_Dense g = Some d -> Forall is_s64 (dn_Id d).
Proof.
  intros (_ & _ & blobs & _ & L & H) p g d Hc Hg Hd. apply In_nth_error in Hc. destruct Hc as (i & Hc). destruct (nth_same _ _ _ _ (eq_sym L) Hc) as (b & Hb). destruct (H i b _ Hb Hc) as (_ & raw & _ & (fs & _ & _ & (_ & G & _))).
  destruct (f2_in_r _ _ _ _ G Hg) as (c & _ & (fg & _ & _ & ((_ & D) & _))). cbn [everything SkipDenseNodes] in D. rewrite Hd in D. cbn [opt_list] in D.
  destruct (f2_in_r _ _ _ _ D (or_introl eq_refl)) as (x & _ & (fd & _ & _ & ((us & ds & _ & _ & ->) & _))). apply sums_s64.
Qed.
Lemma mod_inj l : forall m, Forall is_s64 l -> Forall is_s64 m -> map (fun r => r mod 2^64) l = map (fun r => r mod 2^64) m -> l = m.
Proof.
  induction l as [|a l IH]; intros [|b m] A B E; try discriminate E; [reflexivity|]. cbn [map] in E. injection E as E1 E2. apply Forall_cons_iff in A as [A1 A]. apply Forall_cons_iff in B as [B1 B]. f_equal; [|apply IH; assumption].
  rewrite <- (s64_u64_id a A1), <- (s64_u64_id b B1). unfold u64. rewrite E1. reflexivity.
Qed.
Lemma uways_inj l : forall m, Forall (fun w => Forall is_s64 (snd w)) l -> Forall (fun w => Forall is_s64 (snd w)) m -> uways l = uways m -> l = m.
Proof.
  induction l as [|[i a] l IH]; intros [|[j b] m] A B E; try discriminate E; [reflexivity|]. cbn [uways map fst snd] in E. injection E as -> E1 E2. apply Forall_cons_iff in A as [A1 A]. apply Forall_cons_iff in B as [B1 B]. f_equal; [f_equal; apply mod_inj; assumption|apply IH; assumption].
Qed.
Lemma same_ways_e ws ws' : Forall2 same_way ws ws' -> map (fun h => (hw_Id h, hw_Nodes h)) ws' = map (fun h => (hw_Id h, hw_Nodes h)) ws.
Proof. induction 1 as [|a b l m (A & _ & B) F IH]; [reflexivity|]. cbn [map]. rewrite IH, A, B. reflexivity. Qed.
Lemma same_rels_e ws ws' : Forall2 same_rel ws ws' -> map (fun h => (hr_Id h, hr_Members h, hr_MemberType h)) ws' = map (fun h => (hr_Id h, hr_Members h, hr_MemberType h)) ws.
Proof. induction 1 as [|a b l m (A & _ & _ & B & C) F IH]; [reflexivity|]. cbn [map]. rewrite IH, A, B, C. reflexivity. Qed.
Lemma left_app {A} (a b c d : list A) : left_of a b -> left_of c d -> left_of (a ++ c) (b ++ d).
Proof. induction 1; cbn [app]; auto using left_out, left_in. Qed.
Lemma left_none {A} (l : list A) : left_of [] l.
Proof. induction l; auto using left_nil, left_out. Qed.
Lemma toward_quot x y : toward_zero_100 x y -> Z.quot y 100 = Z.quot x 100.
Proof.
  intros ((k & ->) & A & B & C). rewrite <- (Z.add_0_l (100 * k)), quot_100. destruct (Z_le_gt_dec 0 x) as [P|P].
  - apply (Z.quot_unique x 100 k (x - 100 * k)); [lia| |lia]. assert (0 <= k) by nia. lia.
  - assert (k <= 0) by nia. pose proof (Z.quot_unique (- x) 100 (- k) (- x - 100 * (- k)) ltac:(lia) ltac:(lia) ltac:(lia)) as E. rewrite Z.quot_opp_l in E by lia. lia.
Qed.
Lemma quant_places ns ns' : Forall2 quantised_node ns ns' -> map node_place ns' = map node_place ns.
Proof.
  induction 1 as [|a b l m (A & B & C & D) F IH]; [reflexivity|]. cbn [map]. rewrite IH. f_equal. unfold node_place. rewrite A, (toward_quot _ _ C), (toward_quot _ _ D). reflexivity.
Qed.
Lemma interesting_left ns ns1 : interesting ns ns1 -> left_of (map node_place ns1) (map node_place ns).
Proof.
  induction 1 as [|n ns out D I1 IH|n n' ns out E1 E2 E3 E4 E5 E6 I1 IH]; cbn [map]; [constructor|apply left_out, IH|]. replace (node_place n') with (node_place n) by (unfold node_place; rewrite E1, E2, E3; reflexivity). apply left_in, IH.
Qed.
Lemma filtered_e es es' : filtered es es' -> e_ways es' = e_ways es /\ e_rels es' = e_rels es /\ left_of (e_nodes es') (e_nodes es).
Proof.
  unfold e_ways, e_rels, e_nodes. induction 1 as [|es es' F (A & B & C)|ns es es' I1 F (A & B & C)|ns ws rs ns1 ns' ws' rs' es es' I1 Q W R N F (A & B & C)]; cbn [flat_map el_nodes el_ways el_relations map app].
  - repeat split; constructor.
  - auto.
  - split; [exact A|]. split; [exact B|]. change (flat_map _ es') with ([] ++ flat_map (fun e => match e with Some e0 => map node_place (el_nodes e0) | None => [] end) es'). apply left_app; [apply left_none|exact C].
  - rewrite A, B, (same_ways_e _ _ W), (same_rels_e _ _ R). split; [reflexivity|]. split; [reflexivity|]. apply left_app; [|exact C]. rewrite (quant_places _ _ Q). apply interesting_left, I1.
Qed.
Lemma file_e {R} (envs : R -> Z -> zenv) file blocks es : osm_file envs file blocks -> Forall2 elements_are blocks es ->
  uways (file_ways blocks) = e_ways es /\ map members (file_relations blocks) = e_rels es /\ file_nodes blocks = e_nodes es.
Proof.
  intros O F. pose proof (osm_ids envs file blocks O) as S. clear O. unfold file_ways, file_relations, file_nodes, of_blocks, e_ways, e_rels, e_nodes.
  induction F as [|[p|] [e|] blocks es El F IH]; try contradiction; [repeat split| |]; cbn [flat_map].
  - destruct IH as (A & B & C); [intros q g d Hq; apply S; right; exact Hq|]. destruct El as (N & W & Rl). unfold uways. rewrite !map_app. fold (uways (block_ways p)). rewrite (ways_of_block _ _ W), (rels_of_block _ _ Rl), B, C. unfold uways in A. rewrite A.
    rewrite (nodes_of_block p _ (fun g d => S p g d (or_introl eq_refl)) N). auto.
  - apply IH. intros q g d Hq. apply S. right. exact Hq.
Qed.
Lemma file_w blocks es : Forall2 written_as blocks es ->
  uways (file_ways blocks) = e_ways es /\ map members (file_relations blocks) = e_rels es /\ file_nodes blocks = e_nodes es.
Proof.
  intros F. unfold file_ways, file_relations, file_nodes, of_blocks, e_ways, e_rels, e_nodes.
  induction F as [|[p|] [e|] blocks es El F IH]; try contradiction; [repeat split| |exact IH]; cbn [flat_map].
  destruct IH as (A & B & C). destruct El as (W & Rl & N & _). unfold uways. rewrite !map_app. fold (uways (block_ways p)). rewrite (ways_of_block _ _ W), (rels_of_block _ _ Rl), B, C, N. unfold uways in A. rewrite A. auto.
Qed.

(** C89.  Filtering changes nothing of the ways and of the members of relations of an OSM file, and
    of the ids and places of nodes it only leaves some out; whatever the schedule, and whatever the tags. *)
Lemma pC89_filter_keeps : forall (R R' : Type) (envs : R -> Z -> zenv) (envs' : R' -> Z -> zenv) r file blocks es bs workers wp rp s,
  osm_file envs file blocks -> (forall i, env_ok (envs r i)) -> Forall2 elements_are blocks es ->
  read_file file = Ok bs -> reachable (tf_cfg (envs r) wp rp) bs workers s -> completed s -> s_cancelled s = false ->
  exists out, tagfilter_writer (s_got s) [] = Ok out /\
    (zlen out < 2^63 -> exists blocks', osm_file envs' out blocks' /\ file_ways blocks' = file_ways blocks /\
       map members (file_relations blocks') = map members (file_relations blocks) /\ left_of (file_nodes blocks') (file_nodes blocks)).
Proof.
  intros R R' envs envs' r file blocks es bs n wp rp s O He El E Re D C. destruct (file_filter envs envs' r file blocks es bs n wp rp s O He El E Re D) as (m & out & Hm & Hc & Eo & H). specialize (Hc C). subst m.
  exists out. split; [exact Eo|]. intros L. destruct (H L) as (bl & es' & O' & F & Wr & _). rewrite firstn_all in F. exists bl. split; [exact O'|].
  destruct (filtered_e _ _ F) as (F1 & F2 & F3). destruct (file_e envs file blocks es O El) as (G1 & G2 & G3). destruct (file_w _ _ Wr) as (K1 & K2 & K3).
  split; [apply uways_inj; [exact (osm_refs envs' out bl O')|exact (osm_refs envs file blocks O)|congruence]|]. split; [congruence|]. rewrite G3, K3. exact F3.
Qed.

(** ** the chain *)
Lemma nodes_with f p ns : nodes_are p ns -> nodes_are (block_with f p) ns.
Proof.
  intros (nss & F & ->). exists nss. split; [|reflexivity]. cbn [block_with pblk_PrimitiveGroup]. apply (proj2 (f2_mapl _ _ _ _)). revert F. apply Forall2_impl. intros g l D. unfold dense_nodes_are in *. cbn [group_with pg_Dense]. destruct (pg_Dense g) as [d|]; [|exact D].
  destruct D as (kvs & A & K). exists kvs. split; [|exact K]. eapply are_same; [..|exact A]; reflexivity.
Qed.
Lemma ways_with f p ws : ways_are p ws -> exists ws', ways_are (block_with f p) ws'.
Proof.
  unfold ways_are. intros F. exists (map (fun wh => mkHWay (hw_Id (snd wh)) (hw_Tags (snd wh)) (map (fun r => r mod 2^64) (map f (way_Refs (fst wh))))) (combine (flat_map (fun g => elems (pg_Ways g)) (pblk_PrimitiveGroup p)) ws)).
  replace (flat_map (fun g => elems (pg_Ways g)) (pblk_PrimitiveGroup (block_with f p))) with (map (refs_with f) (flat_map (fun g => elems (pg_Ways g)) (pblk_PrimitiveGroup p))).
  - revert F. generalize (flat_map (fun g => elems (pg_Ways g)) (pblk_PrimitiveGroup p)). intros l F. induction F as [|w h l m (A & B & C) F IH]; cbn [combine map]; constructor; [|exact IH].
    split; [exact A|]. split; [eapply tags_same; [|exact B]; reflexivity|reflexivity].
  - clear. cbn [block_with pblk_PrimitiveGroup]. induction (pblk_PrimitiveGroup p) as [|g gs IH]; [reflexivity|]. cbn [flat_map map]. rewrite map_app, IH. f_equal. cbn [group_with pg_Ways]. destruct (pg_Ways g); reflexivity.
Qed.
Lemma rels_with f p rs : relations_are p rs -> relations_are (block_with f p) rs.
Proof.
  unfold relations_are. replace (flat_map (fun g => elems (pg_Relations g)) (pblk_PrimitiveGroup (block_with f p))) with (flat_map (fun g => elems (pg_Relations g)) (pblk_PrimitiveGroup p)).
  - apply Forall2_impl. intros r h (A & B & C & D). split; [exact A|]. split; [eapply tags_same; [|exact B]; reflexivity|]. split; [eapply strings_same; [|exact C]; reflexivity|exact D].
  - clear. cbn [block_with pblk_PrimitiveGroup]. induction (pblk_PrimitiveGroup p) as [|g gs IH]; [reflexivity|]. cbn [flat_map map]. rewrite IH. reflexivity.
Qed.
Lemma elements_with f blocks es : Forall2 elements_are blocks es -> exists es', Forall2 elements_are (with_refs f blocks) es'.
Proof.
  induction 1 as [|[p|] [e|] blocks es El F (es' & IH)]; try contradiction; [exists []; constructor| |exists (None :: es'); constructor; [exact I|exact IH]].
  destruct El as (N & W & Rl). destruct (ways_with f p _ W) as (ws' & W'). exists (Some (mkElements (el_nodes e) ws' (el_relations e)) :: es'). constructor; [|exact IH].
  split; [apply nodes_with, N|]. split; [exact W'|apply rels_with, Rl].
Qed.
Lemma members_summary rs rs' : map members rs = map members rs' -> map summary rs = map summary rs' /\ (Forall relation_ok rs' -> Forall relation_ok rs).
Proof.
  revert rs'. induction rs as [|r rs IH]; intros [|r' rs'] E; try discriminate E; [split; [reflexivity|constructor]|]. cbn [map] in E. injection E as E1 E2 E3 E. destruct (IH rs' E) as (A & B).
  assert (W : way_members r = way_members r') by (unfold way_members; rewrite E2, E3; reflexivity). cbn [map]. split; [rewrite A; f_equal; unfold summary; rewrite E1, W; reflexivity|].
  intros H. apply Forall_cons_iff in H as [(H1 & H2 & H3) H]. constructor; [|auto]. unfold relation_ok. rewrite E2, E3, W. auto.
Qed.

(** C89, the tool chain of C85 with the filter after the rewriter: the way index is made from the
    filtered file, the relation index from any of the three files, and lists the same as without the
    filter. *)
Lemma pC89_filtered_chain_partial : forall o (envs : option run -> Z -> zenv) file blocks es a,
  all_well o -> (forall r i, env_ok (envs r i)) -> osm_file envs file blocks -> Forall2 elements_are blocks es -> 0 <= a <= 61 ->
  let ns := file_nodes blocks in let ws := file_ways blocks in let rels := file_relations blocks in
  (forall p, In (Some p) blocks -> block_sane p /\ zlen (block_nodes p) < 2^23) ->
  ascending (map in_id ns) -> Forall (fun n => 2 <= in_id n < 2^63) ns -> 0 < zlen ns < 2^39 ->
  ascending_by fst ws -> Forall (fun w => 0 <= fst w < 2^31) ws -> ws <> [] -> size_bound a ws <= 2^(33 + a) -> size_bound a ws < 2^62 ->
  Forall relation_ok rels -> rels <> [] ->
  exists bs w1 idx, read_file file = Ok bs /\ ni_index o (with_env (envs (Some IndexNodes)) bs) = (w1, Ok tt) /\ NewNodeIndex (f_data (w_idx w1)) = Ok idx /\
  forall n file2, 1 <= n -> covering idx n ->
    (forall k f, Z.of_nat k <= n -> after_passes (fun pass => envs (Some (Rewrite pass))) idx n k file = Ok f -> zlen f < 2^63) ->
    after_passes (fun pass => envs (Some (Rewrite pass))) idx n (Z.to_nat n) file = Ok file2 ->
  exists bs2, read_file file2 = Ok bs2 /\
  forall workers wp rp s, reachable (tf_cfg (envs None) wp rp) bs2 workers s -> completed s -> s_cancelled s = false ->
  exists file3, tagfilter_writer (s_got s) [] = Ok file3 /\ (zlen file3 < 2^63 ->
  exists bs3 w2, read_file file3 = Ok bs3 /\ wi_index o a (with_env (envs (Some IndexWays)) bs3) = (w2, Ok tt) /\
  forall rbs m wayIndex output fs, In (Ok rbs) [read_file file; read_file file2; read_file file3] ->
    1 <= m <= 2^a -> wayIndex <> makePassFilename output 0 m -> fs wayIndex = Some (f_data (w_idx w2)) ->
  exists fs', ri_main (with_env (envs (Some IndexRelations)) rbs) wayIndex output m fs = Ok fs' /\
    fs' output = Some (SliceAsByteSlice (listing (way_locs (map (located_way ns) ws)) (map summary rels)))).
Proof.
  intros o envs file blocks es a Wo He F El Ha ns ws rels Hs An In1 In2 Aw Iw Nw S1 S2 Rok Nrel.
  destruct (osm_read envs file blocks F) as (bs & Eb & Rb).
  destruct (index_chain o (with_env (envs (Some IndexNodes)) bs) (per_block block_nodes blocks) Wo) as (w1 & rs & locs & E1 & E2 & Hi & Nr & Hl & Hf).
  { apply read_nodes; [apply Rb|]. intros p Hp. apply Hs. exact Hp. }
  { rewrite per_block_concat. exact An. }
  { rewrite per_block_concat. exact In1. }
  { unfold per_block. apply Forall_forall. intros l Hin. apply in_map_iff in Hin. destruct Hin as (c & <- & Hc). destruct c as [p|]; [apply Hs; exact Hc|]. reflexivity. }
  { rewrite per_block_concat. exact In2. }
  rewrite per_block_concat in Hf. change (of_blocks block_nodes blocks) with ns in Hf.
  exists bs, w1, (index_of rs locs). split; [exact Eb|]. split; [exact E1|]. split; [exact E2|].
  intros n file2 Hn C Sz E3.
  pose proof (pC84_rewritten_file_partial (option run) envs (fun p => Some (Rewrite p)) file blocks rs locs n file2 F He Hi Nr Hl Hn C Sz E3) as F2.
  destruct (osm_read envs file2 _ F2) as (bs2 & Eb2 & Rb2). exists bs2. split; [exact Eb2|]. intros workers wp rp s Re D Cc.
  destruct (elements_with (new_ref rs locs) blocks es El) as (es2 & El2).
  destruct (pC89_filter_keeps (option run) (option run) envs envs None file2 _ es2 bs2 workers wp rp s F2 (He None) El2 Eb2 Re D Cc) as (file3 & Eo & H). exists file3. split; [exact Eo|]. intros Lo.
  destruct (H Lo) as (bl3 & F3 & Ew3 & Er3 & _). destruct (osm_read envs file3 _ F3) as (bs3 & Eb3 & Rb3). exists bs3.
  assert (Ew : concat (per_block block_ways bl3) = map (located_way ns) ws).
  { rewrite per_block_concat. change (of_blocks block_ways) with file_ways. rewrite Ew3, file_ways_with. apply map_ext. intros w. unfold located_way. f_equal. apply map_ext. exact Hf. }
  rewrite file_relations_with in Er3. destruct (members_summary _ _ Er3) as (Sm & Rk).
  pose proof (read_ways _ _ (Rb3 (Some IndexWays))) as FW. pose proof (osm_refs envs file3 _ F3) as S64. unfold file_ways in S64. rewrite <- per_block_concat, Ew in S64.
  assert (W1 : concat (per_block block_ways bl3) <> []) by (rewrite Ew; destruct ws; [contradiction|discriminate]).
  assert (W2 : Forall (fun w => 0 <= fst w < 2^31 /\ Forall is_s64 (snd w)) (concat (per_block block_ways bl3))).
  { rewrite Ew. apply Forall_forall. intros w Hw. split; [|exact (proj1 (Forall_forall _ _) S64 w Hw)]. apply in_map_iff in Hw. destruct Hw as (y & <- & Hy). exact (proj1 (Forall_forall _ _) Iw y Hy). }
  assert (W3 : ascending_by fst (concat (per_block block_ways bl3))) by (rewrite Ew; apply ascending_with; exact Aw).
  assert (W4 : size_bound a (concat (per_block block_ways bl3)) = size_bound a ws) by (rewrite Ew; apply size_bound_with).
  assert (RF : forall rbs, In (Ok rbs) [read_file file; read_file file2; read_file file3] -> exists rss, Forall2 relations_block (with_env (envs (Some IndexRelations)) rbs) rss /\ map summary (concat rss) = map summary rels /\ Forall relation_ok (concat rss) /\ concat rss <> []).
  { intros rbs [X|[X|[X|[]]]]; rewrite X in *.
    - injection Eb as ->. exists (per_block block_relations blocks). split; [apply read_relations, Rb|]. rewrite per_block_concat. auto.
    - injection Eb2 as ->. exists (per_block block_relations (with_refs (new_ref rs locs) blocks)). split; [apply read_relations, Rb2|]. rewrite per_block_concat. change (of_blocks block_relations) with file_relations. rewrite file_relations_with. auto.
    - injection Eb3 as ->. exists (per_block block_relations bl3). split; [apply read_relations, Rb3|]. rewrite per_block_concat. change (of_blocks block_relations) with file_relations. split; [exact Sm|]. split; [apply Rk, Rok|].
      intros X0. rewrite X0 in Er3. cbn [map] in Er3. fold rels in Er3. destruct rels; [contradiction|discriminate Er3]. }
  assert (Two : 1 <= 2^a) by (pose proof (Z.pow_pos_nonneg 2 a); lia).
  (* the way index is the same whatever comes after it *)
  destruct (RF bs) as (rss0 & FR0 & CR0 & CO0 & CN0); [left; exact Eb|].
  destruct (pC61_from_files o a (with_env (envs (Some IndexWays)) bs3) _ (with_env (envs (Some IndexRelations)) bs) rss0 (makePassFilename [] 0 1 ++ [0]) [] 1 Wo Ha FW W1 W2 W3 ltac:(rewrite W4; exact S1) ltac:(rewrite W4; exact S2) FR0 CO0 CN0) as (w2 & Ew2 & _).
  { lia. } { intros X. apply (f_equal (@List.length Z)) in X. rewrite app_length in X. cbn [List.length] in X. lia. }
  exists w2. split; [exact Eb3|]. split; [exact Ew2|].
  intros rbs m wayIndex output fs Hr Hm Hne Hfs. destruct (RF rbs Hr) as (rss & FR & CR & CO & CN).
  destruct (pC61_from_files o a (with_env (envs (Some IndexWays)) bs3) _ (with_env (envs (Some IndexRelations)) rbs) rss wayIndex output m Wo Ha FW W1 W2 W3 ltac:(rewrite W4; exact S1) ltac:(rewrite W4; exact S2) FR CO CN) as (w2' & Ew2' & K).
  { lia. } { exact Hne. }
  rewrite Ew2 in Ew2'. injection Ew2' as <-. destruct (K fs Hfs) as (fs' & Er & Eo' & _). exists fs'. split; [exact Er|]. rewrite Eo', Ew, CR. reflexivity.
Qed.

(** *** Example: the file of C85 *)
Definition fc_nodes : list HLNode := [mkNode 2 [] 1000 100; mkNode 3 [] (-2000) 200; mkNode 5 [] 3000 300; mkNode 9 [] 4000 400; mkNode 10 [] 700 (-900)].
Definition fc_es : list (option elements_of) := [None; Some (mkElements fc_nodes [] []);
  Some (mkElements [] [mkHWay 5 [([97], [97])] [2; 3; 7]; mkHWay 7 [] [9; 9; 5]] [mkHRel 100 [([97], [97])] [[]; []; []] [7; 3; 5] [1; 0; 1]; mkHRel 101 [] [[]] [6] [1]])].
Ltac strs := repeat (apply Forall2_cons; [eexists; split; [reflexivity|split; [lia|reflexivity]]|]); apply Forall2_nil.
Ltac tagsat := split; [repeat constructor; cbn [In]; intuition discriminate|split; strs].
Lemma fc_elements : Forall2 elements_are EeThms.ex_contents fc_es.
Proof.
  unfold EeThms.ex_contents, fc_es. apply Forall2_cons; [exact I|]. apply Forall2_cons; [|apply Forall2_cons; [|apply Forall2_nil]].
  - split; [|split; apply Forall2_nil]. exists [fc_nodes]. split; [|reflexivity]. apply Forall2_cons; [|apply Forall2_nil]. exists [[]; []; []; []; []]. split; [|right; split; [reflexivity|repeat constructor]].
    cbn [dn_Id dn_Lat dn_Lon el_nodes]. unfold fc_nodes.
    repeat (apply one_node; [reflexivity|reflexivity|unfold is_s64; cbn; lia|unfold is_s64; cbn; lia|reflexivity|unfold is_s64; cbn; lia|unfold is_s64; cbn; lia|tagsat|exact (fun x => x)|]). apply no_nodes.
  - split; [|split].
    + exists [[]; []]. split; [|reflexivity]. repeat (apply Forall2_cons; [reflexivity|]). apply Forall2_nil.
    + apply Forall2_cons; [|apply Forall2_cons; [|apply Forall2_nil]]; (split; [reflexivity|split; [tagsat|reflexivity]]).
    + apply Forall2_cons; [|apply Forall2_cons; [|apply Forall2_nil]]; (split; [reflexivity|split; [tagsat|split; [strs|split; [reflexivity|split; [reflexivity|]]]]]); repeat (apply Forall_cons; [lia|]); apply Forall_nil.
Qed.
Definition fc_cfg := tf_cfg EeThms.ex_zenv (fun _ => false) false.
Lemma fc_works : exists a0 a1 a2 b0 b1 b2, read_file EeThms.ex_osm = Ok [a0; a1; a2] /\ c_work fc_cfg a0 = Ok b0 /\ c_work fc_cfg a1 = Ok b1 /\ c_work fc_cfg a2 = Ok b2 /\ blk_Index b0 = 0 /\ blk_Index b1 = 1 /\ blk_Index b2 = 2 /\
  exists out, tagfilter_writer [b0; b1; b2] [] = Ok out /\ zlen out < 1000.
Proof. do 6 eexists. split; [vm_compute; reflexivity|]. do 6 (split; [vm_compute; reflexivity|]). eexists. split; [vm_compute; reflexivity|vm_compute; reflexivity]. Qed.
(** The conditions of C89 hold of the file of C85 (its other conditions are those shown in C85_ex), and
    there is a run of the filter over it. *)
Lemma pC89_ex : exists bs s out, osm_file (fun (_ : option run) => EeThms.ex_zenv) EeThms.ex_osm EeThms.ex_contents /\ (forall i, env_ok (EeThms.ex_zenv i)) /\ Forall2 elements_are EeThms.ex_contents fc_es /\
  read_file EeThms.ex_osm = Ok bs /\ reachable fc_cfg bs 1 s /\ completed s /\ s_cancelled s = false /\ tagfilter_writer (s_got s) [] = Ok out /\ zlen out < 1000.
Proof.
  destruct fc_works as (a0 & a1 & a2 & b0 & b1 & b2 & Ef & E0 & E1 & E2 & I0 & I1 & I2 & out & Eo & L).
  destruct (run_all3 fc_cfg a0 a1 a2 b0 b1 b2 eq_refl eq_refl E0 E1 E2 I0 I1 I2 eq_refl eq_refl eq_refl) as (k & s & S & D & C & G).
  exists [a0; a1; a2], s, out. split.
  { destruct EeThms.ex_osm_file as (H1 & H2 & blobs & H3 & H4 & H5). split; [exact H1|]. split; [exact H2|]. exists blobs. split; [exact H3|]. split; [exact H4|]. intros i b c Hb Hc. specialize (H5 i b c Hb Hc).
    destruct c as [p|]; [|exact H5]. destruct H5 as (T & raw & Dr & M). split; [exact T|]. exists raw. split; [intros _; exact (Dr IndexNodes)|exact M]. }
  split; [intros i; exact (EeThms.ex_env_ok IndexNodes i)|]. split; [exact fc_elements|]. split; [exact Ef|]. split; [exact (start_reach _ _ _ _ _ _ S)|]. split; [exact D|]. split; [exact C|]. rewrite G. split; [exact Eo|exact L].
Qed.
