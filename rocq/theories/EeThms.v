(** * EeThms: the tool chain from the OSM file to the relation index (C84, C85). *)
From Verif Require Import NiThms Base PbSpec TModel HLModel FrModel FrSpec ZlModel ZlSpec TfSpec MtModel IoModel IoSpec NiModel NiSpec RwModel RwSpec WiModel WiSpec RiModel RiSpec WsSpec PlThms EeSpec.
From Verif Require Import BaseLemmas PbModel PbProofs PbProofs2 TSpec TProofs TMsg TMsg2 TThms TTyped HLProofs FrProofs FrThms ZlThms TfThms NiProofs NiProofs2 NiThms RwThms WiThms RiThms WsProofs WsRead WsWrite WsThms EeProofs EeFin IoThms MtThms NiProofs3 NiProofs4.
From Verif Require Import NiSpec RwSpec TfSpec.

(** ** C84 *)
Lemma covering_passes rs locs n : index_ok rs locs -> rs <> [] -> covering (index_of rs locs) n ->
  exists subs, passes (index_of rs locs) n = Ok subs /\ concat (map si_element subs) = map elem_of rs.
Proof.
  intros Hi Nr (all & subs & E1 & E2 & E3). destruct (pC48_single_pass rs locs Hi Nr) as (top & Es & _). rewrite Es in E1. injection E1 as <-. exists subs. auto.
Qed.
(** C84.  If the rewriter finishes with an OSM file and a node index whose locations are negative
    or absent, in passes that cover the index, the output is an OSM file with the same blocks in
    the same order, in which only the refs of ways have changed: into what the index has for them. *)
Lemma pC84_rewritten_file_partial : forall (R : Type) (envs : R -> Z -> zenv) (rp : Z -> R) file blocks rs locs n out,
  osm_file envs file blocks -> (forall run i, env_ok (envs run i)) ->
  index_ok rs locs -> rs <> [] -> Forall (fun loc => is_s64 loc /\ loc <= 0) locs -> 1 <= n -> covering (index_of rs locs) n ->
  (forall k f, Z.of_nat k <= n -> after_passes (fun pass => envs (rp pass)) (index_of rs locs) n k file = Ok f -> zlen f < 2^63) ->
  after_passes (fun pass => envs (rp pass)) (index_of rs locs) n (Z.to_nat n) file = Ok out ->
  osm_file envs out (with_refs (new_ref rs locs) blocks).
Proof.
  intros R envs rp file blocks rs locs n out F He Hi Nr Hl Hn C Sz E. eapply rewrite_osm; try eassumption. apply covering_passes; assumption.
Qed.

(** ** C85 *)
Lemma index_chain o bs nss : all_well o -> Forall2 input_block bs nss ->
  let ns := concat nss in
  ascending (map in_id ns) -> Forall (fun n => 2 <= in_id n < 2^63) ns ->
  Forall (fun b => zlen b < 2^23) nss -> 0 < zlen ns < 2^39 ->
  exists w rs locs, ni_index o bs = (w, Ok tt) /\ NewNodeIndex (f_data (w_idx w)) = Ok (index_of rs locs) /\
    index_ok rs locs /\ rs <> [] /\ Forall (fun loc => is_s64 loc /\ loc <= 0) locs /\ forall x, new_ref rs locs x = located ns x.
Proof.
  intros (W1 & W2 & W3 & W4) F ns A I S T. set (V := value_of ns).
  assert (Vv : vals V 1 ns).
  { apply vals_intro; [exact A| |apply value_in; exact A|intros j _; apply value_out].
    intros n Hn. pose proof (proj1 (Forall_forall _ _) I n Hn). cbn beta in H. lia. }
  assert (Ib : Forall (fun n => in_id n < 2^63) ns) by (apply Forall_forall; intros n Hn; pose proof (proj1 (Forall_forall _ _) I n Hn); cbn beta in H; lia).
  destruct (msgs_spec V bs nss F 1 ltac:(lia) Vv Ib S) as (msgs & Em & Wt & Ap & _ & Lc & Cov & Zl & Bd). fold ns in Cov, Zl.
  set (R := all_ranges msgs) in *. assert (Vr : forall id, - 2^63 <= V id <= 0).
  { intros id. unfold V, value_of. destruct (find _ ns) as [n|]; [pose proof (loc_of_ok n); lia|lia]. }
  assert (Sl : zlen (spans V R) <= 2^40) by (rewrite <- Lc; lia).
  assert (St : storable 0 R) by (apply (asc_storable V R 0 1); [lia|assumption|assumption|lia]).
  destruct (output_ok o msgs W1 W2 W3 Wt St) as (w & locs' & Eo & En & _ & El); [rewrite Lc; apply spans_range; exact Vr|].
  rewrite (El W4) in En. clear El. fold R in En. rewrite Lc in En.
  assert (Ok_ : index_ok (place 0 R) (spans V R)).
  { split; [apply (place_ok V R 0 1); [lia|lia|assumption|assumption|lia|lia]|]. split; [apply (place_ascending R 0 1); assumption|].
    split; [apply (place_total V R 0 1); assumption|lia]. }
  exists w, (place 0 R), (spans V R). split; [unfold ni_index; rewrite Em; exact Eo|]. split; [exact En|]. split; [exact Ok_|]. split.
  { assert (R <> []). { intros E. destruct ns as [|n ns']; [unfold zlen in T; cbn [List.length] in T; lia|]. destruct (Cov n (or_introl eq_refl)) as (p & Hp & _). rewrite E in Hp. destruct Hp. }
    destruct R as [|[? ?] ?]; [contradiction|discriminate]. }
  split.
  { apply Forall_forall. intros x Hx. unfold spans in Hx. apply in_flat_map in Hx. destruct Hx as (p & _ & Hx). apply in_map_iff in Hx. destruct Hx as (y & <- & _). specialize (Vr y). unfold is_s64. lia. }
  intros x. unfold new_ref, located. destruct (find (fun n => in_id n =? x) ns) as [n|] eqn:Ef.
  - pose proof (find_some _ _ Ef) as (Hn & Ex). assert (x = in_id n) by lia. subst x. pose proof (proj1 (Forall_forall _ _) I n Hn) as Hr. cbn beta in Hr. replace (in_id n <? 0) with false by lia.
    destruct (loc_of_ok n) as (L & Neg). rewrite L.
    destruct (linear_search_spec (spans V R) (in_id n) (place 0 R) 0) as [(k & r & Hk & Ir & ->)|(Nr & _)].
    + pose proof (place_value V R 1 [] r (in_id n) Ap (nth_error_In _ _ Hk) Ir : nth_error (spans V R) _ = _) as Hv. rewrite (nth_error_nth _ _ 0 Hv). unfold V. rewrite (value_in ns A n Hn). replace (loc_of n =? 0) with false by lia. reflexivity.
    + exfalso. destruct (place_covered R 0 (in_id n) (Cov n Hn)) as (r & Hr' & Ir). apply In_nth_error in Hr'. destruct Hr' as (k & Hk). exact (Nr r (nth_error_In _ _ Hk) Ir).
  - destruct (Z.ltb_spec x 0) as [|Lx]; [reflexivity|]. destruct (linear_search_spec (spans V R) x (place 0 R) 0) as [(k & r & Hk & Ir & ->)|(Nr & ->)]; [|reflexivity].
    pose proof (place_value V R 1 [] r x Ap (nth_error_In _ _ Hk) Ir : nth_error (spans V R) _ = _) as Hv. rewrite (nth_error_nth _ _ 0 Hv). unfold V, value_of. rewrite Ef. reflexivity.
Qed.

(** *** what a rewritten file holds *)
Lemma way_refs_with f p : block_ways (block_with f p) = map (fun w => (fst w, map f (snd w))) (block_ways p).
Proof.
  unfold block_ways, block_with. cbn [pblk_PrimitiveGroup]. induction (pblk_PrimitiveGroup p) as [|g gs IH]; [reflexivity|]. cbn [map flat_map]. rewrite map_app, IH. f_equal.
  unfold group_with. cbn [pg_Ways]. destruct (pg_Ways g) as [ws|]; [|reflexivity]. cbn [option_map]. rewrite !map_map. reflexivity.
Qed.
Lemma relations_with f p : block_relations (block_with f p) = block_relations p.
Proof.
  unfold block_relations, block_with. cbn [pblk_PrimitiveGroup]. induction (pblk_PrimitiveGroup p) as [|g gs IH]; [reflexivity|]. cbn [map flat_map]. rewrite IH. reflexivity.
Qed.
Lemma file_ways_with f blocks : file_ways (with_refs f blocks) = map (fun w => (fst w, map f (snd w))) (file_ways blocks).
Proof.
  unfold file_ways, of_blocks, with_refs. induction blocks as [|[p|] blocks IH]; [reflexivity| |]; cbn [map flat_map option_map]; [rewrite map_app, way_refs_with, IH; reflexivity|exact IH].
Qed.
Lemma file_relations_with f blocks : file_relations (with_refs f blocks) = file_relations blocks.
Proof.
  unfold file_relations, of_blocks, with_refs. induction blocks as [|[p|] blocks IH]; [reflexivity| |]; cbn [map flat_map option_map]; [rewrite relations_with, IH; reflexivity|exact IH].
Qed.
Lemma sums_s64 ds : forall last, Forall is_s64 (sums last ds).
Proof. induction ds as [|d ds IH]; intros last; cbn [sums]; constructor; [apply s64_range|apply IH]. Qed.
Lemma osm_refs {R} (envs : R -> Z -> zenv) file blocks : osm_file envs file blocks -> Forall (fun w => Forall is_s64 (snd w)) (file_ways blocks).
Proof.
  intros (_ & _ & blobs & _ & L & H). apply Forall_forall. intros w Hw. unfold file_ways, of_blocks in Hw. apply in_flat_map in Hw. destruct Hw as (c & Hc & Hw). destruct c as [p|]; [|destruct Hw].
  apply In_nth_error in Hc. destruct Hc as (i & Hc). destruct (nth_same _ _ _ _ (eq_sym L) Hc) as (b & Hb). destruct (H i b _ Hb Hc) as (_ & raw & _ & (fs & _ & _ & (_ & G & _))).
  unfold block_ways in Hw. apply in_flat_map in Hw. destruct Hw as (g & Hg & Hw). destruct (f2_in_r _ _ _ _ G Hg) as (c & _ & (fg & _ & _ & (_ & (_ & W) & _))).
  destruct (pg_Ways g) as [ws|]; [|destruct Hw]. apply in_map_iff in Hw. destruct Hw as (y & <- & Hy). cbn [elems] in W. destruct (f2_in_r _ _ _ _ W Hy) as (d & _ & (fw & _ & _ & (_ & _ & _ & (us & ds & _ & _ & ->)))).
  cbn [snd]. apply sums_s64.
Qed.
Lemma size_bound_with (f : Z -> Z) a (ws : list (Z * list Z)) : size_bound a (map (fun w => (fst w, map f (snd w))) ws) = size_bound a ws.
Proof. unfold size_bound. induction ws as [|w ws IH]; [reflexivity|]. cbn [map fold_right fst snd]. rewrite IH. unfold zlen. rewrite map_length. reflexivity. Qed.
Lemma ascending_with (f : Z -> Z) (ws : list (Z * list Z)) : ascending_by fst ws -> ascending_by fst (map (fun w => (fst w, map f (snd w))) ws).
Proof.
  intros H i j a b Hij Ha Hb. rewrite nth_error_map in Ha, Hb. destruct (nth_error ws i) as [x|] eqn:Ei; [|discriminate]. destruct (nth_error ws j) as [y|] eqn:Ej; [|discriminate].
  injection Ha as <-. injection Hb as <-. exact (H i j x y Hij Ei Ej).
Qed.

(** C85.  From the OSM file to the relation index.  Index the nodes of the file; rewrite it with
    that index, in passes that cover it; index the ways of the result; index the relations of
    either file, in at most 2^a passes.  If the rewriter finishes, the relation index lists every
    relation of the OSM file, in order, with its ways, and for each of them what is kept of the
    locations of its nodes; a node that is not in the file is listed by its id. *)
Lemma pC85_end_to_end_partial : forall o (envs : run -> Z -> zenv) file blocks a,
  all_well o -> (forall r i, env_ok (envs r i)) -> osm_file envs file blocks -> 0 <= a <= 61 ->
  let ns := file_nodes blocks in let ws := file_ways blocks in let rels := file_relations blocks in
  (forall p, In (Some p) blocks -> block_sane p /\ zlen (block_nodes p) < 2^23) ->
  ascending (map in_id ns) -> Forall (fun n => 2 <= in_id n < 2^63) ns -> 0 < zlen ns < 2^39 ->
  ascending_by fst ws -> Forall (fun w => 0 <= fst w < 2^31) ws -> ws <> [] -> size_bound a ws <= 2^(33 + a) -> size_bound a ws < 2^62 ->
  Forall relation_ok rels -> rels <> [] ->
  exists bs w1 idx, read_file file = Ok bs /\ ni_index o (with_env (envs IndexNodes) bs) = (w1, Ok tt) /\ NewNodeIndex (f_data (w_idx w1)) = Ok idx /\
  forall n file2, 1 <= n -> covering idx n ->
    (forall k f, Z.of_nat k <= n -> after_passes (fun pass => envs (Rewrite pass)) idx n k file = Ok f -> zlen f < 2^63) ->
    after_passes (fun pass => envs (Rewrite pass)) idx n (Z.to_nat n) file = Ok file2 ->
  exists bs2 w2, read_file file2 = Ok bs2 /\ wi_index o a (with_env (envs IndexWays) bs2) = (w2, Ok tt) /\
  forall rbs m wayIndex output fs, In (Ok rbs) [read_file file; read_file file2] ->
    1 <= m <= 2^a -> wayIndex <> makePassFilename output 0 m -> fs wayIndex = Some (f_data (w_idx w2)) ->
  exists fs', ri_main (with_env (envs IndexRelations) rbs) wayIndex output m fs = Ok fs' /\
    fs' output = Some (SliceAsByteSlice (listing (way_locs (map (located_way ns) ws)) (map summary rels))).
Proof.
  intros o envs file blocks a Wo He F Ha ns ws rels Hs An In1 In2 Aw Iw Nw S1 S2 Rok Nrel.
  destruct (osm_read envs file blocks F) as (bs & Eb & Rb).
  destruct (index_chain o (with_env (envs IndexNodes) bs) (per_block block_nodes blocks) Wo) as (w1 & rs & locs & E1 & E2 & Hi & Nr & Hl & Hf).
  { apply read_nodes; [apply Rb|]. intros p Hp. apply Hs. exact Hp. }
  { rewrite per_block_concat. exact An. }
  { rewrite per_block_concat. exact In1. }
  { unfold per_block. apply Forall_forall. intros l Hin. apply in_map_iff in Hin. destruct Hin as (c & <- & Hc). destruct c as [p|]; [apply Hs; exact Hc|]. reflexivity. }
  { rewrite per_block_concat. exact In2. }
  rewrite per_block_concat in Hf. change (of_blocks block_nodes blocks) with ns in Hf.
  exists bs, w1, (index_of rs locs). split; [exact Eb|]. split; [exact E1|]. split; [exact E2|].
  intros n file2 Hn C Sz E3.
  pose proof (pC84_rewritten_file_partial run envs Rewrite file blocks rs locs n file2 F He Hi Nr Hl Hn C Sz E3) as F2.
  destruct (osm_read envs file2 _ F2) as (bs2 & Eb2 & Rb2). exists bs2.
  assert (Ew : concat (per_block block_ways (with_refs (new_ref rs locs) blocks)) = map (located_way ns) ws).
  { rewrite per_block_concat. change (of_blocks block_ways) with file_ways. rewrite file_ways_with. apply map_ext. intros w. unfold located_way. f_equal. apply map_ext. exact Hf. }
  pose proof (read_ways _ _ (Rb2 IndexWays)) as FW. pose proof (osm_refs envs file2 _ F2) as S64. unfold file_ways in S64. rewrite <- per_block_concat, Ew in S64.
  assert (W1 : concat (per_block block_ways (with_refs (new_ref rs locs) blocks)) <> []) by (rewrite Ew; destruct ws; [contradiction|discriminate]).
  assert (W2 : Forall (fun w => 0 <= fst w < 2^31 /\ Forall is_s64 (snd w)) (concat (per_block block_ways (with_refs (new_ref rs locs) blocks)))).
  { rewrite Ew. apply Forall_forall. intros w Hw. split; [|exact (proj1 (Forall_forall _ _) S64 w Hw)]. apply in_map_iff in Hw. destruct Hw as (y & <- & Hy). exact (proj1 (Forall_forall _ _) Iw y Hy). }
  assert (W3 : ascending_by fst (concat (per_block block_ways (with_refs (new_ref rs locs) blocks)))) by (rewrite Ew; apply ascending_with; exact Aw).
  assert (W4 : size_bound a (concat (per_block block_ways (with_refs (new_ref rs locs) blocks))) = size_bound a ws) by (rewrite Ew; apply size_bound_with).
  assert (RF : forall rbs, In (Ok rbs) [read_file file; read_file file2] -> exists rss, Forall2 relations_block (with_env (envs IndexRelations) rbs) rss /\ concat rss = rels).
  { intros rbs [X|[X|[]]]; rewrite X in *.
    - injection Eb as ->. exists (per_block block_relations blocks). split; [apply read_relations, Rb|apply per_block_concat].
    - injection Eb2 as ->. exists (per_block block_relations (with_refs (new_ref rs locs) blocks)). split; [apply read_relations, Rb2|]. rewrite per_block_concat. apply file_relations_with. }
  assert (Two : 1 <= 2^a) by (pose proof (Z.pow_pos_nonneg 2 a); lia).
  (* the way index is the same whatever comes after it *)
  destruct (RF bs) as (rss0 & FR0 & CR0); [left; exact Eb|].
  destruct (pC61_from_files o a (with_env (envs IndexWays) bs2) _ (with_env (envs IndexRelations) bs) rss0 (makePassFilename [] 0 1 ++ [0]) [] 1 Wo Ha FW W1 W2 W3 ltac:(rewrite W4; exact S1) ltac:(rewrite W4; exact S2) FR0) as (w2 & Ew2 & _).
  { rewrite CR0. exact Rok. } { rewrite CR0. exact Nrel. } { lia. } { intros X. apply (f_equal (@List.length Z)) in X. rewrite app_length in X. cbn [List.length] in X. lia. }
  exists w2. split; [exact Eb2|]. split; [exact Ew2|].
  intros rbs m wayIndex output fs Hr Hm Hne Hfs. destruct (RF rbs Hr) as (rss & FR & CR).
  destruct (pC61_from_files o a (with_env (envs IndexWays) bs2) _ (with_env (envs IndexRelations) rbs) rss wayIndex output m Wo Ha FW W1 W2 W3 ltac:(rewrite W4; exact S1) ltac:(rewrite W4; exact S2) FR) as (w2' & Ew2' & K).
  { rewrite CR. exact Rok. } { rewrite CR. exact Nrel. } { lia. } { exact Hne. }
  rewrite Ew2 in Ew2'. injection Ew2' as <-. destruct (K fs Hfs) as (fs' & Er & Eo & _). exists fs'. split; [exact Er|]. rewrite Eo, Ew, CR. reflexivity.
Qed.

(** ** C86 *)
(** C86.  On an OSM file within these limits the rewriter finishes, whatever the index, for every
    number of passes for which the index can be divided. *)
Lemma pC86_rewriter_finishes : forall (R : Type) (envs : R -> Z -> zenv) (rp : Z -> R) file blocks rs locs n subs,
  osm_file envs file blocks -> (forall run i, env_ok (envs run i)) -> small_file envs file blocks -> blocks <> [] ->
  index_ok rs locs -> Forall is_s64 locs -> 1 <= n -> passes (index_of rs locs) n = Ok subs ->
  forall k, Z.of_nat k <= n -> exists f, after_passes (fun pass => envs (rp pass)) (index_of rs locs) n k file = Ok f /\ zlen f < 2^63.
Proof.
  intros R envs rp file blocks rs locs n subs F He Sm Ne Hi Hl Hn Ep k Hk. apply (rewrite_finishes envs rp file blocks rs locs n); try assumption. exists subs. exact Ep.
Qed.

Lemma covering_one rs locs : index_ok rs locs -> rs <> [] -> covering (index_of rs locs) 1.
Proof.
  intros Hi Nr. destruct (pC48_single_pass rs locs Hi Nr) as (top & Es & _). exists (sub_index_of rs locs top), [sub_index_of rs locs top]. split; [exact Es|]. split; [|apply app_nil_r].
  unfold passes. change (seq 0 (Z.to_nat 1)) with [0%nat]. cbn [map mapm]. change (Z.of_nat 0) with 0. rewrite Es. reflexivity.
Qed.
(** C86, the whole chain with one pass of the rewriter (no --memory): every step completes, and
    the relation index lists what C85 says. *)
Lemma pC86_chain : forall o (envs : run -> Z -> zenv) file blocks a input rewritten wayIndex output m fs,
  all_well o -> (forall r i, env_ok (envs r i)) -> osm_file envs file blocks -> small_file envs file blocks -> 0 <= a <= 61 ->
  let ns := file_nodes blocks in let ws := file_ways blocks in let rels := file_relations blocks in
  (forall p, In (Some p) blocks -> block_sane p /\ zlen (block_nodes p) < 2^23) ->
  ascending (map in_id ns) -> Forall (fun n => 2 <= in_id n < 2^63) ns -> 0 < zlen ns < 2^39 ->
  ascending_by fst ws -> Forall (fun w => 0 <= fst w < 2^31) ws -> ws <> [] -> size_bound a ws <= 2^(33 + a) -> size_bound a ws < 2^62 ->
  Forall relation_ok rels -> rels <> [] -> 1 <= m <= 2^a -> wayIndex <> makePassFilename output 0 m -> input <> rewritten -> fs input = Some file ->
  exists bs w1 idx fs2 file2 bs2 w2 fs3,
    read_file file = Ok bs /\ ni_index o (with_env (envs IndexNodes) bs) = (w1, Ok tt) /\ NewNodeIndex (f_data (w_idx w1)) = Ok idx /\
    rw_main (fun pass => envs (Rewrite pass)) idx input rewritten None fs = Ok fs2 /\ fs2 rewritten = Some file2 /\
    read_file file2 = Ok bs2 /\ wi_index o a (with_env (envs IndexWays) bs2) = (w2, Ok tt) /\
    ri_main (with_env (envs IndexRelations) bs2) wayIndex output m (fs_set fs2 wayIndex (Some (f_data (w_idx w2)))) = Ok fs3 /\
    fs3 output = Some (SliceAsByteSlice (listing (way_locs (map (located_way ns) ws)) (map summary rels))).
Proof.
  intros o envs file blocks a input rewritten wayIndex output m fs Wo He F Sm Ha ns ws rels Hs An In1 In2 Aw Iw Nw S1 S2 Rok Nrel Hm Hne Hne2 Hfs.
  destruct (pC85_end_to_end_partial o envs file blocks a Wo He F Ha Hs An In1 In2 Aw Iw Nw S1 S2 Rok Nrel) as (bs & w1 & idx & E1 & E2 & E3 & K).
  destruct (osm_read envs file blocks F) as (bs' & Eb' & Rb). rewrite E1 in Eb'. injection Eb' as <-.
  destruct (index_chain o (with_env (envs IndexNodes) bs) (per_block block_nodes blocks) Wo) as (w1' & rs & locs & E1' & E2' & Hi & Nr & Hl & _).
  { apply read_nodes; [apply Rb|]. intros p Hp. apply Hs. exact Hp. }
  { rewrite per_block_concat. exact An. }
  { rewrite per_block_concat. exact In1. }
  { unfold per_block. apply Forall_forall. intros l Hin. apply in_map_iff in Hin. destruct Hin as (c & <- & Hc). destruct c as [p|]; [apply Hs; exact Hc|]. reflexivity. }
  { rewrite per_block_concat. exact In2. }
  rewrite E2 in E1'. injection E1' as <-. rewrite E3 in E2'. injection E2' as ->.
  assert (Nb : blocks <> []) by (intros ->; contradiction Nw; reflexivity).
  pose proof (covering_one rs locs Hi Nr) as C. pose proof C as (all & subs & _ & Ep & _).
  assert (Fin : forall k, Z.of_nat k <= 1 -> exists f, after_passes (fun pass => envs (Rewrite pass)) (index_of rs locs) 1 k file = Ok f /\ zlen f < 2^63).
  { apply (pC86_rewriter_finishes run envs Rewrite file blocks rs locs 1 subs); try assumption; [|lia]. revert Hl. apply Forall_impl. tauto. }
  destruct (Fin 1%nat ltac:(lia)) as (file2 & Ef & _).
  destruct (K 1 file2 ltac:(lia) C) as (bs2 & w2 & E4 & E5 & KR).
  { intros k f Hk E. destruct (Fin k Hk) as (f' & E' & L). rewrite E in E'. injection E' as <-. exact L. }
  { exact Ef. }
  exists bs, w1, (index_of rs locs), (fs_set fs rewritten (Some file2)), file2, bs2, w2.
  destruct (KR bs2 m wayIndex output (fs_set (fs_set fs rewritten (Some file2)) wayIndex (Some (f_data (w_idx w2)))) (or_intror (or_introl E4)) Hm Hne) as (fs3 & E6 & E7).
  { unfold fs_set. destruct (seqb_spec wayIndex wayIndex); [reflexivity|contradiction]. }
  exists fs3. split; [exact E1|]. split; [exact E2|]. split; [exact E3|]. split.
  { cbn [after_passes bind] in Ef. change (Z.of_nat 0) with 0 in Ef. destruct (SubIndex (index_of rs locs) 0 1) as [sub|p|] eqn:Es; cbn [bind] in Ef; try discriminate.
    unfold rw_main, rw_count. cbn [bind]. change (Z.to_nat 1) with 1%nat. cbn [rw_loop]. change (1 <? 0) with false. change (0 <? 0) with false. change (0 + 1 <? 1) with false. cbv iota. rewrite Es. cbn [bind]. rewrite Hfs. rewrite Ef. cbn [bind].
    change (1 <? 1) with false. reflexivity. }
  split; [unfold fs_set; destruct (seqb_spec rewritten rewritten); [reflexivity|contradiction]|]. split; [exact E4|]. split; [exact E5|]. split; [exact E6|exact E7].
Qed.

(** *** Example: a header, a compressed block with five nodes, a block with two ways and two relations *)
Definition ex_p1 : PrimitiveBlock := mkBlock None (Some [[]]) [mkGroup None (Some (mkDense [2; 3; 5; 9; 10] [10; -20; 30; 40; 7] [1; 2; 3; 4; -9] [] [] [])) None [] None []] 100 1000 0 0.
Definition ex_p2 : PrimitiveBlock := mkBlock None (Some [[]; [97]]) [mkGroup None None (Some [mkWay 5 [1] [1] [2; 3; 7]; mkWay 7 [] [] [9; 9; 5]]) [] None [];
  mkGroup None None None [] (Some [mkRelation 100 [1] [1] [0; 0; 0] [7; 3; 5] [1; 0; 1]; mkRelation 101 [] [] [0] [6] [1]]) []] 100 1000 0 0.
Definition ex_raw (p : PrimitiveBlock) : list Z := match PrimitiveBlock_Write p [] with Ok out => out | _ => [] end.
Definition ex_zenv (i : Z) : zenv := mkZenv true [(firstn 10 (ex_raw ex_p1), false); (skipn 10 (ex_raw ex_p1), true)] [0; 1].
Definition ex_envs : run -> Z -> zenv := fun _ => ex_zenv.
Definition ex_blobs : list (list Z * list Z) :=
  [(bytes_of "OSMHeader", [1; 2]); (bytes_of "OSMData", [16; zlen (ex_raw ex_p1); 26; 3; 120; 156; 1]); (bytes_of "OSMData", [10; zlen (ex_raw ex_p2)] ++ ex_raw ex_p2)].
Definition ex_osm : list Z := match enc_file ex_blobs with Ok f => f | _ => [] end.
Definition ex_contents : list (option PrimitiveBlock) := [None; Some ex_p1; Some ex_p2].

Lemma ex_written p : block_typed p -> block_form everything p -> (exists out, PrimitiveBlock_Write p [] = Ok out /\ zlen out < 1000) -> block_msg everything (ex_raw p) p.
Proof.
  intros T F (out & E & L). unfold ex_raw. rewrite E. apply PrimitiveBlock_Write_app in E as [Fi ->]. cbn [app] in *. apply block_w; try assumption. lia.
Qed.
Ltac s64s := repeat (apply Forall_cons; [unfold is_s64, is_u64, is_s32, is_u32, is_u8; lia|]); apply Forall_nil.
Lemma ex_p1_msg : block_msg everything (ex_raw ex_p1) ex_p1.
Proof.
  apply ex_written.
  - unfold block_typed, ex_p1; cbn [pblk_StringTable pblk_StringTableRaw pblk_PrimitiveGroup pblk_Granularity pblk_DateGranularity pblk_LatOffset pblk_LonOffset].
    split; [intros st E; injection E as <-; apply Forall_cons; [apply Forall_nil|apply Forall_nil]|]. split; [discriminate|]. split; [|unfold is_s32, is_s64; lia].
    apply Forall_cons; [|apply Forall_nil]. unfold group_typed; cbn [pg_Dense pg_RawDense pg_Ways pg_RawWays pg_Relations pg_RawRelations].
    split; [intros d E; injection E as <-; unfold dense_typed; cbn [dn_Id dn_Lat dn_Lon dn_KeyVals]; (split; [s64s|split; [s64s|split; s64s]])|]. split; [discriminate|]. split; [discriminate|]. split; [apply Forall_nil|]. split; [discriminate|apply Forall_nil].
  - repeat constructor.
  - eexists. split; [vm_compute; reflexivity|]. vm_compute. reflexivity.
Qed.
Lemma ex_p2_msg : block_msg everything (ex_raw ex_p2) ex_p2.
Proof.
  apply ex_written.
  - unfold block_typed, ex_p2; cbn [pblk_StringTable pblk_StringTableRaw pblk_PrimitiveGroup pblk_Granularity pblk_DateGranularity pblk_LatOffset pblk_LonOffset].
    split; [intros st E; injection E as <-; apply Forall_cons; [apply Forall_nil|apply Forall_cons; [s64s|apply Forall_nil]]|]. split; [discriminate|]. split; [|unfold is_s32, is_s64; lia].
    apply Forall_cons; [|apply Forall_cons; [|apply Forall_nil]]; unfold group_typed; cbn [pg_Dense pg_RawDense pg_Ways pg_RawWays pg_Relations pg_RawRelations].
    + split; [discriminate|]. split; [discriminate|]. split; [intros ws E; injection E as <-|split; [apply Forall_nil|split; [discriminate|apply Forall_nil]]].
      apply Forall_cons; [|apply Forall_cons; [|apply Forall_nil]]; unfold way_typed; cbn [way_ID way_Keys way_Vals way_Refs]; (split; [unfold is_s64; lia|split; [s64s|split; s64s]]).
    + split; [discriminate|]. split; [discriminate|]. split; [discriminate|]. split; [apply Forall_nil|]. split; [intros rs E; injection E as <-|apply Forall_nil].
      apply Forall_cons; [|apply Forall_cons; [|apply Forall_nil]]; unfold relation_typed; cbn [rel_ID rel_Keys rel_Vals rel_RolesSID rel_MemIDs rel_MemberType]; (split; [unfold is_s64; lia|split; [s64s|split; [s64s|split; [s64s|split; s64s]]]]).
  - repeat constructor.
  - eexists. split; [vm_compute; reflexivity|]. vm_compute. reflexivity.
Qed.

Lemma ex_zlib_blob : blob_msg [16; 44; 26; 3; 120; 156; 1] None (Some 44) (Some [120; 156; 1]).
Proof.
  exists [PV 2 [16] [44]; PB 3 [26] [3] [120; 156; 1]]. split; [split; [reflexivity|]|split; [split|]].
  - apply Forall_cons; [unfold pb_ok; split; [lia|]; split; vo|]. apply Forall_cons; [|apply Forall_nil]. split; [lia|]. split; [vo|]. split; [vo|s64s].
  - repeat (apply Forall_cons; [cbn; tauto|]); apply Forall_nil.
  - repeat (apply Forall_cons; [vm_compute; discriminate|]); apply Forall_nil.
  - split; [reflexivity|]. split; [reflexivity|]. split; [unfold is_s32; lia|reflexivity].
Qed.
Lemma raw_blob raw : bytes raw -> zlen raw = 118 -> blob_msg ([10; 118] ++ raw) (Some raw) None None.
Proof.
  intros B L. exists [PB 1 [10] [118] raw]. split; [split; [cbn [map concat pb_wire app]; rewrite app_nil_r; reflexivity|]|split; [split|]].
  - apply Forall_cons; [|apply Forall_nil]. split; [lia|]. split; [vo|]. split; [rewrite L; vo|exact B].
  - repeat (apply Forall_cons; [cbn; tauto|]); apply Forall_nil.
  - repeat (apply Forall_cons; [vm_compute; discriminate|]); apply Forall_nil.
  - split; [reflexivity|]. split; [reflexivity|]. exact I.
Qed.
Lemma ex_blobs_eq : ex_blobs = [(bytes_of "OSMHeader", [1; 2]); (bytes_of "OSMData", [16; 44; 26; 3; 120; 156; 1]); (bytes_of "OSMData", [10; 118] ++ ex_raw ex_p2)].
Proof. vm_compute. reflexivity. Qed.
Lemma ex_p2_bytes : bytes (ex_raw ex_p2) /\ zlen (ex_raw ex_p2) = 118.
Proof. split; [apply bytes_check; vm_compute; reflexivity|vm_compute; reflexivity]. Qed.
Lemma ex_stream i : stream (ze_reads (ex_zenv i)) = ex_raw ex_p1 /\ zlen (ex_raw ex_p1) = 44.
Proof. split; vm_compute; reflexivity. Qed.
Lemma ex_osm_enc : enc_file ex_blobs = Ok ex_osm /\ zlen ex_osm = 176.
Proof. split; vm_compute; reflexivity. Qed.
Lemma ex_osm_file : osm_file ex_envs ex_osm ex_contents.
Proof.
  destruct ex_osm_enc as (E & L). destruct ex_p2_bytes as (Pb & Pl).
  assert (Bl : Forall (fun b => known_type (fst b) /\ bytes (snd b) /\ zlen (snd b) < 2^31) ex_blobs).
  { rewrite ex_blobs_eq. apply Forall_cons; [|apply Forall_cons; [|apply Forall_cons; [|apply Forall_nil]]]; cbn [fst snd].
    - split; [left; reflexivity|]. split; [s64s|reflexivity].
    - split; [right; reflexivity|]. split; [s64s|reflexivity].
    - split; [right; reflexivity|]. split; [apply bytes_app; split; [s64s|exact Pb]|]. rewrite zlen_app, Pl. reflexivity. }
  split; [exact (proj2 (enc_file_is _ _ E Bl))|]. split; [rewrite L; reflexivity|]. exists ex_blobs. split; [apply enc_file_pbf; assumption|]. split; [reflexivity|].
  rewrite ex_blobs_eq. intros [|[|[|i]]] b c Hb Hc; cbn [nth_error ex_contents] in Hb, Hc; [| | |destruct i; discriminate Hb]; injection Hb as <-; injection Hc as <-.
  - reflexivity.
  - split; [reflexivity|]. exists (ex_raw ex_p1). split; [|exact ex_p1_msg]. intros r. right. exists 44, [120; 156; 1]. destruct (ex_stream 1) as (S1 & S2). split; [exact ex_zlib_blob|]. split; [reflexivity|]. split; [exact S1|exact S2].
  - split; [reflexivity|]. exists (ex_raw ex_p2). split; [|exact ex_p2_msg]. intros r. left. exists None, None. apply raw_blob; [exact Pb|exact Pl].
Qed.
Lemma ex_env_ok : forall r i, env_ok (ex_envs r i).
Proof.
  intros r i. unfold ex_envs, ex_zenv. split; [|split; [s64s|reflexivity]]. cbn [ze_reads]. apply Forall_cons; [|apply Forall_cons; [|apply Forall_nil]]; cbn [fst]; apply bytes_check; vm_compute; reflexivity.
Qed.
Lemma opt_in {A} (x : A) l : In (Some x) l -> In x (flat_map opt_list l).
Proof. intros H. apply in_flat_map. exists (Some x). split; [exact H|left; reflexivity]. Qed.
(** blobs have at most their content *)
Lemma ex_small : small_file ex_envs ex_osm ex_contents.
Proof.
  split; [|split; [reflexivity|]].
  - intros p Hp. apply opt_in in Hp. cbn [ex_contents flat_map opt_list app] in Hp. destruct Hp as [<-|[<-|[]]]; (split; [vm_compute; discriminate|]); intros g ws Hg E.
    + destruct Hg as [<-|[]]. discriminate E.
    + destruct Hg as [<-|[<-|[]]]; [|discriminate E]. injection E as <-. apply Forall_cons; [vm_compute; discriminate|]. apply Forall_cons; [vm_compute; discriminate|apply Forall_nil].
  - intros blobs i data r raw F Hb D. assert (Ld : zlen data <= zlen ex_osm).
    { clear D. destruct ex_osm_enc as (_ & L). revert F Hb. generalize ex_osm. clear. intros file. revert file i. induction blobs as [|[ty d] blobs IH]; intros file [|i] F Hb; try discriminate; cbn [pbf_file nth_error] in *; destruct F as (fb & rest & -> & (sz & hdr & -> & _) & F); rewrite !zlen_app;
      pose proof (zlen_nonneg sz); pose proof (zlen_nonneg hdr); pose proof (zlen_nonneg rest); pose proof (zlen_nonneg d); [injection Hb as _ <-; lia|specialize (IH rest i F Hb); lia]. }
    destruct ex_osm_enc as (_ & L). rewrite L in Ld. destruct D as [(size & zlib & (fs & M & _ & (A & _)))|(n & zlib & _ & _ & E & _)].
    + pose proof (chunk_len 1 raw data fs M (last_in _ _ A)). lia.
    + destruct (ex_stream (Z.of_nat i)) as (S1 & S2). unfold ex_envs in E. rewrite <- E, S1, S2. reflexivity.
Qed.
Lemma ex_sane : forall p, In (Some p) ex_contents -> block_sane p /\ zlen (block_nodes p) < 2^23.
Proof.
  intros p Hp. apply opt_in in Hp. cbn [ex_contents flat_map opt_list app] in Hp. destruct Hp as [<-|[<-|[]]]; (split; [|vm_compute; reflexivity]); intros g d Hg E.
  - destruct Hg as [<-|[]]. injection E as <-. split; [reflexivity|]. split; [reflexivity|].
    split; repeat (apply Forall_cons; [split; [vm_compute; intuition congruence|split; [vm_compute; intuition congruence|vm_compute; intuition congruence]]|]); apply Forall_nil.
  - destruct Hg as [<-|[<-|[]]]; discriminate E.
Qed.
(** The hypotheses of C84 to C86 hold of this file.  Node 7, in way 5, is not in the file; way 6,
    in relation 101, neither; the relation 100 has a node as well. *)
Lemma pC85_ex : all_well os_well /\ (forall r i, env_ok (ex_envs r i)) /\ osm_file ex_envs ex_osm ex_contents /\ small_file ex_envs ex_osm ex_contents /\
  (forall p, In (Some p) ex_contents -> block_sane p /\ zlen (block_nodes p) < 2^23) /\
  map in_id (file_nodes ex_contents) = [2; 3; 5; 9; 10] /\ file_ways ex_contents = [(5, [2; 3; 7]); (7, [9; 9; 5])] /\ size_bound 3 (file_ways ex_contents) = 78 /\
  Forall relation_ok (file_relations ex_contents) /\ map summary (file_relations ex_contents) = [(100, [7; 5]); (101, [6])] /\
  (let loc := located (file_nodes ex_contents) in
   listing (way_locs (map (located_way (file_nodes ex_contents)) (file_ways ex_contents))) (map summary (file_relations ex_contents)) =
   [100; 2] ++ [7; 2; loc 9; loc 5] ++ [5; 3; loc 2; loc 3; 7] ++ [101; 1] ++ [6; 0]) /\
  Forall (fun id => located (file_nodes ex_contents) id < 0) [2; 3; 5; 9].
Proof.
  split; [exact os_well_ok|]. split; [exact ex_env_ok|]. split; [exact ex_osm_file|]. split; [exact ex_small|]. split; [exact ex_sane|].
  split; [vm_compute; reflexivity|]. split; [vm_compute; reflexivity|]. split; [vm_compute; reflexivity|]. split.
  { change (file_relations ex_contents) with [mkRelation 100 [1] [1] [0; 0; 0] [7; 3; 5] [1; 0; 1]; mkRelation 101 [] [] [0] [6] [1]].
    apply Forall_cons; [|apply Forall_cons; [|apply Forall_nil]]; (split; [reflexivity|]; split; [reflexivity|]);
      [change (way_members _) with [7; 5]|change (way_members _) with [6]]; repeat (apply Forall_cons; [lia|]); apply Forall_nil. }
  split; [vm_compute; reflexivity|]. split; [vm_compute; reflexivity|]. repeat (apply Forall_cons; [vm_compute; reflexivity|]); apply Forall_nil.
Qed.
(** The same file, rewritten in two passes with an index of the nodes 2, 3, 5, 9 and 10. *)
Definition ex_ranges := [mkRange 2 2 0; mkRange 5 1 2; mkRange 9 2 3].
Definition ex_locs := [-11; -12; -13; -14; -15].
Lemma pC84_ex : osm_file ex_envs ex_osm ex_contents /\ (forall r i, env_ok (ex_envs r i)) /\ index_ok ex_ranges ex_locs /\ Forall (fun loc => is_s64 loc /\ loc <= 0) ex_locs /\
  covering (index_of ex_ranges ex_locs) 2 /\ (exists out, after_passes (fun pass => ex_envs (Rewrite pass)) (index_of ex_ranges ex_locs) 2 2 ex_osm = Ok out /\ zlen out = 172) /\
  file_ways (with_refs (new_ref ex_ranges ex_locs) ex_contents) = [(5, [-11; -12; 7]); (7, [-14; -14; -13])].
Proof.
  split; [exact ex_osm_file|]. split; [exact ex_env_ok|].
  assert (Hi : index_ok ex_ranges ex_locs).
  { split; [|split; [|split]].
    - unfold ex_ranges. repeat (apply Forall_cons; [unfold range_ok, ex_locs, zlen; cbn; lia|]); apply Forall_nil.
    - intros i j a b H Ha Hb. destruct i as [|[|[|i]]]; destruct j as [|[|[|j]]]; cbn in Ha, Hb; try lia; try discriminate; try (destruct i; discriminate); try (destruct j; discriminate); injection Ha as <-; injection Hb as <-; cbn; lia.
    - reflexivity.
    - reflexivity. }
  split; [exact Hi|]. split; [unfold ex_locs; repeat (apply Forall_cons; [unfold is_s64; lia|]); apply Forall_nil|]. split.
  { destruct (proj2 (pC48_covers_iff_partial [mkRange 2 2 0; mkRange 5 1 2] (mkRange 9 2 3) ex_locs 2 Hi ltac:(lia))) as (subs & Ep & Ec); [vm_compute; split; [discriminate|reflexivity]|].
    destruct (pC48_single_pass ex_ranges ex_locs Hi ltac:(discriminate)) as (top & Es & _). exists (sub_index_of ex_ranges ex_locs top), subs. split; [exact Es|]. split; [exact Ep|exact Ec]. }
  split; [eexists; split; vm_compute; reflexivity|]. vm_compute. reflexivity.
Qed.
