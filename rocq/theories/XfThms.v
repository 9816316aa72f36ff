(** * XfThms: the tool chain with the tag filter (C89) for every number of passes of the rewriter. *)
From Verif Require Import NiThms Base PbSpec TModel HLModel HLSpec FrModel FrSpec ZlModel ZlSpec TfModel TfSpec MtModel IoModel IoSpec NiModel NiSpec RwModel RwSpec WiModel WiSpec RiModel RiSpec WsSpec PlModel PlSpec PlThms CxThms EeSpec ChSpec EeThms ChThms FcThms.
From Verif Require Import BaseLemmas PbModel PbProofs PbProofs2 TSpec TProofs TMsg TMsg2 TThms TTyped HLProofs HLProofs2 HLProofs3 HLThms FrProofs FrThms ZlThms TfThms NiProofs NiProofs2 NiThms RwThms WiThms RiThms WsProofs WsRead WsWrite WsThms EeProofs EeFin IoThms MtThms NiProofs3 NiProofs4 CxThms ChProofs FlProofs EeThms.
From Verif Require Import NiSpec RwSpec TfSpec PlModel PlSpec.

From Verif Require Import FcThms XwThms XeThms XsThms.
From Verif Require Import NiSpec RwSpec TfSpec PlModel PlSpec.

(** C89, exactly: the tool chain with the filter after the rewriter, for every number of passes.  The relation index lists
    what it lists without the filter (C85_exact): all nodes but fewer than [n], the last ones, are located. *)
Lemma pC89_filtered_chain_exact : forall o (envs : option run -> Z -> zenv) file blocks es a,
  all_well o -> (forall r i, env_ok (envs r i)) -> osm_file envs file blocks -> Forall2 elements_are blocks es -> 0 <= a <= 61 ->
  let ns := file_nodes blocks in let ws := file_ways blocks in let rels := file_relations blocks in
  (forall p, In (Some p) blocks -> block_sane p /\ zlen (block_nodes p) < 2^23) ->
  ascending (map in_id ns) -> Forall (fun n => 2 <= in_id n < 2^63) ns -> 0 < zlen ns < 2^39 ->
  ascending_by fst ws -> Forall (fun w => 0 <= fst w < 2^31) ws -> ws <> [] -> size_bound a ws <= 2^(33 + a) -> size_bound a ws < 2^62 ->
  Forall relation_ok rels -> rels <> [] ->
  exists bs w1 idx, read_file file = Ok bs /\ ni_index o (with_env (envs (Some IndexNodes)) bs) = (w1, Ok tt) /\ NewNodeIndex (f_data (w_idx w1)) = Ok idx /\
  forall n file2, 1 <= n ->
    (forall k f, Z.of_nat k <= n -> after_passes (fun pass => envs (Some (Rewrite pass))) idx n k file = Ok f -> zlen f < 2^63) ->
    after_passes (fun pass => envs (Some (Rewrite pass))) idx n (Z.to_nat n) file = Ok file2 ->
  exists k bs2, zlen ns - n < k <= zlen ns /\ 0 <= k /\ read_file file2 = Ok bs2 /\
  forall workers wp rp s, reachable (tf_cfg (envs None) wp rp) bs2 workers s -> completed s -> s_cancelled s = false ->
  exists file3, tagfilter_writer (s_got s) [] = Ok file3 /\ (zlen file3 < 2^63 ->
  exists bs3 w2, read_file file3 = Ok bs3 /\ wi_index o a (with_env (envs (Some IndexWays)) bs3) = (w2, Ok tt) /\
  forall rbs m wayIndex output fs, In (Ok rbs) [read_file file; read_file file2; read_file file3] ->
    1 <= m <= 2^a -> wayIndex <> makePassFilename output 0 m -> fs wayIndex = Some (f_data (w_idx w2)) ->
  exists fs', ri_main (with_env (envs (Some IndexRelations)) rbs) wayIndex output m fs = Ok fs' /\
    fs' output = Some (SliceAsByteSlice (listing (way_locs (map (located_way (firstn (Z.to_nat k) ns)) ws)) (map summary rels)))).
Proof.
  intros o envs file blocks es a Wo He F El Ha ns ws rels Hs An In1 In2 Aw Iw Nw S1 S2 Rok Nrel.
  destruct (osm_read envs file blocks F) as (bs & Eb & Rb).
  destruct (index_chain o (with_env (envs (Some IndexNodes)) bs) (per_block block_nodes blocks) Wo) as (w1 & rs & locs & E1 & E2 & Hi & Nr & Hl & Hf).
  { apply read_nodes; [apply Rb|]. intros p Hp. apply Hs. exact Hp. }
  { rewrite per_block_concat. exact An. }
  { rewrite per_block_concat. exact In1. }
  { unfold per_block. apply Forall_forall. intros l Hin. apply in_map_iff in Hin. destruct Hin as (c & <- & Hc). destruct c as [p|]; [apply Hs; exact Hc|]. reflexivity. }
  { rewrite per_block_concat. exact In2. }
  rewrite per_block_concat in Hf. change (of_blocks block_nodes blocks) with ns in Hf.
  exists bs, w1, (index_of rs locs). split; [exact Eb|]. split; [exact E1|]. split; [exact E2|].
  intros n file2 Hn Sz E3. destruct (cut_nodes rs locs ns n Hi ltac:(revert Hl; apply Forall_impl; tauto) Hf An In1 Hn) as (kn & K1 & K2 & Hf').
  set (some := firstn (Z.to_nat kn) ns) in *. set (rs' := firstn (cut (zlen locs / n * n) 0 rs) rs) in *.
  pose proof (rewrite_any envs (fun p => Some (Rewrite p)) file blocks rs locs n file2 F He Hi Hl Hn Sz E3 : osm_file envs file2 (with_refs (new_ref rs' locs) blocks)) as F2.
  destruct (osm_read envs file2 _ F2) as (bs2 & Eb2 & Rb2). exists kn, bs2. split; [exact K1|]. split; [exact K2|]. split; [exact Eb2|]. intros workers wp rp s Re D Cc.
  destruct (elements_with (new_ref rs' locs) blocks es El) as (es2 & El2).
  destruct (pC89_filter_keeps (option run) (option run) envs envs None file2 _ es2 bs2 workers wp rp s F2 (He None) El2 Eb2 Re D Cc) as (file3 & Eo & H). exists file3. split; [exact Eo|]. intros Lo.
  destruct (H Lo) as (bl3 & F3 & Ew3 & Er3 & _). destruct (osm_read envs file3 _ F3) as (bs3 & Eb3 & Rb3). exists bs3.
  assert (Ew : concat (per_block block_ways bl3) = map (located_way some) ws).
  { rewrite per_block_concat. change (of_blocks block_ways) with file_ways. rewrite Ew3, file_ways_with. apply map_ext. intros w. unfold located_way. f_equal. apply map_ext. exact Hf'. }
  rewrite file_relations_with in Er3. destruct (members_summary _ _ Er3) as (Sm & Rk).
  pose proof (read_ways _ _ (Rb3 (Some IndexWays))) as FW. pose proof (osm_refs envs file3 _ F3) as S64. unfold file_ways in S64. rewrite <- per_block_concat, Ew in S64.
  assert (W1 : concat (per_block block_ways bl3) <> []) by (rewrite Ew; destruct ws; [contradiction|discriminate]).
  assert (W2 : Forall (fun w => 0 <= fst w < 2^31 /\ Forall is_s64 (snd w)) (concat (per_block block_ways bl3))).
  { rewrite Ew. apply Forall_forall. intros w Hw. split; [|exact (proj1 (Forall_forall _ _) S64 w Hw)]. apply in_map_iff in Hw. destruct Hw as (y & <- & Hy). exact (proj1 (Forall_forall _ _) Iw y Hy). }
  assert (W3 : ascending_by fst (concat (per_block block_ways bl3))) by (rewrite Ew; apply ascending_with; exact Aw).
  assert (W4 : size_bound a (concat (per_block block_ways bl3)) = size_bound a ws) by (rewrite Ew; apply size_bound_with).
  assert (RF : forall rbs, In (Ok rbs) [read_file file; read_file file2; read_file file3] -> exists rss, Forall2 relations_block (with_env (envs (Some IndexRelations)) rbs) rss /\ map summary (concat rss) = map summary rels /\ Forall relation_ok (concat rss) /\ concat rss <> []).
  { intros rbs [X|[X|[X|[]]]]; rewrite X in *.
    - injection Eb as ->. exists (per_block block_relations blocks). split; [apply read_relations, Rb|]. rewrite per_block_concat. auto.
    - injection Eb2 as ->. exists (per_block block_relations (with_refs (new_ref rs' locs) blocks)). split; [apply read_relations, Rb2|]. rewrite per_block_concat. change (of_blocks block_relations) with file_relations. rewrite file_relations_with. auto.
    - injection Eb3 as ->. exists (per_block block_relations bl3). split; [apply read_relations, Rb3|]. rewrite per_block_concat. change (of_blocks block_relations) with file_relations. split; [exact Sm|]. split; [apply Rk, Rok|].
      intros X0. rewrite X0 in Er3. cbn [map] in Er3. fold rels in Er3. destruct rels; [contradiction|discriminate Er3]. }
  assert (Two : 1 <= 2^a) by (pose proof (Z.pow_pos_nonneg 2 a); lia).
  (* the way index is the same whatever comes after it *)
  destruct (RF bs) as (rss0 & FR0 & CR0 & CO0 & CN0); [left; exact Eb|].
  destruct (pC61_from_files o a (with_env (envs (Some IndexWays)) bs3) _ (with_env (envs (Some IndexRelations)) bs) rss0 (makePassFilename [] 0 1 ++ [0]) [] 1 Wo Ha FW W1 W2 W3 ltac:(rewrite W4; exact S1) ltac:(rewrite W4; exact S2) FR0 CO0 CN0) as (w2 & Ew2 & _).
  { lia. } { intros X. apply (f_equal (@List.length Z)) in X. rewrite app_length in X. cbn [List.length] in X. lia. }
  exists w2. split; [exact Eb3|]. split; [exact Ew2|].
  intros rbs m wayIndex output fs Hr Hm Hne Hfs. destruct (RF rbs Hr) as (rss & FR & CR & CO & CN).
  destruct (pC61_from_files o a (with_env (envs (Some IndexWays)) bs3) _ (with_env (envs (Some IndexRelations)) rbs) rss wayIndex output m Wo Ha FW W1 W2 W3 ltac:(rewrite W4; exact S1) ltac:(rewrite W4; exact S2) FR CO CN) as (w2' & Ew2' & K).
  { lia. } { exact Hne. }
  rewrite Ew2 in Ew2'. injection Ew2' as <-. destruct (K fs Hfs) as (fs' & Er & Eo' & _). exists fs'. split; [exact Er|]. rewrite Eo', Ew, CR. reflexivity.
Qed.

(** The file of C85 in four passes, which miss nodes 9 and 10, and a run of the filter over the result. *)
Lemma pC89_filtered_chain_ex : exists bs w1 idx file2 bs2 s file3, read_file EeThms.ex_osm = Ok bs /\ ni_index os_well (with_env EeThms.ex_zenv bs) = (w1, Ok tt) /\
  NewNodeIndex (f_data (w_idx w1)) = Ok idx /\ after_passes (fun _ => EeThms.ex_zenv) idx 4 4 EeThms.ex_osm = Ok file2 /\ zlen file2 < 2^63 /\
  after_passes (fun _ => EeThms.ex_zenv) idx 1 1 EeThms.ex_osm <> Ok file2 /\
  read_file file2 = Ok bs2 /\ reachable fc_cfg bs2 1 s /\ completed s /\ s_cancelled s = false /\ tagfilter_writer (s_got s) [] = Ok file3 /\ zlen file3 < 1000.
Proof.
  assert (W : exists bs w1 idx file2 a0 a1 a2 b0 b1 b2 out, read_file EeThms.ex_osm = Ok bs /\ ni_index os_well (with_env EeThms.ex_zenv bs) = (w1, Ok tt) /\
    NewNodeIndex (f_data (w_idx w1)) = Ok idx /\ after_passes (fun _ => EeThms.ex_zenv) idx 4 4 EeThms.ex_osm = Ok file2 /\ zlen file2 < 2^63 /\
    after_passes (fun _ => EeThms.ex_zenv) idx 1 1 EeThms.ex_osm <> Ok file2 /\
    read_file file2 = Ok [a0; a1; a2] /\ c_work fc_cfg a0 = Ok b0 /\ c_work fc_cfg a1 = Ok b1 /\ c_work fc_cfg a2 = Ok b2 /\ blk_Index b0 = 0 /\ blk_Index b1 = 1 /\ blk_Index b2 = 2 /\
    tagfilter_writer [b0; b1; b2] [] = Ok out /\ zlen out < 1000).
  { do 11 eexists. do 3 (split; [vm_compute; reflexivity|]). split; [vm_compute; reflexivity|]. split; [vm_compute; reflexivity|]. split; [vm_compute; discriminate|].
    do 8 (split; [vm_compute; reflexivity|]). vm_compute. reflexivity. }
  destruct W as (bs & w1 & idx & file2 & a0 & a1 & a2 & b0 & b1 & b2 & out & Q1 & Q2 & Q3 & Q4 & Q5 & Q6 & Q7 & E0 & E1 & E2 & I0 & I1 & I2 & Eo & L).
  destruct (run_all3 fc_cfg a0 a1 a2 b0 b1 b2 eq_refl eq_refl E0 E1 E2 I0 I1 I2 eq_refl eq_refl eq_refl) as (k & s & S & D & C & G).
  exists bs, w1, idx, file2, [a0; a1; a2], s, out. do 7 (split; [assumption|]). split; [exact (start_reach _ _ _ _ _ _ S)|]. split; [exact D|]. split; [exact C|]. rewrite G. split; [exact Eo|exact L].
Qed.
