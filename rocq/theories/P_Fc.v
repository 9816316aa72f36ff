(** * P_Fc: property theorems (generated from FcThms.v by tools/gen_props.py). *)
From Verif Require Import NiThms Base PbSpec TModel HLModel HLSpec FrModel FrSpec ZlModel ZlSpec TfModel TfSpec MtModel IoModel IoSpec NiModel NiSpec RwModel RwSpec WiModel WiSpec RiModel RiSpec WsSpec PlModel PlSpec PlThms CxThms EeSpec ChSpec EeThms ChThms FcThms.

(** C89.  Filtering changes nothing of the ways and of the members of relations of an OSM file, and
    of the ids and places of nodes it only leaves some out; whatever the schedule, and whatever the tags. *)
Theorem C89_filter_keeps : forall (R R' : Type) (envs : R -> Z -> zenv) (envs' : R' -> Z -> zenv) r file blocks es bs workers wp rp s,
  osm_file envs file blocks -> (forall i, env_ok (envs r i)) -> Forall2 elements_are blocks es ->
  read_file file = Ok bs -> reachable (tf_cfg (envs r) wp rp) bs workers s -> completed s -> s_cancelled s = false ->
  exists out, tagfilter_writer (s_got s) [] = Ok out /\
    (zlen out < 2^63 -> exists blocks', osm_file envs' out blocks' /\ file_ways blocks' = file_ways blocks /\
       map members (file_relations blocks') = map members (file_relations blocks) /\ left_of (file_nodes blocks') (file_nodes blocks)).
Proof. exact pC89_filter_keeps. Qed.
Print Assumptions C89_filter_keeps.

(** C89, the tool chain of C85 with the filter after the rewriter: the way index is made from the
    filtered file, the relation index from any of the three files, and lists the same as without the
    filter. *)
Theorem C89_filtered_chain_partial : forall o (envs : option run -> Z -> zenv) file blocks es a,
  all_well o -> (forall r i, env_ok (envs r i)) -> osm_file envs file blocks -> Forall2 elements_are blocks es -> 0 <= a <= 61 ->
  let ns := file_nodes blocks in let ws := file_ways blocks in let rels := file_relations blocks in
  (forall p, In (Some p) blocks -> block_sane p /\ zlen (block_nodes p) < 2^23) ->
  ascending (map in_id ns) -> Forall (fun n => 2 <= in_id n < 2^63) ns -> 0 < zlen ns < 2^39 ->
  ascending_by fst ws -> Forall (fun w => 0 <= fst w < 2^31) ws -> ws <> [] -> size_bound a ws <= 2^(33 + a) -> size_bound a ws < 2^62 ->
  Forall relation_ok rels -> rels <> [] ->
  exists bs w1 idx, read_file file = Ok bs /\ ni_index o (with_env (envs (Some IndexNodes)) bs) = (w1, Ok tt) /\ NewNodeIndex (f_data (w_idx w1)) = Ok idx /\
  forall n file2, 1 <= n -> covering idx n ->
    (forall k f, Z.of_nat k <= n -> after_passes (fun pass => envs (Some (Rewrite pass))) idx n k file = Ok f -> zlen f < 2^63) ->
    after_passes (fun pass => envs (Some (Rewrite pass))) idx n (Z.to_nat n) file = Ok file2 ->
  exists bs2, read_file file2 = Ok bs2 /\
  forall workers wp rp s, reachable (tf_cfg (envs None) wp rp) bs2 workers s -> completed s -> s_cancelled s = false ->
  exists file3, tagfilter_writer (s_got s) [] = Ok file3 /\ (zlen file3 < 2^63 ->
  exists bs3 w2, read_file file3 = Ok bs3 /\ wi_index o a (with_env (envs (Some IndexWays)) bs3) = (w2, Ok tt) /\
  forall rbs m wayIndex output fs, In (Ok rbs) [read_file file; read_file file2; read_file file3] ->
    1 <= m <= 2^a -> wayIndex <> makePassFilename output 0 m -> fs wayIndex = Some (f_data (w_idx w2)) ->
  exists fs', ri_main (with_env (envs (Some IndexRelations)) rbs) wayIndex output m fs = Ok fs' /\
    fs' output = Some (SliceAsByteSlice (listing (way_locs (map (located_way ns) ws)) (map summary rels)))).
Proof. exact pC89_filtered_chain_partial. Qed.
Print Assumptions C89_filtered_chain_partial.

(** The conditions of C89 hold of the file of C85 (its other conditions are those shown in C85_ex), and
    there is a run of the filter over it. *)
Example C89_ex : exists bs s out, osm_file (fun (_ : option run) => EeThms.ex_zenv) EeThms.ex_osm EeThms.ex_contents /\ (forall i, env_ok (EeThms.ex_zenv i)) /\ Forall2 elements_are EeThms.ex_contents fc_es /\
  read_file EeThms.ex_osm = Ok bs /\ reachable fc_cfg bs 1 s /\ completed s /\ s_cancelled s = false /\ tagfilter_writer (s_got s) [] = Ok out /\ zlen out < 1000.
Proof. exact pC89_ex. Qed.
