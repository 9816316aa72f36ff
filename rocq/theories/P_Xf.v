(** * P_Xf: property theorems (generated from XfThms.v by tools/gen_props.py). *)
From Verif Require Import NiThms Base PbSpec TModel HLModel HLSpec FrModel FrSpec ZlModel ZlSpec TfModel TfSpec MtModel IoModel IoSpec NiModel NiSpec RwModel RwSpec WiModel WiSpec RiModel RiSpec WsSpec PlModel PlSpec PlThms CxThms EeSpec ChSpec EeThms ChThms FcThms XfThms.

(** C89, exactly: the tool chain with the filter after the rewriter, for every number of passes.  The relation index lists
    what it lists without the filter (C85_exact): all nodes but fewer than [n], the last ones, are located. *)
Theorem C89_filtered_chain_exact : forall o (envs : option run -> Z -> zenv) file blocks es a,
  all_well o -> (forall r i, env_ok (envs r i)) -> osm_file envs file blocks -> Forall2 elements_are blocks es -> 0 <= a <= 61 ->
  let ns := file_nodes blocks in let ws := file_ways blocks in let rels := file_relations blocks in
  (forall p, In (Some p) blocks -> block_sane p /\ zlen (block_nodes p) < 2^23) ->
  ascending (map in_id ns) -> Forall (fun n => 2 <= in_id n < 2^63) ns -> 0 < zlen ns < 2^39 ->
  ascending_by fst ws -> Forall (fun w => 0 <= fst w < 2^31) ws -> ws <> [] -> size_bound a ws <= 2^(33 + a) -> size_bound a ws < 2^62 ->
  Forall relation_ok rels -> rels <> [] ->
  exists bs w1 idx, read_file file = Ok bs /\ ni_index o (with_env (envs (Some IndexNodes)) bs) = (w1, Ok tt) /\ NewNodeIndex (f_data (w_idx w1)) = Ok idx /\
  forall n file2, 1 <= n ->
    (forall k f, Z.of_nat k <= n -> after_passes (fun pass => envs (Some (Rewrite pass))) idx n k file = Ok f -> zlen f < 2^63) ->
    after_passes (fun pass => envs (Some (Rewrite pass))) idx n (Z.to_nat n) file = Ok file2 ->
  exists k bs2, zlen ns - n < k <= zlen ns /\ 0 <= k /\ read_file file2 = Ok bs2 /\
  forall workers wp rp s, reachable (tf_cfg (envs None) wp rp) bs2 workers s -> completed s -> s_cancelled s = false ->
  exists file3, tagfilter_writer (s_got s) [] = Ok file3 /\ (zlen file3 < 2^63 ->
  exists bs3 w2, read_file file3 = Ok bs3 /\ wi_index o a (with_env (envs (Some IndexWays)) bs3) = (w2, Ok tt) /\
  forall rbs m wayIndex output fs, In (Ok rbs) [read_file file; read_file file2; read_file file3] ->
    1 <= m <= 2^a -> wayIndex <> makePassFilename output 0 m -> fs wayIndex = Some (f_data (w_idx w2)) ->
  exists fs', ri_main (with_env (envs (Some IndexRelations)) rbs) wayIndex output m fs = Ok fs' /\
    fs' output = Some (SliceAsByteSlice (listing (way_locs (map (located_way (firstn (Z.to_nat k) ns)) ws)) (map summary rels)))).
Proof. exact pC89_filtered_chain_exact. Qed.
Print Assumptions C89_filtered_chain_exact.

(** The file of C85 in four passes, which miss nodes 9 and 10, and a run of the filter over the result. *)
Example C89_filtered_chain_ex : exists bs w1 idx file2 bs2 s file3, read_file EeThms.ex_osm = Ok bs /\ ni_index os_well (with_env EeThms.ex_zenv bs) = (w1, Ok tt) /\
  NewNodeIndex (f_data (w_idx w1)) = Ok idx /\ after_passes (fun _ => EeThms.ex_zenv) idx 4 4 EeThms.ex_osm = Ok file2 /\ zlen file2 < 2^63 /\
  after_passes (fun _ => EeThms.ex_zenv) idx 1 1 EeThms.ex_osm <> Ok file2 /\
  read_file file2 = Ok bs2 /\ reachable fc_cfg bs2 1 s /\ completed s /\ s_cancelled s = false /\ tagfilter_writer (s_got s) [] = Ok file3 /\ zlen file3 < 1000.
Proof. exact pC89_filtered_chain_ex. Qed.
