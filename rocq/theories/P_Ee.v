(** * P_Ee: property theorems (generated from EeThms.v by tools/gen_props.py). *)
From Verif Require Import NiThms Base PbSpec TModel HLModel FrModel FrSpec ZlModel ZlSpec TfSpec MtModel IoModel IoSpec NiModel NiSpec RwModel RwSpec WiModel WiSpec RiModel RiSpec WsSpec PlThms EeSpec EeThms.

(** C84.  If the rewriter finishes with an OSM file and a node index whose locations are negative
    or absent, in passes that cover the index, the output is an OSM file with the same blocks in
    the same order, in which only the refs of ways have changed: into what the index has for them. *)
Theorem C84_rewritten_file_partial : forall (R : Type) (envs : R -> Z -> zenv) (rp : Z -> R) file blocks rs locs n out,
  osm_file envs file blocks -> (forall run i, env_ok (envs run i)) ->
  index_ok rs locs -> rs <> [] -> Forall (fun loc => is_s64 loc /\ loc <= 0) locs -> 1 <= n -> covering (index_of rs locs) n ->
  (forall k f, Z.of_nat k <= n -> after_passes (fun pass => envs (rp pass)) (index_of rs locs) n k file = Ok f -> zlen f < 2^63) ->
  after_passes (fun pass => envs (rp pass)) (index_of rs locs) n (Z.to_nat n) file = Ok out ->
  osm_file envs out (with_refs (new_ref rs locs) blocks).
Proof. exact pC84_rewritten_file_partial. Qed.
Print Assumptions C84_rewritten_file_partial.

(** C85.  From the OSM file to the relation index.  Index the nodes of the file; rewrite it with
    that index, in passes that cover it; index the ways of the result; index the relations of
    either file, in at most 2^a passes.  If the rewriter finishes, the relation index lists every
    relation of the OSM file, in order, with its ways, and for each of them what is kept of the
    locations of its nodes; a node that is not in the file is listed by its id. *)
Theorem C85_end_to_end_partial : forall o (envs : run -> Z -> zenv) file blocks a,
  all_well o -> (forall r i, env_ok (envs r i)) -> osm_file envs file blocks -> 0 <= a <= 61 ->
  let ns := file_nodes blocks in let ws := file_ways blocks in let rels := file_relations blocks in
  (forall p, In (Some p) blocks -> block_sane p /\ zlen (block_nodes p) < 2^23) ->
  ascending (map in_id ns) -> Forall (fun n => 2 <= in_id n < 2^63) ns -> 0 < zlen ns < 2^39 ->
  ascending_by fst ws -> Forall (fun w => 0 <= fst w < 2^31) ws -> ws <> [] -> size_bound a ws <= 2^(33 + a) -> size_bound a ws < 2^62 ->
  Forall relation_ok rels -> rels <> [] ->
  exists bs w1 idx, read_file file = Ok bs /\ ni_index o (with_env (envs IndexNodes) bs) = (w1, Ok tt) /\ NewNodeIndex (f_data (w_idx w1)) = Ok idx /\
  forall n file2, 1 <= n -> covering idx n ->
    (forall k f, Z.of_nat k <= n -> after_passes (fun pass => envs (Rewrite pass)) idx n k file = Ok f -> zlen f < 2^63) ->
    after_passes (fun pass => envs (Rewrite pass)) idx n (Z.to_nat n) file = Ok file2 ->
  exists bs2 w2, read_file file2 = Ok bs2 /\ wi_index o a (with_env (envs IndexWays) bs2) = (w2, Ok tt) /\
  forall rbs m wayIndex output fs, In (Ok rbs) [read_file file; read_file file2] ->
    1 <= m <= 2^a -> wayIndex <> makePassFilename output 0 m -> fs wayIndex = Some (f_data (w_idx w2)) ->
  exists fs', ri_main (with_env (envs IndexRelations) rbs) wayIndex output m fs = Ok fs' /\
    fs' output = Some (SliceAsByteSlice (listing (way_locs (map (located_way ns) ws)) (map summary rels))).
Proof. exact pC85_end_to_end_partial. Qed.
Print Assumptions C85_end_to_end_partial.

(** C86.  On an OSM file within these limits the rewriter finishes, whatever the index, for every
    number of passes for which the index can be divided. *)
Theorem C86_rewriter_finishes : forall (R : Type) (envs : R -> Z -> zenv) (rp : Z -> R) file blocks rs locs n subs,
  osm_file envs file blocks -> (forall run i, env_ok (envs run i)) -> small_file envs file blocks -> blocks <> [] ->
  index_ok rs locs -> Forall is_s64 locs -> 1 <= n -> passes (index_of rs locs) n = Ok subs ->
  forall k, Z.of_nat k <= n -> exists f, after_passes (fun pass => envs (rp pass)) (index_of rs locs) n k file = Ok f /\ zlen f < 2^63.
Proof. exact pC86_rewriter_finishes. Qed.
Print Assumptions C86_rewriter_finishes.

(** C86, the whole chain with one pass of the rewriter (no --memory): every step completes, and
    the relation index lists what C85 says. *)
Theorem C86_chain : forall o (envs : run -> Z -> zenv) file blocks a input rewritten wayIndex output m fs,
  all_well o -> (forall r i, env_ok (envs r i)) -> osm_file envs file blocks -> small_file envs file blocks -> 0 <= a <= 61 ->
  let ns := file_nodes blocks in let ws := file_ways blocks in let rels := file_relations blocks in
  (forall p, In (Some p) blocks -> block_sane p /\ zlen (block_nodes p) < 2^23) ->
  ascending (map in_id ns) -> Forall (fun n => 2 <= in_id n < 2^63) ns -> 0 < zlen ns < 2^39 ->
  ascending_by fst ws -> Forall (fun w => 0 <= fst w < 2^31) ws -> ws <> [] -> size_bound a ws <= 2^(33 + a) -> size_bound a ws < 2^62 ->
  Forall relation_ok rels -> rels <> [] -> 1 <= m <= 2^a -> wayIndex <> makePassFilename output 0 m -> input <> rewritten -> fs input = Some file ->
  exists bs w1 idx fs2 file2 bs2 w2 fs3,
    read_file file = Ok bs /\ ni_index o (with_env (envs IndexNodes) bs) = (w1, Ok tt) /\ NewNodeIndex (f_data (w_idx w1)) = Ok idx /\
    rw_main (fun pass => envs (Rewrite pass)) idx input rewritten None fs = Ok fs2 /\ fs2 rewritten = Some file2 /\
    read_file file2 = Ok bs2 /\ wi_index o a (with_env (envs IndexWays) bs2) = (w2, Ok tt) /\
    ri_main (with_env (envs IndexRelations) bs2) wayIndex output m (fs_set fs2 wayIndex (Some (f_data (w_idx w2)))) = Ok fs3 /\
    fs3 output = Some (SliceAsByteSlice (listing (way_locs (map (located_way ns) ws)) (map summary rels))).
Proof. exact pC86_chain. Qed.
Print Assumptions C86_chain.

(** The hypotheses of C84 to C86 hold of this file.  Node 7, in way 5, is not in the file; way 6,
    in relation 101, neither; the relation 100 has a node as well. *)
Example C85_ex : all_well os_well /\ (forall r i, env_ok (ex_envs r i)) /\ osm_file ex_envs ex_osm ex_contents /\ small_file ex_envs ex_osm ex_contents /\
  (forall p, In (Some p) ex_contents -> block_sane p /\ zlen (block_nodes p) < 2^23) /\
  map in_id (file_nodes ex_contents) = [2; 3; 5; 9; 10] /\ file_ways ex_contents = [(5, [2; 3; 7]); (7, [9; 9; 5])] /\ size_bound 3 (file_ways ex_contents) = 78 /\
  Forall relation_ok (file_relations ex_contents) /\ map summary (file_relations ex_contents) = [(100, [7; 5]); (101, [6])] /\
  (let loc := located (file_nodes ex_contents) in
   listing (way_locs (map (located_way (file_nodes ex_contents)) (file_ways ex_contents))) (map summary (file_relations ex_contents)) =
   [100; 2] ++ [7; 2; loc 9; loc 5] ++ [5; 3; loc 2; loc 3; 7] ++ [101; 1] ++ [6; 0]) /\
  Forall (fun id => located (file_nodes ex_contents) id < 0) [2; 3; 5; 9].
Proof. exact pC85_ex. Qed.

Example C84_ex : osm_file ex_envs ex_osm ex_contents /\ (forall r i, env_ok (ex_envs r i)) /\ index_ok ex_ranges ex_locs /\ Forall (fun loc => is_s64 loc /\ loc <= 0) ex_locs /\
  covering (index_of ex_ranges ex_locs) 2 /\ (exists out, after_passes (fun pass => ex_envs (Rewrite pass)) (index_of ex_ranges ex_locs) 2 2 ex_osm = Ok out /\ zlen out = 172) /\
  file_ways (with_refs (new_ref ex_ranges ex_locs) ex_contents) = [(5, [-11; -12; 7]); (7, [-14; -14; -13])].
Proof. exact pC84_ex. Qed.
