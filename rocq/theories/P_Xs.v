(** * P_Xs: property theorems (generated from XsThms.v by tools/gen_props.py). *)
From Verif Require Import NiThms Base PbSpec TModel HLModel FrModel FrSpec ZlModel ZlSpec TfSpec MtModel IoModel IoSpec NiModel NiSpec RwModel RwSpec WiModel WiSpec RiModel RiSpec WsSpec PlThms EeSpec NiSpec EeThms XsThms.

(** C85, for every number of passes of the rewriter.  Index the nodes of an OSM file; rewrite it with that index in [n]
    passes; index the ways of the result; index the relations.  If the rewriter finishes, the relation index lists every
    relation with its ways and what is kept of the locations of their nodes, for the first [k] nodes of the file: all but
    fewer than [n], which are listed by their ids as if they were not in the file. *)
Theorem C85_exact : forall o (envs : run -> Z -> zenv) file blocks a,
  all_well o -> (forall r i, env_ok (envs r i)) -> osm_file envs file blocks -> 0 <= a <= 61 ->
  let ns := file_nodes blocks in let ws := file_ways blocks in let rels := file_relations blocks in
  (forall p, In (Some p) blocks -> block_sane p /\ zlen (block_nodes p) < 2^23) ->
  ascending (map in_id ns) -> Forall (fun n => 2 <= in_id n < 2^63) ns -> 0 < zlen ns < 2^39 ->
  ascending_by fst ws -> Forall (fun w => 0 <= fst w < 2^31) ws -> ws <> [] -> size_bound a ws <= 2^(33 + a) -> size_bound a ws < 2^62 ->
  Forall relation_ok rels -> rels <> [] ->
  exists bs w1 idx, read_file file = Ok bs /\ ni_index o (with_env (envs IndexNodes) bs) = (w1, Ok tt) /\ NewNodeIndex (f_data (w_idx w1)) = Ok idx /\
  forall n file2, 1 <= n ->
    (forall k f, Z.of_nat k <= n -> after_passes (fun pass => envs (Rewrite pass)) idx n k file = Ok f -> zlen f < 2^63) ->
    after_passes (fun pass => envs (Rewrite pass)) idx n (Z.to_nat n) file = Ok file2 ->
  exists k bs2 w2, zlen ns - n < k <= zlen ns /\ 0 <= k /\ read_file file2 = Ok bs2 /\ wi_index o a (with_env (envs IndexWays) bs2) = (w2, Ok tt) /\
  forall rbs m wayIndex output fs, In (Ok rbs) [read_file file; read_file file2] ->
    1 <= m <= 2^a -> wayIndex <> makePassFilename output 0 m -> fs wayIndex = Some (f_data (w_idx w2)) ->
  exists fs', ri_main (with_env (envs IndexRelations) rbs) wayIndex output m fs = Ok fs' /\
    fs' output = Some (SliceAsByteSlice (listing (way_locs (map (located_way (firstn (Z.to_nat k) ns)) ws)) (map summary rels))).
Proof. exact pC85_exact. Qed.
Print Assumptions C85_exact.

(** C85_ex's file in four passes: the index has the ranges 2-5 and 9-10, six locations with the gap at 4.  Six / 4 * 4 = 4
    of them are looked up: nodes 9 and 10 are not. *)
Example C85_exact_ex : exists bs w1 idx file2, read_file ex_osm = Ok bs /\ ni_index os_well (with_env (ex_envs IndexNodes) bs) = (w1, Ok tt) /\
  NewNodeIndex (f_data (w_idx w1)) = Ok idx /\ zlen (ni_locations idx) = 6 /\
  after_passes (fun pass => ex_envs (Rewrite pass)) idx 4 4 ex_osm = Ok file2 /\ zlen file2 < 2^63 /\
  after_passes (fun pass => ex_envs (Rewrite pass)) idx 1 1 ex_osm <> Ok file2.
Proof. exact pC85_exact_ex. Qed.

(** C48, exactly: the index can be divided into [n] sub-indexes if and only if there are at least as many locations as
    passes and the last range begins at or after the start of the last pass. *)
Theorem C48_divides_exact : forall rs l locs n, index_ok (rs ++ [l]) locs -> 1 <= n ->
  ((exists subs, passes (index_of (rs ++ [l]) locs) n = Ok subs) <-> n <= zlen locs /\ zlen locs / n * (n - 1) <= total rs).
Proof. exact pC48_divides_exact. Qed.
Print Assumptions C48_divides_exact.

(** Ten ranges of one location each can be divided into nine or six (10 / 6 = 1: six of the ten ranges), but not into eleven. *)
Example C48_divides_exact_ex : index_ok ex_ten (repeat (-1) 10) /\ (exists subs, passes (index_of ex_ten (repeat (-1) 10)) 9 = Ok subs) /\
  (exists subs, passes (index_of ex_ten (repeat (-1) 10)) 6 = Ok subs) /\ passes (index_of ex_ten (repeat (-1) 10)) 11 = Panic IndexOutOfRange.
Proof. exact pC48_divides_exact_ex. Qed.

(** C54, exactly.  The rewriter ends normally if and only if the memory limit gives a number of passes, the input exists
    and each of that many passes over it does. *)
Theorem C54_ends_exact : forall envs idx input output memory fs, input <> output ->
  (forall pass count, input <> makePassFilename output pass count) ->
  ((exists fs', rw_main envs idx input output memory fs = Ok fs') <->
   exists n file out, rw_count (LocationCount idx) memory = Ok n /\ fs input = Some file /\ after_passes envs idx n (Z.to_nat n) file = Ok out).
Proof. exact pC54_ends_exact. Qed.
Print Assumptions C54_ends_exact.

(** C86, the whole chain with any memory limit for which the index can be divided (C48_divides_exact): every step
    completes, and the relation index lists what C85_exact says. *)
Theorem C86_chain_exact : forall o (envs : run -> Z -> zenv) file blocks a input rewritten wayIndex output m fs,
  all_well o -> (forall r i, env_ok (envs r i)) -> osm_file envs file blocks -> small_file envs file blocks -> 0 <= a <= 61 ->
  let ns := file_nodes blocks in let ws := file_ways blocks in let rels := file_relations blocks in
  (forall p, In (Some p) blocks -> block_sane p /\ zlen (block_nodes p) < 2^23) ->
  ascending (map in_id ns) -> Forall (fun n => 2 <= in_id n < 2^63) ns -> 0 < zlen ns < 2^39 ->
  ascending_by fst ws -> Forall (fun w => 0 <= fst w < 2^31) ws -> ws <> [] -> size_bound a ws <= 2^(33 + a) -> size_bound a ws < 2^62 ->
  Forall relation_ok rels -> rels <> [] -> 1 <= m <= 2^a -> wayIndex <> makePassFilename output 0 m ->
  input <> rewritten -> (forall pass count, input <> makePassFilename rewritten pass count) -> fs input = Some file ->
  exists bs w1 idx, read_file file = Ok bs /\ ni_index o (with_env (envs IndexNodes) bs) = (w1, Ok tt) /\ NewNodeIndex (f_data (w_idx w1)) = Ok idx /\
  forall memory n, rw_count (LocationCount idx) memory = Ok n -> (exists subs, passes idx n = Ok subs) ->
  exists k fs2 file2 bs2 w2 fs3, zlen ns - n < k <= zlen ns /\ 0 <= k /\
    rw_main (fun pass => envs (Rewrite pass)) idx input rewritten memory fs = Ok fs2 /\ fs2 rewritten = Some file2 /\
    read_file file2 = Ok bs2 /\ wi_index o a (with_env (envs IndexWays) bs2) = (w2, Ok tt) /\
    ri_main (with_env (envs IndexRelations) bs2) wayIndex output m (fs_set fs2 wayIndex (Some (f_data (w_idx w2)))) = Ok fs3 /\
    fs3 output = Some (SliceAsByteSlice (listing (way_locs (map (located_way (firstn (Z.to_nat k) ns)) ws)) (map summary rels))).
Proof. exact pC86_chain_exact. Qed.
Print Assumptions C86_chain_exact.
