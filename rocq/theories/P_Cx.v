(** * P_Cx: property theorems (generated from CxThms.v by tools/gen_props.py). *)
From Verif Require Import Base HLThms ZlThms TfThms NiThms RwThms PbSpec TModel TSpec HLModel FrModel FrSpec ZlModel ZlSpec IoModel IoSpec TfModel TfSpec NiModel NiSpec NiThms RwModel RwSpec WiModel WiSpec RiModel RiSpec PlModel PlSpec PlThms CxModel CxSpec CxThms.

(** C79, the files for which it holds (as C53).  A run that was cancelled at any moment, or not at all, by
    any schedule of any number of workers and in any number of passes, if it ends normally, leaves an output
    file that is the result of one whole pass with the whole index over the file cut after
    some blob; if it was not cancelled, over the whole file.  So no block in it is
    missing refs that only a later pass would have replaced.  The pass files are gone and no
    other file was changed. *)
Theorem C79_prefix_partial : forall envs input output memory workers file blobs rs locs fs cancelled fs',
  input <> output -> (forall pass count, input <> makePassFilename output pass count) -> fs input = Some file ->
  bytes file -> zlen file < 2^63 -> is_file file blobs -> Forall (fun b => known_type (fst b)) blobs ->
  (forall i data, nth_error blobs i = Some (bytes_of "OSMData", data) -> exists p, forall pass, holds_alone (envs pass (Z.of_nat i)) data p) ->
  (forall pass i, env_ok (envs pass i)) ->
  index_ok rs locs -> Forall (fun loc => is_s64 loc /\ loc <= 0) locs ->
  (forall n, rw_count (LocationCount (index_of rs locs)) memory = Ok n ->
     exists subs, passes (index_of rs locs) n = Ok subs /\ concat (map si_element subs) = map elem_of rs) ->
  rw_main_runs envs (index_of rs locs) input output memory workers fs cancelled fs' ->
  exists m part out n, cut_after file blobs m part /\ fs' output = Some out /\
    (m = 0%nat /\ out = [] \/ after_passes envs (index_of rs locs) 1 1 part = Ok out) /\
    (cancelled = false -> part = file) /\
    rw_count (LocationCount (index_of rs locs)) memory = Ok n /\
    (forall i, 1 <= i < n -> fs' (makePassFilename output i n) = None) /\
    (forall name, name <> output -> (forall i, 1 <= i < n -> name <> makePassFilename output i n) -> fs' name = fs name).
Proof. exact pC79_prefix_partial. Qed.
Print Assumptions C79_prefix_partial.

(** The conditions of C79 hold, and there is a run that is cancelled in its second pass and leaves the first two blobs, with both refs replaced. *)
Example C79_ex : let envs := fun _ _ => ex_env in let blobs := cx_blobs [10; 80001] [80002; 20] in
  bytes_of "in.pbf" <> bytes_of "out" /\ (forall pass count, bytes_of "in.pbf" <> makePassFilename (bytes_of "out") pass count) /\
  cx_fs (bytes_of "in.pbf") = Some cx_in /\ bytes cx_in /\ zlen cx_in < 2^63 /\ is_file cx_in blobs /\ Forall (fun b => known_type (fst b)) blobs /\
  (forall i data, nth_error blobs i = Some (bytes_of "OSMData", data) -> exists p, forall pass, holds_alone (envs pass (Z.of_nat i)) data p) /\
  (forall pass i, env_ok (envs pass i)) /\ index_ok cx_rs cx_locs /\ Forall (fun loc => is_s64 loc /\ loc <= 0) cx_locs /\
  (forall n, rw_count (LocationCount (index_of cx_rs cx_locs)) (Some 1) = Ok n ->
     exists subs, passes (index_of cx_rs cx_locs) n = Ok subs /\ concat (map si_element subs) = map elem_of cx_rs) /\
  exists fs', rw_main_runs envs (index_of cx_rs cx_locs) (bytes_of "in.pbf") (bytes_of "out") (Some 1) 1 cx_fs true fs' /\
    fs' (bytes_of "out") = Some (cx_file (firstn 2 (cx_blobs [-9; -9] [-9; -9]))).
Proof. exact pC79_ex. Qed.

(** A cancelled run need not end normally: when the first of two passes was cancelled before its first block, it
    leaves an empty file, which the second pass cannot map. *)
Theorem C79_ends_refuted : exists out, rw_pass_runs (fun _ => ex_env) (cx_ix 0) false 1 cx_in false true out /\ out = [] /\
  MMapMap out = Panic IOError /\ forall envs ix fin workers cn cn' out', ~ rw_pass_runs envs ix fin workers out cn cn' out'.
Proof. exact pC79_ends_refuted. Qed.
Print Assumptions C79_ends_refuted.

(** C80, decompression, for the files of C66.  Whenever and however often it was cancelled, whatever
    the schedule and the number of workers: what a run that has ended has written is a file with the
    same types and payloads as the first [m] blobs of the input; all of them if it was not cancelled. *)
Theorem C80_decompress_partial : forall envs file pl bs workers wp rp s,
  bytes file -> zlen file < 2^63 -> contents envs file pl ->
  Forall (fun p => snd p <> [] /\ bytes (snd p) /\ zlen (snd p) < 2^31 - 20) pl ->
  read_file file = Ok bs -> reachable (dc_cfg envs wp rp) bs workers s -> completed s ->
  exists m, (m <= List.length pl)%nat /\ (s_cancelled s = false -> m = List.length pl) /\
    (let out := concat (map snd (s_got s)) in zlen out < 2^63 -> forall envs', contents envs' out (firstn m pl)).
Proof. exact pC80_decompress_partial. Qed.
Print Assumptions C80_decompress_partial.

(** C80, the relation index.  A run whose first step (the only one that can be cancelled) was
    cancelled goes on with the relations of the first [m] blocks: it does what it would do for
    an input of these blocks only (see C61-C63). *)
Theorem C80_relindex : forall envs file bs workers wp rp s, bytes file -> zlen file < 2^63 ->
  read_file file = Ok bs -> reachable (ri_cfg envs wp rp) bs workers s -> completed s ->
  exists m, (m <= List.length bs)%nat /\ (s_cancelled s = false -> m = List.length bs) /\
    ri_init (with_env envs (firstn m bs)) = ri_write (s_got s) [].
Proof. exact pC80_relindex. Qed.
Print Assumptions C80_relindex.

(** C81.  Whatever the schedule, the number of workers and the moment of a cancellation: a run of the
    tag filter that has ended has written a file that can be read again, and its blobs are those sent for the
    first [m] blocks of the input (all, if it was not cancelled), one for one and in order, fillers left out; each
    is what the filter makes of that block alone (see C31 for what that is). *)
Theorem C81_file : forall envs file bs workers wp rp s, bytes file -> zlen file < 2^63 -> (forall i, env_ok (envs i)) ->
  read_file file = Ok bs -> reachable (tf_cfg envs wp rp) bs workers s -> completed s ->
  exists m out, (m <= List.length bs)%nat /\ (s_cancelled s = false -> m = List.length bs) /\
    Forall2 (fun b msg => tf_worker [(envs (blk_Index b), b)] = Ok [msg]) (firstn m bs) (s_got s) /\
    tagfilter_writer (s_got s) [] = Ok out /\
    let kept := map (fun b => (blk_Type b, vis (blk_Data b))) (filter (fun b => negb (seqb (blk_Type b) (bytes_of "Filler"))) (s_got s)) in
    is_file out kept /\ (zlen out < 2^63 -> exists bs', read_file out = Ok bs' /\ map seen bs' = numbered kept).
Proof. exact pC81_file. Qed.
Print Assumptions C81_file.

(** A cancelled decompression of C66's example: the header only. *)
Example C80_ex : exists bs s, read_file ex_zfile = Ok bs /\ reachable (dc_cfg ex_zenv (fun _ => false) false) bs 1 s /\ completed s /\ s_cancelled s = true /\
  concat (map snd (s_got s)) = [0; 0; 0; 13; 10; 9] ++ bytes_of "OSMHeader" ++ [24; 4] ++ [10; 2; 7; 8].
Proof. exact pC80_ex. Qed.

(** A run over this file that was not cancelled: the header, and what is kept of the first data block. *)
Example C81_ex : exists bs s out, bytes ty_file /\ zlen ty_file < 2^63 /\ env_ok ex_env /\ read_file ty_file = Ok bs /\ reachable (tf_cfg (fun _ => ex_env) (fun _ => false) false) bs 1 s /\
  completed s /\ s_cancelled s = false /\ tagfilter_writer (s_got s) [] = Ok out /\
  out = cx_file [(bytes_of "OSMHeader", [1; 2]);
     (bytes_of "OSMData", vis (blk_Data (mk_block [mkNode 1 [(bytes_of "highway", [66])] 300 (-400); mkNode 9 [(bytes_of "name", [67])] 0 100] [ex_hway'] [ex_hrel'])))].
Proof. exact pC81_ex. Qed.
