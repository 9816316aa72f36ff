(** * P_Ch: property theorems (generated from ChThms.v by tools/gen_props.py). *)
From Verif Require Import NiThms Base PbSpec TModel HLModel HLSpec FrModel FrSpec ZlModel ZlSpec TfModel TfSpec MtModel IoModel IoSpec NiModel NiSpec RwModel RwSpec WiModel WiSpec RiModel RiSpec WsSpec PlModel PlSpec PlThms CxThms EeSpec ChSpec HLProofs HLProofs2 HLThms TfThms ChThms.

(** C87, for files none of whose contents is empty (see C66_empty_payload_refuted).  Whatever the
    schedule, the number of workers and the moment of a cancellation: what a decompression of an OSM
    file has written when it ends is an OSM file with the first [m] blocks, all of them if it was not
    cancelled, whoever reads it; and it is within the limits of the tool chain if the input was. *)
Theorem C87_decompressed_file_partial : forall (R R' : Type) (envs : R -> Z -> zenv) (envs' : R' -> Z -> zenv) r file blocks bs workers wp rp s,
  osm_file envs file blocks -> (forall i, env_ok (envs r i)) -> contents_ok (envs r) file ->
  read_file file = Ok bs -> reachable (dc_cfg (envs r) wp rp) bs workers s -> completed s ->
  exists m, (m <= List.length blocks)%nat /\ (s_cancelled s = false -> m = List.length blocks) /\
    let out := concat (map snd (s_got s)) in
    zlen out < 2^63 -> osm_file envs' out (firstn m blocks) /\ (small_file envs file blocks -> small_file envs' out (firstn m blocks)).
Proof. exact pC87_decompressed_file_partial. Qed.
Print Assumptions C87_decompressed_file_partial.

(** The conditions of C87 hold for a run that decompresses this file (178 bytes; 217 decompressed). *)
Example C87_ex : exists bs s, osm_file EeThms.ex_envs ch_osm EeThms.ex_contents /\ (forall i, env_ok (EeThms.ex_envs IndexNodes i)) /\ contents_ok (EeThms.ex_envs IndexNodes) ch_osm /\
  read_file ch_osm = Ok bs /\ reachable (dc_cfg (EeThms.ex_envs IndexNodes) (fun _ => false) false) bs 1 s /\ completed s /\ s_cancelled s = false /\ zlen (concat (map snd (s_got s))) = 217.
Proof. exact pC87_ex. Qed.

(** C88.  Whatever the schedule, the number of workers and the moment of a cancellation: what a run of
    the tag filter over an OSM file has written when it ends is an OSM file, whoever reads it.  Its
    elements are those of the first [m] blocks of the input (all, if the run was not cancelled),
    filtered; ways, relations and the places of nodes are all right; the tags of nodes are right in
    just those blocks in which no node has a tag whose key is the first string of the block's table. *)
Theorem C88_filtered_file_exact : forall (R R' : Type) (envs : R -> Z -> zenv) (envs' : R' -> Z -> zenv) r file blocks es bs workers wp rp s,
  osm_file envs file blocks -> (forall i, env_ok (envs r i)) -> Forall2 elements_are blocks es ->
  read_file file = Ok bs -> reachable (tf_cfg (envs r) wp rp) bs workers s -> completed s ->
  exists m out, (m <= List.length es)%nat /\ (s_cancelled s = false -> m = List.length es) /\ tagfilter_writer (s_got s) [] = Ok out /\
    (zlen out < 2^63 -> exists blocks' es', osm_file envs' out blocks' /\ filtered (firstn m es) es' /\ Forall2 written_as blocks' es').
Proof. exact pC88_filtered_file_exact. Qed.
Print Assumptions C88_filtered_file_exact.

(** C88, for files without empty tag keys, tag values and roles: the output's elements are the input's, filtered. *)
Theorem C88_no_empty_strings_partial : forall (R R' : Type) (envs : R -> Z -> zenv) (envs' : R' -> Z -> zenv) r file blocks es bs workers wp rp s,
  osm_file envs file blocks -> (forall i, env_ok (envs r i)) -> Forall2 elements_are blocks es -> Forall no_empty es ->
  read_file file = Ok bs -> reachable (tf_cfg (envs r) wp rp) bs workers s -> completed s ->
  exists m out, (m <= List.length es)%nat /\ (s_cancelled s = false -> m = List.length es) /\ tagfilter_writer (s_got s) [] = Ok out /\
    (zlen out < 2^63 -> exists blocks' es', osm_file envs' out blocks' /\ filtered (firstn m es) es' /\ Forall2 elements_are blocks' es').
Proof. exact pC88_no_empty_strings_partial. Qed.
Print Assumptions C88_no_empty_strings_partial.

(** The conditions of C88 hold for a run over this file: four nodes, of which two are left, a way, a relation, and a block of which nothing is left. *)
Example C88_ex : exists bs s out, osm_file (fun (_ : unit) (_ : Z) => ex_env) ty_file fl_blocks /\ env_ok ex_env /\ Forall2 elements_are fl_blocks [None; Some fl_e1; Some fl_e2] /\ Forall no_empty [None; Some fl_e1; Some fl_e2] /\
  read_file ty_file = Ok bs /\ reachable (tf_cfg (fun _ => ex_env) (fun _ => false) false) bs 1 s /\ completed s /\ s_cancelled s = false /\ tagfilter_writer (s_got s) [] = Ok out /\ zlen out < 2^63 /\
  filtered [None; Some fl_e1; Some fl_e2] [None; Some (mkElements [mkNode 1 [(bytes_of "highway", [66])] 300 (-400); mkNode 9 [(bytes_of "name", [67])] 0 100] (map back_way [ex_hway']) (map back_rel [ex_hrel']))].
Proof. exact pC88_ex. Qed.
