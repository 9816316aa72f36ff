(** * P_K2: property theorems (generated from K2Thms.v by tools/gen_props.py). *)
From Verif Require Import NiThms Base PbSpec TModel HLModel HLSpec FrModel FrSpec ZlModel ZlSpec TfModel TfSpec MtModel IoModel IoSpec NiModel NiSpec RwModel RwSpec WiModel WiSpec RiModel RiSpec WsSpec PlModel PlSpec PlThms CxModel CxSpec CxThms EeSpec ChSpec HLProofs HLProofs2 HLThms TfThms ChThms K2Thms.

(** C91, the tag filter.  Whatever the schedule and whenever its run ends: what is in the output file, once it was
    created, cannot be read by any tool or is what some run that was cancelled (or not) and ended normally writes
    (C81 and C88 say what that is). *)
Theorem C91_tagfilter : forall envs file bs workers wp rp s n out j, bytes file -> zlen file < 2^63 -> (forall i, env_ok (envs i)) ->
  read_file file = Ok bs -> reachable (tf_cfg envs wp rp) bs workers s ->
  tagfilter_writer (firstn n (s_got s)) [] = Ok out -> zlen out < 2^63 ->
  (exists msg, read_file (firstn j out) = Panic msg) \/
  (exists s', reachable (tf_cfg envs (fun _ => false) false) bs 1 s' /\ completed s' /\ tagfilter_writer (s_got s') [] = Ok (firstn j out)).
Proof. exact pC91_tagfilter. Qed.
Print Assumptions C91_tagfilter.

(** C91, the tag filter, for OSM files: the output file cannot be read, or is an OSM file whose elements are those of
    the first [m] blocks of the input, filtered (see C88). *)
Theorem C91_tagfilter_osm : forall (R R' : Type) (envs : R -> Z -> zenv) (envs' : R' -> Z -> zenv) r file blocks es bs workers wp rp s n out j,
  osm_file envs file blocks -> (forall i, env_ok (envs r i)) -> Forall2 elements_are blocks es ->
  read_file file = Ok bs -> reachable (tf_cfg (envs r) wp rp) bs workers s ->
  tagfilter_writer (firstn n (s_got s)) [] = Ok out -> zlen out < 2^63 ->
  (exists msg, read_file (firstn j out) = Panic msg) \/
  (exists m blocks' es', (m <= List.length es)%nat /\ osm_file envs' (firstn j out) blocks' /\ filtered (firstn m es) es' /\ Forall2 written_as blocks' es').
Proof. exact pC91_tagfilter_osm. Qed.
Print Assumptions C91_tagfilter_osm.

(** C91, the decompression, for files without empty contents (as C87). *)
Theorem C91_decompress_partial : forall (R R' : Type) (envs : R -> Z -> zenv) (envs' : R' -> Z -> zenv) r file blocks bs workers wp rp s n j,
  osm_file envs file blocks -> (forall i, env_ok (envs r i)) -> contents_ok (envs r) file ->
  read_file file = Ok bs -> reachable (dc_cfg (envs r) wp rp) bs workers s ->
  let out := concat (map snd (firstn n (s_got s))) in zlen out < 2^63 ->
  (exists msg, read_file (firstn j out) = Panic msg) \/
  (exists m, (m <= List.length blocks)%nat /\ osm_file envs' (firstn j out) (firstn m blocks)).
Proof. exact pC91_decompress_partial. Qed.
Print Assumptions C91_decompress_partial.

(** The conditions of C91 hold for a run over the file of C88's example; the first 30 bytes of its output cannot be read, the
    first 19 are the header. *)
Example C91_ex : exists bs s out, osm_file (fun (_ : unit) (_ : Z) => ex_env) ty_file fl_blocks /\ env_ok ex_env /\ Forall2 elements_are fl_blocks [None; Some fl_e1; Some fl_e2] /\
  read_file ty_file = Ok bs /\ reachable (tf_cfg (fun _ => ex_env) (fun _ => false) false) bs 1 s /\
  tagfilter_writer (firstn 3 (s_got s)) [] = Ok out /\ zlen out < 2^63 /\ read_file (firstn 30 out) = Panic SliceOutOfRange /\
  (bs' <- read_file (firstn 19 out) ;; Ok (map seen bs')) = Ok [(0, (bytes_of "OSMHeader", [1; 2]))].
Proof. exact pC91_ex. Qed.
