(** * P_Xh: property theorems (generated from XhThms.v by tools/gen_props.py). *)
From Verif Require Import NiThms Base PbSpec TModel HLModel HLSpec FrModel FrSpec ZlModel ZlSpec TfModel TfSpec MtModel IoModel IoSpec NiModel NiSpec RwModel RwSpec WiModel WiSpec RiModel RiSpec WsSpec PlModel PlSpec PlThms CxThms EeSpec ChSpec HLProofs HLProofs2 HLThms TfThms ChThms XhThms.

(** C87, exactly.  Whatever the schedule, the number of workers and the moment of a cancellation: what a decompression of an
    OSM file has written when it ends is an OSM file with the first [m] blocks (all of them if it was not cancelled), whoever
    reads it, if and only if none of these blocks has an empty content. *)
Theorem C87_decompressed_file_exact : forall (R R' : Type) (envs : R -> Z -> zenv) (envs' : R' -> Z -> zenv) r (r' : R') file blocks bs workers wp rp s,
  osm_file envs file blocks -> (forall i, env_ok (envs r i)) -> contents_fit (envs r) file ->
  read_file file = Ok bs -> reachable (dc_cfg (envs r) wp rp) bs workers s -> completed s ->
  exists m, (m <= List.length blocks)%nat /\ (s_cancelled s = false -> m = List.length blocks) /\
    let out := concat (map snd (s_got s)) in
    zlen out < 2^63 -> (osm_file envs' out (firstn m blocks) <-> no_empty_data (envs r) file m).
Proof. exact pC87_decompressed_file_exact. Qed.
Print Assumptions C87_decompressed_file_exact.

(** The file of C87_ex has only contents that fit, none of them empty. *)
Example C87_decompressed_file_exact_ex : contents_fit EeThms.ex_zenv ch_osm /\ no_empty_data EeThms.ex_zenv ch_osm 3.
Proof. exact pC87_decompressed_file_exact_ex. Qed.
