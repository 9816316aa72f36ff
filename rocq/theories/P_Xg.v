(** * P_Xg: property theorems (generated from XgThms.v by tools/gen_props.py). *)
From Verif Require Import Base HLThms ZlThms TfThms NiThms RwThms PbSpec TModel TSpec HLModel FrModel FrSpec ZlModel ZlSpec IoModel IoSpec TfModel TfSpec NiModel NiSpec NiThms RwModel RwSpec WiModel WiSpec RiModel RiSpec PlModel PlSpec PlThms CxModel CxSpec CxThms XgThms.

(** C80, decompression, exactly.  Whenever and however often it was cancelled, whatever the schedule and the number of
    workers: what a run that has ended has written is a file with the types and payloads of the first [m] blobs of the input
    (all, if it was not cancelled) if and only if none of these is empty, and otherwise no file with payloads at all. *)
Theorem C80_decompress_exact : forall envs file pl bs workers wp rp s,
  bytes file -> zlen file < 2^63 -> contents envs file pl ->
  Forall (fun p => bytes (snd p) /\ zlen (snd p) < 2^31 - 20) pl ->
  read_file file = Ok bs -> reachable (dc_cfg envs wp rp) bs workers s -> completed s ->
  exists m, (m <= List.length pl)%nat /\ (s_cancelled s = false -> m = List.length pl) /\
    (let out := concat (map snd (s_got s)) in zlen out < 2^63 -> forall envs',
       (contents envs' out (firstn m pl) <-> Forall (fun p => snd p <> []) (firstn m pl)) /\
       ((exists pl', contents envs' out pl') <-> Forall (fun p => snd p <> []) (firstn m pl))).
Proof. exact pC80_decompress_exact. Qed.
Print Assumptions C80_decompress_exact.

(** C91, decompression, exactly.  However far a run got, and however much of its output was written: what is there cannot
    be split into blobs, or is a file with the types and payloads of the first [m] blobs of the input if and only if none of
    these is empty, and otherwise no file with payloads at all. *)
Theorem C91_decompress_exact : forall envs file pl bs workers wp rp s n j,
  bytes file -> zlen file < 2^63 -> contents envs file pl ->
  Forall (fun p => bytes (snd p) /\ zlen (snd p) < 2^31 - 20) pl ->
  read_file file = Ok bs -> reachable (dc_cfg envs wp rp) bs workers s ->
  let out := concat (map snd (firstn n (s_got s))) in zlen out < 2^63 ->
  (exists msg, read_file (firstn j out) = Panic msg) \/
  (exists m, (m <= List.length pl)%nat /\ forall envs',
     (contents envs' (firstn j out) (firstn m pl) <-> Forall (fun p => snd p <> []) (firstn m pl)) /\
     ((exists pl', contents envs' (firstn j out) pl') <-> Forall (fun p => snd p <> []) (firstn m pl))).
Proof. exact pC91_decompress_exact. Qed.
Print Assumptions C91_decompress_exact.

(** The run of C80_ex: a file of a header and a data blob with a payload, cancelled after the header; five bytes of what
    it wrote cannot be split into blobs. *)
Example C80_decompress_exact_ex : exists bs s, read_file ex_zfile = Ok bs /\ reachable (dc_cfg ex_zenv (fun _ => false) false) bs 1 s /\ completed s /\ s_cancelled s = true /\
  Forall (fun p : list Z * list Z => snd p <> []) [(bytes_of "OSMHeader", [7; 8]); (bytes_of "OSMData", [1; 2; 3])] /\
  contents ex_zenv ex_zfile [(bytes_of "OSMHeader", [7; 8]); (bytes_of "OSMData", [1; 2; 3])] /\
  (exists msg, read_file (firstn 5 (concat (map snd (s_got s)))) = Panic msg).
Proof. exact pC80_decompress_exact_ex. Qed.
