(** * P_Xd: property theorems (generated from XdThms.v by tools/gen_props.py). *)
From Verif Require Import Base PbSpec PbModel TModel HLModel HLSpec FrModel FrSpec ZlModel ZlSpec ZlThms XdThms.

(** C24, exactly: the table is the empty string and then the others by decreasing number of additions, ties
    by bytes, if and only if the empty string was never added, or was added more often than every other
    string. *)
Theorem C24_exact : forall L, zlen L < 2^32 - 1 ->
  exists stb, (stb <- foldm AddString L NewStringTableBuilder ;; Finalize stb) = Ok stb /\
    ((exists r, ToStringTable stb = [] :: r /\
        StronglySorted (fun a b => occurrences L b < occurrences L a \/ occurrences L a = occurrences L b /\ bytes_lt a b) r) <->
     ~ In [] L \/ forall s, s <> [] -> In s L -> occurrences L s < occurrences L []).
Proof. exact pC24_exact. Qed.
Print Assumptions C24_exact.

(** Both sides: the empty string added twice and "a" once; both once. *)
Example C24_exact_ex :
  (exists stb, (stb <- foldm AddString [[]; [97]; []] NewStringTableBuilder ;; Finalize stb) = Ok stb /\ ToStringTable stb = [[]; [97]]) /\
  (exists stb, (stb <- foldm AddString [[]; [97]] NewStringTableBuilder ;; Finalize stb) = Ok stb /\ ToStringTable stb = [[97]; []]).
Proof. exact pC24_exact_ex. Qed.

(** C66, exactly: every file whose payloads are below 2^31-20 bytes is decompressed; the output has the same
    sequence of types and payloads if and only if none of them is empty, and otherwise cannot be read
    as a sequence of payloads at all, in whatever environment. *)
Theorem C66_exact : forall envs file pl,
  bytes file -> zlen file < 2^63 -> contents envs file pl ->
  Forall (fun p => bytes (snd p) /\ zlen (snd p) < 2^31 - 20) pl ->
  exists out, decompress envs file = Ok out /\ (zlen out < 2^63 -> forall envs',
    (contents envs' out pl <-> Forall (fun p => snd p <> []) pl) /\
    ((exists pl', contents envs' out pl') <-> Forall (fun p => snd p <> []) pl)).
Proof. exact pC66_exact. Qed.
Print Assumptions C66_exact.

(** C67, exactly: decompressing the output again reproduces it byte for byte if and only if no payload is
    empty, and panics otherwise, in whatever environment. *)
Theorem C67_exact : forall envs file pl out,
  bytes file -> zlen file < 2^63 -> contents envs file pl ->
  Forall (fun p => bytes (snd p) /\ zlen (snd p) < 2^31 - 20) pl ->
  decompress envs file = Ok out -> zlen out < 2^63 -> forall envs',
  (decompress envs' out = Ok out <-> Forall (fun p => snd p <> []) pl) /\
  ((exists m, decompress envs' out = Panic m) <-> ~ Forall (fun p => snd p <> []) pl).
Proof. exact pC67_exact. Qed.
Print Assumptions C67_exact.

(** The file of C66_ex has no empty payload; one with an empty payload exists by C66_empty_payload_refuted. *)
Example C66_exact_ex : contents ex_zenv ex_zfile [(bytes_of "OSMHeader", [7; 8]); (bytes_of "OSMData", [1; 2; 3])] /\
  Forall (fun p : list Z * list Z => snd p <> []) [(bytes_of "OSMHeader", [7; 8]); (bytes_of "OSMData", [1; 2; 3])] /\
  contents ex_zenv ([0; 0; 0; 11; 10; 7] ++ bytes_of "OSMData" ++ [24; 2] ++ [10; 0]) [(bytes_of "OSMData", [])].
Proof. exact pC66_exact_ex. Qed.
