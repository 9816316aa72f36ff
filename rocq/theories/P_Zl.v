(** * P_Zl: property theorems (generated from ZlThms.v by tools/gen_props.py). *)
From Verif Require Import Base BaseLemmas PbModel PbSpec PbProofs PbProofs2 TModel TSpec TProofs TMsg TMsg2 HLModel HLSpec HLProofs FrModel FrSpec FrProofs FrThms ZlModel ZlSpec ZlThms.

(** C64.  In every history: outstanding borrows are backed by pairwise different arrays,
    none of which is in the pool; and every further request of less than 2^63 bytes,
    whatever sync.Pool chooses, succeeds, has exactly the requested length within its
    capacity, and is backed by an array no outstanding borrow has. *)
Theorem C64_borrows : forall s out, history s out ->
  NoDup (map (fun b => st_id (bb_storage b)) out) /\
  (forall b st, In b out -> In st (ps_free s) -> st_id (bb_storage b) <> st_id st) /\
  forall sz k def, 0 <= sz < 2^63 -> 0 <= def ->
    exists b s', pool_Get s sz k def = Ok (b, s') /\ bb_len b = sz /\ sz <= st_cap (bb_storage b) /\
      Forall (fun b' => st_id (bb_storage b') <> st_id (bb_storage b)) out.
Proof. exact pC64_borrows. Qed.
Print Assumptions C64_borrows.

(** The return discipline is needed: returning one borrow twice lets the pool hand out
    the same array twice. *)
Theorem C64_double_return_shares :
  exists s0 b s1 b1 s3 b2 s4, pool_Get s0 10 0 64 = Ok (b, s1) /\ s0 = mkPool 0 [] /\
    let s2 := pool_Put (pool_Put s1 b) b in
    pool_Get s2 5 0 64 = Ok (b1, s3) /\ pool_Get s3 6 0 64 = Ok (b2, s4) /\
    st_id (bb_storage b1) = st_id (bb_storage b2).
Proof. exact pC64_double_return_shares. Qed.
Print Assumptions C64_double_return_shares.

Example C64_ex :
  exists b1 b2 b3, history (mkPool 2 []) [b3; b2] /\
    bb_len b2 = 100 /\ bb_storage b2 = mkStorage 1 100 /\ bb_len b3 = 7 /\ bb_storage b3 = mkStorage 0 64 /\
    bb_storage b1 = mkStorage 0 64.
Proof. exact pC64_ex. Qed.

(** C65.  Decompressing a blob with declared size [n], for every zlib stream, every way
    the reader splits it, and every buffer the pool hands out: it always terminates; if
    it returns, the result is the first [n] bytes of the stream; if the stream has exactly
    [n] bytes it returns; if the stream is shorter it panics. *)
Theorem C65_decompress : forall env n, ze_open env = true -> 0 <= n < 2^31 ->
  decodeZLib env (Some n) <> Diverge /\
  (forall s, decodeZLib env (Some n) = Ok s ->
     zlen (vis s) = n /\ exists rest, stream (ze_reads env) = vis s ++ rest) /\
  (zlen (stream (ze_reads env)) = n -> exists s, decodeZLib env (Some n) = Ok s /\ vis s = stream (ze_reads env)) /\
  (zlen (stream (ze_reads env)) < n -> exists m, decodeZLib env (Some n) = Panic m).
Proof. exact pC65_decompress. Qed.
Print Assumptions C65_decompress.

(** C65, malformed blobs: no declared size, a negative size, or a stream zlib rejects all
    panic. *)
Theorem C65_malformed : forall env n,
  (ze_open env = false -> exists m, decodeZLib env n = Panic m) /\
  (ze_open env = true -> decodeZLib env None = Panic NilDeref) /\
  (forall k, n = Some k -> -2^31 <= k < 0 -> zlen (ze_pooled env) < 2^62 -> exists m, decodeZLib env n = Panic m).
Proof. exact pC65_malformed. Qed.
Print Assumptions C65_malformed.

(** C65, which data is used: raw data if there is some, otherwise the zlib data; a blob with
    neither (for instance with another compression) is rejected. *)
Theorem C65_which_data : forall env b,
  (forall raw, blob_Raw b = Some raw -> GetRawData env b = Ok raw) /\
  (forall z, blob_Raw b = None -> blob_ZLibData b = Some z -> GetRawData env b = decodeZLib env (blob_RawSize b)) /\
  (blob_Raw b = None -> blob_ZLibData b = None -> exists m, GetRawData env b = Panic m).
Proof. exact pC65_which_data. Qed.
Print Assumptions C65_which_data.

Example C65_ex :
  let env := mkZenv true [([1; 2], false); ([], false); ([3; 4; 5], true)] [9; 9; 9; 9; 9; 9] in
  ze_open env = true /\ stream (ze_reads env) = [1; 2; 3; 4; 5] /\
  decodeZLib env (Some 5) = Ok (mkslice [1; 2; 3; 4; 5] [9]) /\
  decodeZLib env (Some 6) = Panic IOError /\
  decodeZLib (mkZenv true [([1; 2], false); ([3], true)] [9]) (Some 1) = Ok (mkslice [1] []).
Proof. exact pC65_ex. Qed.

(** C66, for input files none of whose payloads is empty (and each below 2^31-20 bytes):
    the output is a file with the same sequence of types and payloads, in whatever
    environment it is read. *)
Theorem C66_same_contents_partial : forall envs file pl,
  bytes file -> zlen file < 2^63 -> contents envs file pl ->
  Forall (fun p => snd p <> [] /\ bytes (snd p) /\ zlen (snd p) < 2^31 - 20) pl ->
  exists out, decompress envs file = Ok out /\ (zlen out < 2^63 -> forall envs', contents envs' out pl).
Proof. exact pC66_same_contents_partial. Qed.
Print Assumptions C66_same_contents_partial.

(** C67, under the same condition: decompressing the output again reproduces it byte for
    byte, in whatever environment. *)
Theorem C67_idempotent_partial : forall envs file pl out,
  bytes file -> zlen file < 2^63 -> contents envs file pl ->
  Forall (fun p => snd p <> [] /\ bytes (snd p) /\ zlen (snd p) < 2^31 - 20) pl ->
  decompress envs file = Ok out -> zlen out < 2^63 ->
  forall envs', decompress envs' out = Ok out.
Proof. exact pC67_idempotent_partial. Qed.
Print Assumptions C67_idempotent_partial.

Example C66_ex :
  contents ex_zenv ex_zfile [(bytes_of "OSMHeader", [7; 8]); (bytes_of "OSMData", [1; 2; 3])] /\
  decompress ex_zenv ex_zfile = Ok ex_zout.
Proof. exact pC66_ex. Qed.

Example C67_ex : decompress ex_zenv ex_zout = Ok ex_zout.
Proof. exact pC67_ex. Qed.

(** C66 and C67 fail for an empty payload: the output blob has neither raw nor
    compressed data, so nothing can read it and decompressing it again panics. *)
Theorem C66_empty_payload_refuted :
  exists envs file out, bytes file /\ contents envs file [(bytes_of "OSMData", [])] /\
    decompress envs file = Ok out /\ forall envs' pl, ~ contents envs' out pl.
Proof. exact pC66_empty_payload_refuted. Qed.
Print Assumptions C66_empty_payload_refuted.

Theorem C67_empty_payload_refuted :
  exists envs file out, contents envs file [(bytes_of "OSMData", [])] /\
    decompress envs file = Ok out /\ forall envs', exists m, decompress envs' out = Panic m.
Proof. exact pC67_empty_payload_refuted. Qed.
Print Assumptions C67_empty_payload_refuted.
