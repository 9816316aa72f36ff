(** * P_Xw: property theorems (generated from XwThms.v by tools/gen_props.py). *)
From Verif Require Import Base PbSpec TModel HLModel FrModel FrSpec ZlModel IoModel TfSpec NiModel NiSpec NiThms RwModel RwSpec RwThms XwThms.

(** C53, exactly (all locations negative or absent, as the indexer stores them, and every block
    decodable): if [n] passes succeed, and one pass succeeds, their files are the same if and only if every
    ref of a way that one pass replaces is in a range of the index that begins before location
    n * (number of locations / n). *)
Theorem C53_exact : forall envs file blobs rs locs n out out1,
  bytes file -> zlen file < 2^63 -> is_file file blobs -> Forall (fun b => known_type (fst b)) blobs ->
  (forall i data, nth_error blobs i = Some (bytes_of "OSMData", data) -> exists p, forall pass, holds_alone (envs pass (Z.of_nat i)) data p) ->
  (forall pass i, env_ok (envs pass i)) ->
  index_ok rs locs -> Forall (fun loc => is_s64 loc /\ loc <= 0) locs -> 1 <= n ->
  (forall k f, Z.of_nat k < n -> after_passes envs (index_of rs locs) n k file = Ok f -> zlen f < 2^63) ->
  after_passes envs (index_of rs locs) n (Z.to_nat n) file = Ok out -> zlen out < 2^63 ->
  after_passes envs (index_of rs locs) 1 1 file = Ok out1 ->
  (out = out1 <->
   forall i data p g ws w x, nth_error blobs i = Some (bytes_of "OSMData", data) -> holds_alone (envs 0 (Z.of_nat i)) data p ->
     In g (pblk_PrimitiveGroup p) -> pg_Ways g = Some ws -> In w ws -> In x (way_Refs w) -> new_ref rs locs x <> x ->
     exists k r, nth_error rs k = Some r /\ in_range r x /\ total (firstn k rs) < zlen locs / n * n).
Proof. exact pC53_exact. Qed.
Print Assumptions C53_exact.

(** Both sides: C53_ex (five passes) and C53_lost_ref_refuted (three) on the same file; ref 90 is in the last range, which
    begins at location 9: not before 3 * (10 / 3). *)
Example C53_exact_ex : index_ok ex_ten ex_rw_locs /\ Forall (fun loc => is_s64 loc /\ loc <= 0) ex_rw_locs /\ new_ref ex_ten ex_rw_locs 90 <> 90 /\
  (exists r, nth_error ex_ten 9 = Some r /\ in_range r 90) /\ total (firstn 9 ex_ten) = 9 /\ zlen ex_rw_locs / 3 * 3 = 9 /\ zlen ex_rw_locs / 5 * 5 = 10.
Proof. exact pC53_exact_ex. Qed.
