(** * P_Xe: property theorems (generated from XeThms.v by tools/gen_props.py). *)
From Verif Require Import NiThms Base PbSpec TModel HLModel FrModel FrSpec ZlModel ZlSpec TfSpec MtModel IoModel IoSpec NiModel NiSpec RwModel RwSpec WiModel WiSpec RiModel RiSpec WsSpec PlThms EeSpec NiSpec EeThms XeThms.

(** C84, exactly.  With any number of passes: if the rewriter finishes, the output is an OSM file with the same blocks in
    which only refs of ways have changed: those in a range that begins before location n * (number of locations / n),
    into what the index has for them. *)
Theorem C84_exact : forall (R : Type) (envs : R -> Z -> zenv) (rp : Z -> R) file blocks rs locs n out,
  osm_file envs file blocks -> (forall run i, env_ok (envs run i)) ->
  index_ok rs locs -> Forall (fun loc => is_s64 loc /\ loc <= 0) locs -> 1 <= n ->
  (forall k f, Z.of_nat k <= n -> after_passes (fun pass => envs (rp pass)) (index_of rs locs) n k file = Ok f -> zlen f < 2^63) ->
  after_passes (fun pass => envs (rp pass)) (index_of rs locs) n (Z.to_nat n) file = Ok out ->
  exists f, osm_file envs out (with_refs f blocks) /\
    forall x, (reached rs (zlen locs / n * n) x -> f x = new_ref rs locs x) /\ (~ reached rs (zlen locs / n * n) x -> f x = x).
Proof. exact pC84_exact. Qed.
Print Assumptions C84_exact.

(** The file, index and contents of C84_ex in three passes: the last range begins at location 3 = 5 / 3 * 3, so the nodes
    9 and 10 are not looked up. *)
Example C84_exact_ex : (exists out, after_passes (fun pass => ex_envs (Rewrite pass)) (index_of EeThms.ex_ranges EeThms.ex_locs) 3 3 ex_osm = Ok out) /\
  reached EeThms.ex_ranges (zlen EeThms.ex_locs / 3 * 3) 5 /\ ~ reached EeThms.ex_ranges (zlen EeThms.ex_locs / 3 * 3) 10 /\ new_ref EeThms.ex_ranges EeThms.ex_locs 10 = -15.
Proof. exact pC84_exact_ex. Qed.
