(** * P_Xz: property theorems (generated from XzThms.v by tools/gen_props.py). *)
From Verif Require Import Base HLThms ZlThms TfThms NiThms RwThms PbSpec TModel TSpec HLModel FrModel FrSpec ZlModel ZlSpec IoModel IoSpec TfModel TfSpec NiModel NiSpec NiThms RwModel RwSpec PlModel PlSpec PlThms CxModel CxSpec CxThms KlModel KlSpec XzThms.

(** C90, whatever the number of passes.  However often and whenever runs of the rewriter ended: the output file is as it was
    before, or no tool can read it, or it is what the passes make of the file cut after some blob.  There is no other way
    for it to be incomplete.  Its hypotheses: C90_ex. *)
Theorem C90_output_exact : forall (ok : (Z -> Z -> zenv) -> Prop) envs input output memory file blobs rs locs fs c,
  input <> output -> (forall pass count, input <> makePassFilename output pass count) -> fs input = Some file ->
  bytes file -> zlen file < 2^63 -> is_file file blobs -> Forall (fun b => known_type (fst b)) blobs ->
  (forall i data, nth_error blobs i = Some (bytes_of "OSMData", data) ->
     exists p, forall envs, ok envs -> forall pass, holds_alone (envs pass (Z.of_nat i)) data p) ->
  (forall envs pass i, ok envs -> env_ok (envs pass i)) -> ok envs ->
  index_ok rs locs -> Forall (fun loc => is_s64 loc /\ loc <= 0) locs ->
  killed_often (index_of rs locs) input output memory ok fs c ->
  c input = Some file /\
  (c output = fs output \/ exists f, c output = Some f /\ exists n, rw_count (LocationCount (index_of rs locs)) memory = Ok n /\ refused_or_cut envs (index_of rs locs) n file blobs f).
Proof. exact pC90_output_exact. Qed.
Print Assumptions C90_output_exact.
