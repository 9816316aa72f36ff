(** * P_Xy: property theorems (generated from XyThms.v by tools/gen_props.py). *)
From Verif Require Import Base HLThms ZlThms TfThms NiThms RwThms PbSpec TModel TSpec HLModel FrModel FrSpec ZlModel ZlSpec IoModel IoSpec TfModel TfSpec NiModel NiSpec NiThms RwModel RwSpec WiModel WiSpec RiModel RiSpec PlModel PlSpec PlThms CxModel CxSpec XyThms.

(** C79, exactly: whatever the number of passes.  A run that was cancelled at any moment, or not at all, by any schedule of
    any number of workers, if it ends normally, leaves an output file that is what the same number of passes, not
    cancelled, make of the file cut after some blob; if it was not cancelled, of the whole file.  The pass files are gone
    and no other file was changed.  Its hypotheses: C79_ex. *)
Theorem C79_exact : forall envs input output memory workers file blobs rs locs fs cancelled fs',
  input <> output -> (forall pass count, input <> makePassFilename output pass count) -> fs input = Some file ->
  bytes file -> zlen file < 2^63 -> is_file file blobs -> Forall (fun b => known_type (fst b)) blobs ->
  (forall i data, nth_error blobs i = Some (bytes_of "OSMData", data) -> exists p, forall pass, holds_alone (envs pass (Z.of_nat i)) data p) ->
  (forall pass i, env_ok (envs pass i)) ->
  index_ok rs locs -> Forall (fun loc => is_s64 loc /\ loc <= 0) locs ->
  rw_main_runs envs (index_of rs locs) input output memory workers fs cancelled fs' ->
  exists m part out n, cut_after file blobs m part /\ fs' output = Some out /\
    (m = 0%nat /\ out = [] \/ after_passes envs (index_of rs locs) n (Z.to_nat n) part = Ok out) /\
    (cancelled = false -> part = file) /\
    rw_count (LocationCount (index_of rs locs)) memory = Ok n /\
    (forall i, 1 <= i < n -> fs' (makePassFilename output i n) = None) /\
    (forall name, name <> output -> (forall i, 1 <= i < n -> name <> makePassFilename output i n) -> fs' name = fs name).
Proof. exact pC79_exact. Qed.
Print Assumptions C79_exact.

(** C79: what a cancelled run leaves is the beginning of what the run would have written: if the passes over the file end
    normally, those over its first blobs do too, and their output is the beginning of that of the whole file. *)
Theorem C79_beginning : forall envs file blobs rs locs n m part whole,
  bytes file -> is_file file blobs -> Forall (fun b => known_type (fst b)) blobs ->
  (forall i data, nth_error blobs i = Some (bytes_of "OSMData", data) -> exists p, forall pass, holds_alone (envs pass (Z.of_nat i)) data p) ->
  (forall pass i, env_ok (envs pass i)) ->
  index_ok rs locs -> Forall (fun loc => is_s64 loc /\ loc <= 0) locs -> 1 <= n ->
  (forall k f, Z.of_nat k <= n -> after_passes envs (index_of rs locs) n k file = Ok f -> zlen f < 2^63) ->
  after_passes envs (index_of rs locs) n (Z.to_nat n) file = Ok whole -> cut_after file blobs m part -> (1 <= m)%nat ->
  exists out rest, after_passes envs (index_of rs locs) n (Z.to_nat n) part = Ok out /\ whole = out ++ rest.
Proof. exact pC79_beginning. Qed.
Print Assumptions C79_beginning.

(** C53_exact_ex's file in three passes, which lose the ref 90: the file cut after its second blob. *)
Example C79_beginning_ex : bytes ex_rw_file /\ is_file ex_rw_file ex_rw_blobs /\ index_ok ex_ten ex_rw_locs /\
  exists part out whole, cut_after ex_rw_file ex_rw_blobs 2 part /\ after_passes (fun _ _ => ex_env) (index_of ex_ten ex_rw_locs) 3 3 part = Ok out /\
    after_passes (fun _ _ => ex_env) (index_of ex_ten ex_rw_locs) 3 3 ex_rw_file = Ok whole /\ 0 < zlen out < zlen whole /\ zlen whole < 1000.
Proof. exact pC79_beginning_ex. Qed.
