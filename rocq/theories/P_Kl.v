(** * P_Kl: property theorems (generated from KlThms.v by tools/gen_props.py). *)
From Verif Require Import Base HLThms ZlThms TfThms NiThms RwThms PbSpec TModel TSpec HLModel FrModel FrSpec ZlModel ZlSpec IoModel IoSpec TfModel TfSpec NiModel NiSpec NiThms RwModel RwSpec PlModel PlSpec PlThms CxModel CxSpec CxThms KlModel KlSpec KlThms.

(** C90.  Whenever the run of the rewriter ends: only the output file and the files of its own passes
    have been touched, and before its last pass not even the output file. *)
Theorem C90_untouched : forall envs idx input output memory workers fs at_pass c,
  rw_main_killed envs idx input output memory workers fs at_pass c ->
  exists n, rw_count (LocationCount idx) memory = Ok n /\ 0 <= at_pass <= n /\
    (at_pass < n - 1 -> c output = fs output) /\
    (forall name, name <> output -> (forall i, 1 <= i < n -> name <> makePassFilename output i n) -> c name = fs name).
Proof. exact pC90_untouched. Qed.
Print Assumptions C90_untouched.

(** C90.  However often runs of the rewriter have ended somewhere in between: running it again has the same
    outcome as if they had not been started; no file of theirs is left. *)
Theorem C90_rerun : forall envs idx input output memory ok fs c, input <> output ->
  (forall pass count, input <> makePassFilename output pass count) ->
  killed_often idx input output memory ok fs c ->
  same_outcome (rw_main envs idx input output memory fs) (rw_main envs idx input output memory c).
Proof. exact pC90_rerun. Qed.
Print Assumptions C90_rerun.

(** C90, the files for which C53 holds.  However often and whenever runs of the rewriter ended: the output file is as it was
    before, or no tool can read it, or it is the result of one whole pass with the whole index
    over the file cut after some blob.  There is no other way for it to be incomplete. *)
Theorem C90_output_partial : forall (ok : (Z -> Z -> zenv) -> Prop) envs input output memory file blobs rs locs fs c,
  input <> output -> (forall pass count, input <> makePassFilename output pass count) -> fs input = Some file ->
  bytes file -> zlen file < 2^63 -> is_file file blobs -> Forall (fun b => known_type (fst b)) blobs ->
  (forall i data, nth_error blobs i = Some (bytes_of "OSMData", data) ->
     exists p, forall envs, ok envs -> forall pass, holds_alone (envs pass (Z.of_nat i)) data p) ->
  (forall envs pass i, ok envs -> env_ok (envs pass i)) -> ok envs ->
  index_ok rs locs -> Forall (fun loc => is_s64 loc /\ loc <= 0) locs ->
  (forall n, rw_count (LocationCount (index_of rs locs)) memory = Ok n ->
     exists subs, passes (index_of rs locs) n = Ok subs /\ concat (map si_element subs) = map elem_of rs) ->
  killed_often (index_of rs locs) input output memory ok fs c ->
  c input = Some file /\
  (c output = fs output \/ exists f, c output = Some f /\ refused_or_good envs (index_of rs locs) file blobs f).
Proof. exact pC90_output_partial. Qed.
Print Assumptions C90_output_partial.

(** The conditions of C90 hold (see also the example of C79), and a run is killed in its second pass, when it has written
    40 bytes: the file of the first pass is left, and nothing reads the output file; the run that
    is started again gives the complete output and removes the file of its pass. *)
Example C90_ex : let envs := fun _ _ => ex_env in let blobs := cx_blobs [10; 80001] [80002; 20] in
  bytes_of "in.pbf" <> bytes_of "out" /\ (forall pass count, bytes_of "in.pbf" <> makePassFilename (bytes_of "out") pass count) /\
  cx_fs (bytes_of "in.pbf") = Some cx_in /\ bytes cx_in /\ zlen cx_in < 2^63 /\ is_file cx_in blobs /\ Forall (fun b => known_type (fst b)) blobs /\
  (forall i data, nth_error blobs i = Some (bytes_of "OSMData", data) ->
     exists p, forall e, e = envs -> forall pass, holds_alone (e pass (Z.of_nat i)) data p) /\
  index_ok cx_rs cx_locs /\ Forall (fun loc => is_s64 loc /\ loc <= 0) cx_locs /\
  exists c fs', killed_often (index_of cx_rs cx_locs) (bytes_of "in.pbf") (bytes_of "out") (Some 1) (fun e => e = envs) cx_fs c /\
    c (bytes_of "out") = Some kl_part /\ read_file kl_part = Panic SliceOutOfRange /\
    c (bytes_of "out.pass_001_002") = Some (cx_file (cx_blobs [-9; 80001] [80002; -9])) /\
    rw_main envs (index_of cx_rs cx_locs) (bytes_of "in.pbf") (bytes_of "out") (Some 1) c = Ok fs' /\
    fs' (bytes_of "out") = Some (cx_file (cx_blobs [-9; -9] [-9; -9])) /\ fs' (bytes_of "out.pass_001_002") = None.
Proof. exact pC90_ex. Qed.
