(** * P_Rk: property theorems (generated from RkThms.v by tools/gen_props.py). *)
From Verif Require Import Base PbSpec TModel HLModel FrModel FrSpec ZlModel IoModel NiModel NiSpec RwModel WiModel WiSpec WiThms RiModel RiSpec KlModel KlSpec RkModel RkSpec RiThms RkThms.

(** C92.  Whenever the run of the relation indexer ends: only the output file and the files of its own passes have been
    touched, and before its last pass not even the output file. *)
Theorem C92_untouched : forall inBlocks wayIndex output n fs m at_pass c, 0 <= n ->
  ri_main_killed inBlocks wayIndex output n fs m at_pass c ->
  at_pass <= n /\ (at_pass < n - 1 -> c output = fs output) /\
  (forall name, name <> output -> (forall i, 0 <= i <= n -> name <> makePassFilename output i n) -> c name = fs name).
Proof. exact pC92_untouched. Qed.
Print Assumptions C92_untouched.

(** C92.  However often runs of the relation indexer have ended somewhere in between: running it again has the same outcome as
    if they had not been started; no file of theirs is left. *)
Theorem C92_rerun : forall inBlocks inBlocks' wayIndex output n fs c, wayIndex <> output -> (forall pass count, wayIndex <> makePassFilename output pass count) ->
  0 <= n < 2^63 -> ri_killed_often inBlocks wayIndex output n fs c ->
  same_outcome (ri_main inBlocks' wayIndex output n fs) (ri_main inBlocks' wayIndex output n c).
Proof. exact pC92_rerun. Qed.
Print Assumptions C92_rerun.

(** C92.  However often and whenever runs of the relation indexer ended: the output file is as it was before, or the first part
    of what a run writes that goes to its end, having read the same blocks (the first [m]; all, if it is not cancelled). *)
Theorem C92_output : forall inBlocks wayIndex output n fs c, wayIndex <> output -> (forall pass count, wayIndex <> makePassFilename output pass count) ->
  0 <= n < 2^63 -> ri_killed_often inBlocks wayIndex output n fs c ->
  c output = fs output \/
  exists m, forall fs', ri_main (firstn m inBlocks) wayIndex output n fs = Ok fs' ->
    exists out j, fs' output = Some out /\ c output = Some (firstn j out).
Proof. exact pC92_output. Qed.
Print Assumptions C92_output.

Example C92_ex :
  ri_main_killed ex_ri_one (bytes_of "ways") (bytes_of "out") 2 (ex_ri_fs ex_pass_file) 1 1 (ex_rk_cut (ex_ri_fs ex_pass_file)) /\
  ri_killed_often ex_ri_one (bytes_of "ways") (bytes_of "out") 2 (ex_ri_fs ex_pass_file) (ex_rk_cut (ex_ri_fs ex_pass_file)) /\
  ex_rk_cut (ex_ri_fs ex_pass_file) (bytes_of "out") = Some (SliceAsByteSlice [77; 2]) /\
  ex_rk_cut (ex_ri_fs ex_pass_file) (bytes_of "out.pass_001_002") <> None /\
  bytes_of "ways" <> bytes_of "out" /\ (forall pass count, bytes_of "ways" <> makePassFilename (bytes_of "out") pass count) /\
  exists fs', ri_main ex_ri_one (bytes_of "ways") (bytes_of "out") 2 (ex_rk_cut (ex_ri_fs ex_pass_file)) = Ok fs' /\
    fs' (bytes_of "out") = Some (SliceAsByteSlice ([77; 2] ++ [10; 1; 1] ++ [2; 1; 1])) /\
    fs' (bytes_of "out.pass_001_002") = None /\ fs' (bytes_of "out.pass_000_002") = None.
Proof. exact pC92_ex. Qed.
