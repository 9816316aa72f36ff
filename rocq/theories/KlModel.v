(** * KlModel: runs that end at any moment: killed, out of disk space or by a panic
    (cmd/rewritenodes/rewritenodes.go, internal/pbf/process.go). *)
From Verif Require Import Base PbModel TModel HLModel FrModel ZlModel IoModel NiModel RwModel PlModel PlSpec CxModel.

(** rewritenodes.go:66-78, noderewriter_writer.go:15-43: the content of the output file of a pass at any moment of
    any schedule after it was created: a part of what is written for the blocks the writer has
    received so far (wrappers.go:79-92 [FWrite] may have written a part of its argument when the
    process ends).  Simplified: as CxModel.rw_pass_runs. *)
Inductive rw_pass_killed (envs : Z -> zenv) (ix : NodeSubIndex) (fin : bool) (workers : nat) (file : list Z)
  (cn : bool) (part : list Z) : Prop :=
| rw_pass_killed_by : forall m bs k s n out j,
    MMapMap file = Ok m -> read_file m = Ok bs ->
    steps (rw_conf envs ix fin) k (pl_start (rw_conf envs ix fin) cn bs workers) s ->
    rewriter_writer (firstn n (s_got s)) [] = Ok out -> zlen out < 2^63 -> part = firstn j out ->
    rw_pass_killed envs ix fin workers file cn part.

(** rewritenodes.go:49-82: the files [c] when the loop ends in pass [at_pass] (or after the last
    one).  [n] passes from pass [i] on. *)
Inductive rw_loop_killed (envs : Z -> Z -> zenv) (idx : NodeIndex) (input output : list Z) (passes : Z) (workers : nat)
  : nat -> Z -> bool -> fsys -> Z -> fsys -> Prop :=
| killed_before : forall n i cn fs, rw_loop_killed envs idx input output passes workers n i cn fs i fs
(** 52-54: the file of the pass before the last is removed; the output is not yet created *)
| killed_removed : forall n i cn fs,
    let fs1 := if 1 <? i then fs_remove_try fs (makePassFilename output (i - 1) passes) else fs in
    rw_loop_killed envs idx input output passes workers (S n) i cn fs i fs1
| killed_writing : forall n i cn fs ix file part,
    let fs1 := if 1 <? i then fs_remove_try fs (makePassFilename output (i - 1) passes) else fs in
    let inputFile := if 0 <? i then makePassFilename output i passes else input in
    let outputFile := if i + 1 <? passes then makePassFilename output (i + 1) passes else output in
    SubIndex idx i passes = Ok ix ->
    fs1 inputFile = Some file ->
    rw_pass_killed (envs i) ix (i =? passes - 1) workers file cn part ->
    rw_loop_killed envs idx input output passes workers (S n) i cn fs i (fs_set fs1 outputFile (Some part))
| killed_later : forall n i cn fs ix file cn1 out at_pass c,
    let fs1 := if 1 <? i then fs_remove_try fs (makePassFilename output (i - 1) passes) else fs in
    let inputFile := if 0 <? i then makePassFilename output i passes else input in
    let outputFile := if i + 1 <? passes then makePassFilename output (i + 1) passes else output in
    SubIndex idx i passes = Ok ix ->
    fs1 inputFile = Some file ->
    rw_pass_runs (envs i) ix (i =? passes - 1) workers file cn cn1 out ->
    rw_loop_killed envs idx input output passes workers n (i + 1) cn1 (fs_set fs1 outputFile (Some out)) at_pass c ->
    rw_loop_killed envs idx input output passes workers (S n) i cn fs at_pass c.

(** rewritenodes.go:24-101 [main]: the files [c] at any moment after the number of passes was
    computed, in pass [at_pass] or (if this is the number of passes) later. *)
Inductive rw_main_killed (envs : Z -> Z -> zenv) (idx : NodeIndex) (input output : list Z) (memory : option Z) (workers : nat)
  (fs : fsys) : Z -> fsys -> Prop :=
| main_killed_in : forall passes at_pass c, rw_count (LocationCount idx) memory = Ok passes ->
    rw_loop_killed envs idx input output passes workers (Z.to_nat passes) 0 false fs at_pass c ->
    rw_main_killed envs idx input output memory workers fs at_pass c
| main_killed_after : forall passes fs1 cn c, rw_count (LocationCount idx) memory = Ok passes ->
    rw_loop_runs envs idx input output passes workers (Z.to_nat passes) 0 false fs cn fs1 ->
    (if 1 <? passes then fs_remove fs1 (makePassFilename output (passes - 1) passes) else Ok fs1) = Ok c ->
    rw_main_killed envs idx input output memory workers fs passes c.
