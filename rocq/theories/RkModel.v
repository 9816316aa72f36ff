(** * RkModel: runs of the relation indexer that end at any moment: killed, out of disk space or by a panic
    (cmd/relindex/relindex.go). *)
From Verif Require Import Base PbModel TModel HLModel FrModel ZlModel IoModel NiModel RwModel WiModel RiModel.

(** relindex.go:29-92, 128-143: the files [c] when the loop ends in pass [at_pass] (or after the last one); [n] passes from pass [i] on.
    The content of the file being written is a part of what the pass writes.  Simplified: if the pass panics, the
    content is arbitrary. *)
Inductive ri_loop_killed (wi : WayIndex) (output : list Z) (passes : Z) : nat -> Z -> fsys -> Z -> fsys -> Prop :=
| ri_killed_before : forall n i fs, ri_loop_killed wi output passes n i fs i fs
| ri_killed_writing : forall n i fs contents part,
    let inputFile := makePassFilename output i passes in
    let outputFile := if i + 1 <? passes then makePassFilename output (i + 1) passes else output in
    fs inputFile = Some contents ->
    (exists out j, ri_rewrite wi i passes contents = Ok out /\ part = firstn j out) \/ (forall out, ri_rewrite wi i passes contents <> Ok out) ->
    ri_loop_killed wi output passes (S n) i fs i (fs_set fs outputFile (Some part))
| ri_killed_later : forall n i fs contents out at_pass c,
    let inputFile := makePassFilename output i passes in
    let outputFile := if i + 1 <? passes then makePassFilename output (i + 1) passes else output in
    fs inputFile = Some contents ->
    ri_rewrite wi i passes contents = Ok out ->
    ri_loop_killed wi output passes n (i + 1) (fs_remove_try (fs_set fs outputFile (Some out)) inputFile) at_pass c ->
    ri_loop_killed wi output passes (S n) i fs at_pass c.

(** relindex.go:94-151 [main] on the file system: the files [c] at any moment.  The reading of the input may have been
    cancelled after [m] blocks (CxThms.pC80_relindex); [part]: what is written of the first file. *)
Inductive ri_main_killed (inBlocks : list (zenv * Block)) (wayIndex output : list Z) (passes : Z) (fs : fsys) (m : nat) : Z -> fsys -> Prop :=
| ri_killed_start : ri_main_killed inBlocks wayIndex output passes fs m (-1) fs
| ri_killed_init : forall msgs k first j, mapm (fun b => ri_worker (fst b) (snd b)) (firstn m inBlocks) = Ok msgs ->
    ri_write (firstn k msgs) [] = Ok first ->
    ri_main_killed inBlocks wayIndex output passes fs m (-1) (fs_set fs (makePassFilename output 0 passes) (Some (firstn j first)))
| ri_killed_in : forall first contents ix at_pass c, ri_init (firstn m inBlocks) = Ok first ->
    let fs1 := fs_set fs (makePassFilename output 0 passes) (Some first) in
    fs1 wayIndex = Some contents -> NewWayIndex contents = Ok ix ->
    ri_loop_killed ix output passes (Z.to_nat passes) 0 fs1 at_pass c ->
    ri_main_killed inBlocks wayIndex output passes fs m at_pass c.
