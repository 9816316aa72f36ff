(** * CxModel: runs that may be cancelled (cmd/rewritenodes/rewritenodes.go, internal/pbf/process.go). *)
From Verif Require Import Base PbModel TModel HLModel FrModel ZlModel IoModel NiModel RwModel PlModel PlSpec.

(** process.go:71-105: the goroutines started with a context that may have been cancelled before. *)
Definition pl_start {A B} (c : cfg A B) (cancelled : bool) (inp : list A) (workers : nat) : st A B :=
  mkSt cancelled PRead inp (repeat (mkWk WRecv []) workers)
       (if c_writer c then ORecv else ODone) [] 0 (if c_writer c then VRecv else VDone) [] None.

(** The workers of noderewriter_worker.go and the writer of noderewriter_writer.go in the
    pipeline; the writer panics where FrModel.rewriter_writer does. *)
Definition rw_conf (envs : Z -> zenv) (ix : NodeSubIndex) (fin : bool) : cfg Block Block :=
  mkCfg (fun b => rw_worker (envs (blk_Index b)) ix fin b) blk_Index true
        (fun l => match rewriter_writer l [] with Ok _ => false | _ => true end) false.

(** rewritenodes.go:66-78: one pass that ends (pfs.Wait() returns), by some schedule, with the
    context cancelled or not before ([cn]) and after ([cn']); [out] is the content of the file
    written.  Simplified: only files that can be read to the end; no file has 2^63 bytes or more. *)
Inductive rw_pass_runs (envs : Z -> zenv) (ix : NodeSubIndex) (fin : bool) (workers : nat) (file : list Z)
  (cn cn' : bool) (out : list Z) : Prop :=
| rw_pass_runs_by : forall m bs k s,
    MMapMap file = Ok m -> read_file m = Ok bs ->
    steps (rw_conf envs ix fin) k (pl_start (rw_conf envs ix fin) cn bs workers) s ->
    completed s -> s_cancelled s = cn' ->
    rewriter_writer (s_got s) [] = Ok out -> zlen out < 2^63 ->
    rw_pass_runs envs ix fin workers file cn cn' out.

(** rewritenodes.go:49-82: as RwModel.rw_loop; the loop does not look at the context, so it
    goes on after a cancelled pass.  [n] passes from pass [i] on. *)
Inductive rw_loop_runs (envs : Z -> Z -> zenv) (idx : NodeIndex) (input output : list Z) (passes : Z) (workers : nat)
  : nat -> Z -> bool -> fsys -> bool -> fsys -> Prop :=
| rw_loop_end : forall i cn fs, rw_loop_runs envs idx input output passes workers 0 i cn fs cn fs
| rw_loop_pass : forall n i cn fs ix file cn1 out cn' fs',
    let fs1 := if 1 <? i then fs_remove_try fs (makePassFilename output (i - 1) passes) else fs in
    let inputFile := if 0 <? i then makePassFilename output i passes else input in
    let outputFile := if i + 1 <? passes then makePassFilename output (i + 1) passes else output in
    SubIndex idx i passes = Ok ix ->
    fs1 inputFile = Some file ->
    rw_pass_runs (envs i) ix (i =? passes - 1) workers file cn cn1 out ->
    rw_loop_runs envs idx input output passes workers n (i + 1) cn1 (fs_set fs1 outputFile (Some out)) cn' fs' ->
    rw_loop_runs envs idx input output passes workers (S n) i cn fs cn' fs'.

(** rewritenodes.go:24-101 [main] that ends normally, cancelled ([cn]) or not, with the files [fs']. *)
Inductive rw_main_runs (envs : Z -> Z -> zenv) (idx : NodeIndex) (input output : list Z) (memory : option Z) (workers : nat)
  (fs : fsys) (cn : bool) (fs' : fsys) : Prop :=
| rw_main_by : forall passes fs1, rw_count (LocationCount idx) memory = Ok passes ->
    rw_loop_runs envs idx input output passes workers (Z.to_nat passes) 0 false fs cn fs1 ->
    (if 1 <? passes then fs_remove fs1 (makePassFilename output (passes - 1) passes) else Ok fs1) = Ok fs' ->
    rw_main_runs envs idx input output memory workers fs cn fs'.
