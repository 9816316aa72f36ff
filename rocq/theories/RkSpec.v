(** * RkSpec: running the relation indexer again. *)
From Verif Require Import Base TModel HLModel FrModel ZlModel IoModel NiModel RwModel WiModel RiModel RkModel.

(** The relation indexer was started on the files [fs] and did not get to its end, and again, any number of times, each time with the files
    left by the one before; [c] are the files in the end. *)
Inductive ri_killed_often (inBlocks : list (zenv * Block)) (wayIndex output : list Z) (passes : Z) (fs : fsys) : fsys -> Prop :=
| ri_killed_never : ri_killed_often inBlocks wayIndex output passes fs fs
| ri_killed_again : forall c m at_pass c', ri_killed_often inBlocks wayIndex output passes fs c ->
    ri_main_killed inBlocks wayIndex output passes c m at_pass c' ->
    ri_killed_often inBlocks wayIndex output passes fs c'.
