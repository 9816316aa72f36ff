(** * KlSpec: what a run that ended at any moment may leave behind, and running it again. *)
From Verif Require Import Base PbModel TModel HLModel FrModel FrSpec ZlModel IoModel NiModel RwModel RwSpec PlModel CxModel CxSpec KlModel.

(** The rewriter was started on the files [fs] and did not get to its end, and again, any number of times, each
    time with the files left by the one before; [c] are the files in the end.  The number of
    workers and what the operating system, the scheduler and the user do may be
    different each time. *)
Inductive killed_often (idx : NodeIndex) (input output : list Z) (memory : option Z) (ok_envs : (Z -> Z -> zenv) -> Prop) (fs : fsys) : fsys -> Prop :=
| killed_never : killed_often idx input output memory ok_envs fs fs
| killed_again : forall c envs workers at_pass c',
    killed_often idx input output memory ok_envs fs c -> ok_envs envs ->
    rw_main_killed envs idx input output memory workers c at_pass c' ->
    killed_often idx input output memory ok_envs fs c'.

(** The same outcome: the same panic, or the same files. *)
Definition same_outcome (r r' : res fsys) : Prop :=
  match r, r' with
  | Ok a, Ok b => forall name, a name = b name
  | Panic p, Panic q => p = q
  | Diverge, Diverge => True
  | _, _ => False
  end.

(** The file [f] cannot be read, or is the result of rewriting, in a single pass, the file cut after
    some blob. *)
Definition refused_or_good (envs : Z -> Z -> zenv) (idx : NodeIndex) (file : list Z) (blobs : list (list Z * list Z)) (f : list Z) : Prop :=
  (exists msg, read_file f = Panic msg) \/
  (exists m part, cut_after file blobs m part /\ (m = 0%nat /\ f = [] \/ after_passes envs idx 1 1 part = Ok f)).
