(** * PlSpec: what reordering and the pipeline are for. *)
From Verif Require Import Base PlModel.
From Coq Require Export Permutation.

(** [bs] are the blocks with the indexes 0, 1, 2, ... *)
Definition indexed {A} (idx : A -> Z) (bs : list A) : Prop := map idx bs = map Z.of_nat (seq 0 (List.length bs)) /\ zlen bs < 2^64.

(** The worker function keeps the index of a block. *)
Definition keeps_index {A B} (c : cfg A B) (idx : A -> Z) (inp : list A) : Prop :=
  forall a b, In a inp -> c_work c a = Ok b -> c_index c b = idx a.

(** [n] steps *)
Inductive steps {A B} (c : cfg A B) : nat -> st A B -> st A B -> Prop :=
| steps_0 : forall s, steps c 0 s s
| steps_S : forall n s s' s'', step c s s' -> steps c n s' s'' -> steps c (S n) s s''.

(** The run has ended: pfs.Wait() returns, or a goroutine has panicked. *)
Definition completed {A B} (s : st A B) : Prop := s_phase s = PDone /\ s_crash s = None.
Definition ended {A B} (s : st A B) : Prop := completed s \/ s_crash s <> None.
(** Some goroutine can move (the cancellation of the context, which comes from outside, does not count). *)
Definition can_move {A B} (c : cfg A B) (s : st A B) : Prop := exists s', step c s s' /\ s_cancelled s' = s_cancelled s.
(** Nothing panics by itself. *)
Definition no_panics {A B} (c : cfg A B) (inp : list A) : Prop :=
  (forall a, In a inp -> exists b, c_work c a = Ok b) /\ (forall l, c_write_panics c l = false) /\ c_read_panics c = false.
