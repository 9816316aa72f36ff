(** * PgSpec: what a widget sees of the progress record, and files as lists of frames. *)
From Verif Require Import Base PbSpec TModel FrModel FrSpec TrModel TmModel PgModel.

(** A widget reads the state, then the position, then the size, while the goroutine goes on: the three are those of moments
    i <= j <= k of its run. *)
Definition seen_at (run : list (ppc * pfs * Z)) (i : nat) (f : pfs -> Z) (v : Z) : Prop :=
  exists pc p sent, nth_error run i = Some (pc, p, sent) /\ f p = v.
Definition glance (run : list (ppc * pfs * Z)) (i j k : nat) (state at_ max : Z) : Prop :=
  (i <= j <= k)%nat /\ seen_at run i p_state state /\ seen_at run j p_at at_ /\ seen_at run k p_max max.

(** The file is these frames one after the other, all of known types. *)
Definition frames (file : list Z) (fbs : list (list Z)) : Prop :=
  file = concat fbs /\ Forall (fun fb => exists ty data, is_frame fb ty data /\ known_type ty) fbs.
