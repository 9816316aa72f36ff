(** * CxSpec: what a run that was cancelled may leave behind. *)
From Verif Require Import Base TModel FrSpec.

(** [part] is the file up to the end of its first [m] blobs. *)
Definition cut_after (file : list Z) (blobs : list (list Z * list Z)) (m : nat) (part : list Z) : Prop :=
  (m <= List.length blobs)%nat /\ is_file part (firstn m blobs) /\ exists rest, file = part ++ rest.
