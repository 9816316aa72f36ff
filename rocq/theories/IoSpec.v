(** * IoSpec: an operating system that makes progress. *)
From Verif Require Import Base IoModel.

(** Every write call writes at least one byte and succeeds. *)
Definition writes_progress (o : os) : Prop := forall k n, 0 < n -> 0 < fst (os_write o k n) /\ snd (os_write o k n) = false.
(** Every write call writes its whole buffer and succeeds (what os.File.Write promises
    when it returns no error). *)
Definition writes_whole (o : os) : Prop := forall k n, os_write o k n = (n, false).
(** Every read call delivers at least one byte if one is left, and no error except EOF. *)
Definition reads_progress (o : os) : Prop := forall k, 0 < fst (os_read o k) /\ snd (os_read o k) <> OtherErr.
(** No other call fails. *)
Definition calls_succeed (o : os) : Prop := forall k, os_fail o k = false.
Definition never_cancelled (o : os) : Prop := forall k, os_cancelled o k = false.

(** A file being appended to. *)
Definition at_end (f : file) : Prop := f_pos f = zlen (f_data f).

(** [a] is an initial part of [b]. *)
Definition prefix {A} (a b : list A) : Prop := exists r, b = a ++ r.

(** Word [j] of little-endian memory. *)
Definition word_at (b : list Z) (j : nat) : Z :=
  fold_right (fun i acc => acc + nth (8 * j + i) b 0 * 2^(8 * Z.of_nat i)) 0 (seq 0 8).

(** An operating system on which nothing goes wrong and that is never found cancelled. *)
Definition all_well (o : os) : Prop :=
  writes_whole o /\ reads_progress o /\ calls_succeed o /\ never_cancelled o.
