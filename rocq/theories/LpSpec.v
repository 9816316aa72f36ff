(** * LpSpec: the way a reader moves through a message. *)
From Coq Require Import Relations.
From Verif Require Import Base PbModel PbSpec TModel TSpec.

(** Reading the item at position [n] of [b] leaves the reader at position [n']. *)
Definition goes {St} (h : handler St) (b : slice) (n n' : Z) : Prop :=
  n < slen b /\ exists id n1 u, DecodeVarInt b n = Ok (id, n1) /\ h id b n1 = Ok (n', u).
(** Reading the item at position [n] never returns (a nested message does not). *)
Definition hangs {St} (h : handler St) (b : slice) (n : Z) : Prop :=
  n < slen b /\ exists id n1, DecodeVarInt b n = Ok (id, n1) /\ h id b n1 = Diverge.
(** Some number of items (possibly none) read from [n] on lead to [n']. *)
Definition leads {St} (h : handler St) (b : slice) : Z -> Z -> Prop := clos_refl_trans_1n Z (goes h b).
(** After one item or more the reader is back where it was. *)
Definition returns {St} (h : handler St) (b : slice) (n : Z) : Prop := exists m, goes h b n m /\ leads h b m n.
