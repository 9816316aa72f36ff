(** * PbSpec: independent specification of the protobuf wire primitives.

    Nothing in this file refers to the model of /repo. *)
From Verif Require Import Base.

(** A list of bytes. *)
Definition bytes (l : list Z) : Prop := Forall is_u8 l.

(** Base-128 little-endian value: the low seven bits of each byte are a digit. *)
Fixpoint leb_value (bs : list Z) : Z :=
  match bs with
  | [] => 0
  | b :: r => b mod 128 + 128 * leb_value r
  end.

(** A varint: every byte but the last has its top bit set, the last has not. *)
Fixpoint is_varint (bs : list Z) : Prop :=
  match bs with
  | [] => False
  | [b] => 0 <= b < 128
  | b :: r => 128 <= b < 256 /\ is_varint r
  end.

(** The zigzag map of the protobuf documentation. *)
Definition zigzag (n : Z) : Z := if n <? 0 then -2 * n - 1 else 2 * n.

(** Longest prefix in which no element equals its predecessor; [p] precedes. *)
Fixpoint until_repeat (p : Z) (l : list Z) : list Z :=
  match l with
  | [] => []
  | x :: r => if x =? p then [] else x :: until_repeat x r
  end.

(** [buf] is a Go slice of bytes: every element a byte, capacity an [int]. *)
Definition go_slice (b : slice) : Prop :=
  bytes (vis b) /\ bytes (ext b) /\ scap b < 2^63.
