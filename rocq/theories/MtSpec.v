(** * MtSpec: the bit layout of a Morton code, and ENCODING.md's formula. *)
From Verif Require Import Base.

(** [x] is a uint64 whose even bits are the 32 bits of [e] and whose odd bits are the 32
    bits of [o] (two's complement). *)
Definition interleaves (e o x : Z) : Prop :=
  is_u64 x /\ forall i, 0 <= i < 32 ->
    Z.testbit x (2 * i) = Z.testbit e i /\ Z.testbit x (2 * i + 1) = Z.testbit o i.

(** Coordinates in units of 1e-7 degrees. *)
Definition valid_lat (lat : Z) : Prop := - 900000000 <= lat <= 900000000.
Definition valid_lon (lon : Z) : Prop := - 1800000000 <= lon <= 1800000000.

(** ENCODING.md "Morton locations": even = lon, odd = (lat >> 1) | 0x80000000. *)
Definition documented_location (lon lat x : Z) : Prop :=
  interleaves lon (Z.lor (Z.shiftr lat 1) 2147483648) (u64 x).
