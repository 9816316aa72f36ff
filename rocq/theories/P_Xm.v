(** * P_Xm: property theorems (generated from XmThms.v by tools/gen_props.py). *)
From Verif Require Import Base PbModel PbSpec NiModel NiSpec NiThms RwModel XmThms.

(** C06, the reader of signed lists that are not deltas (nothing here writes those: a list of them is the list of their
    zigzag forms written as unsigned numbers). *)
Theorem C06_signed_packed : forall pre post e l, bytes pre -> bytes post -> Forall is_s64 l ->
  let w := EncodeBuffer pre (EncodeU64Packed (map EncodeZigZag l) []) in
  zlen (w ++ post) < 2^63 -> DecodeS64Packed (mkslice (w ++ post) e) (zlen pre) = Ok (l, zlen w).
Proof. exact pC06_signed_packed. Qed.
Print Assumptions C06_signed_packed.

Example C06_signed_packed_ex : DecodeS64Packed (exact [7; 3; 1; 4; 5; 9]) 1 = Ok ([-1; 2; -3], 5).
Proof. exact pC06_signed_packed_ex. Qed.

(** C112.  With a memory limit of [m] MiB the rewrite takes the least number of passes whose equal shares of the
    locations (8 bytes each) are below the limit, and the ranges of a pass, but for its last one, are below it too. *)
Theorem C112_memory_partial : forall rs locs m n, index_ok rs locs -> zlen locs < 2^60 -> 0 < m < 2^44 ->
  rw_count (LocationCount (index_of rs locs)) (Some m) = Ok n ->
  1 <= n /\ (n - 1) * (m * 2^20) <= 8 * zlen locs < n * (m * 2^20) /\
  forall i sub, 0 <= i < n -> SubIndex (index_of rs locs) i n = Ok sub ->
    exists ranges top, sub = sub_index_of ranges locs top /\ (forall r, In r ranges -> In r rs) /\
      8 * total (removelast ranges) < m * 2^20.
Proof. exact pC112_memory_partial. Qed.
Print Assumptions C112_memory_partial.

Theorem C112_memory_refuted : exists rs locs m n sub, index_ok rs locs /\
  rw_count (LocationCount (index_of rs locs)) (Some m) = Ok n /\ (exists sub', SubIndex (index_of rs locs) 1 n = Ok sub') /\
  SubIndex (index_of rs locs) 0 n = Ok sub /\ exists ranges top, sub = sub_index_of ranges locs top /\ m * 2^20 < 8 * total ranges.
Proof. exact pC112_memory_refuted. Qed.
Print Assumptions C112_memory_refuted.

(** Hypotheses of C112_memory_partial met with two passes: the same index. *)
Example C112_memory_ex : index_ok big_rs big_locs /\ zlen big_locs < 2^60 /\ rw_count (LocationCount (index_of big_rs big_locs)) (Some 1) = Ok 2 /\
  rw_count (LocationCount (index_of big_rs big_locs)) (Some 2) = Ok 1.
Proof. exact pC112_memory_ex. Qed.
