(** * P_Tm: property theorems (generated from TmThms.v by tools/gen_props.py). *)
From Verif Require Import Base TModel NiModel NiSpec WiModel WiSpec TmModel TmSpec NiThms TmThms.

Local Open Scope Z_scope.
(** C93.  Timing the lookups with a factor of 1.125 or more (or a senseless one) changes no result: whatever the time stamps read before and after, a lookup
    returns what it returns without timing, panics only if that one does, and is counted in the table once if its time
    is more than one cycle and less than two seconds.  (Partial: not for factors between 0 and 1.125, below.) *)
Theorem C93_same_partial : forall factor start end_ overhead fuel, good_factor factor -> (200 <= fuel)%nat ->
  exists slot, (slot <> None <-> 1 < cycles start end_ overhead < 2 * cpuFreq) /\ (forall i, slot = Some i -> 0 <= i < 200) /\
  (forall si id hint, (x <- FindNode_timed fuel (Some factor) start end_ overhead si id hint ;; Ok (fst (fst x), snd x)) = (r <- FindNode si id hint ;; Ok (r, slot))) /\
  (forall si id hint, (x <- FindLocations_timed fuel (Some factor) start end_ overhead si id hint ;; Ok (fst (fst x), snd x)) = (r <- FindLocations si id hint ;; Ok (r, slot))).
Proof. exact pC93_same_partial. Qed.
Print Assumptions C93_same_partial.

(** C93.  Timing with a factor from 0 to 1: no lookup that takes more than a cycle (and less than two seconds) ever returns. *)
Theorem C93_never_returns_refuted : forall factor start end_ overhead, small_factor factor -> 1 < cycles start end_ overhead < 2 * cpuFreq ->
  (forall si id hint r, FindNode si id hint = Ok r -> forall fuel, FindNode_timed fuel (Some factor) start end_ overhead si id hint = Diverge) /\
  (forall si id hint r, FindLocations si id hint = Ok r -> forall fuel, FindLocations_timed fuel (Some factor) start end_ overhead si id hint = Diverge).
Proof. exact pC93_never_returns_refuted. Qed.
Print Assumptions C93_never_returns_refuted.

(** C93.  Timing with the factor 17/16: a lookup that takes a second (3300000000 cycles) panics. *)
Theorem C93_out_of_range_refuted : forall si id hint r, FindNode si id hint = Ok r ->
  FindNode_timed 400 (Some (f64_div (f64_of_Z 17) (f64_of_Z 16))) 1000 (3300000000 + 1000 + 20) 20 si id hint = Panic IndexOutOfRange.
Proof. exact pC93_out_of_range_refuted. Qed.
Print Assumptions C93_out_of_range_refuted.

(** with the factor 2, a lookup of 1000 cycles is counted in slot 9 (2^9 < 1000 <= 2^10) *)
Example C93_ex : good_factor (f64_of_Z 2) /\ small_factor (f64_div (f64_of_Z 1) (f64_of_Z 2)) /\ cycles 5000 6030 30 = 1000 /\
  FindNode_timed 200 (Some (f64_of_Z 2)) 5000 6030 30 (sub_index_of ex_ranges ex_locations 22) 12 1 = Ok (-7, 0, true, HitDefault, Some 9) /\
  FindNode (sub_index_of ex_ranges ex_locations 22) 12 1 = Ok (-7, 0, true) /\
  FindNode_timed 200 (Some (f64_of_Z 2)) 5000 5000 30 (sub_index_of ex_ranges ex_locations 22) 12 1 = Ok (-7, 0, true, HitDefault, None).
Proof. exact pC93_ex. Qed.

(** C93.  With the factor 2, slot [i] of the table counts the lookups that took more than 2^i and at most 2^(i+1) cycles. *)
Theorem C93_slot_of_two : forall start end_ overhead fuel si id hint r, (200 <= fuel)%nat -> FindNode si id hint = Ok r ->
  1 < cycles start end_ overhead < 2 * cpuFreq ->
  exists c i, FindNode_timed fuel (Some (f64_of_Z 2)) start end_ overhead si id hint = Ok (r, c, Some i) /\
    2^i < cycles start end_ overhead <= 2^(i + 1).
Proof. exact pC93_slot_of_two. Qed.
Print Assumptions C93_slot_of_two.
