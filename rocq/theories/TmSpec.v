(** * TmSpec: factors that can be given for timing, and what the lookup statistics count. *)
From Flocq Require Import BinarySingleNaN.
From Verif Require Import Base TModel NiModel NiSpec WiModel WiSpec TmModel.

(** [x] is at least [y] *)
Definition f64_ge (x y : f64) : bool := match Bcompare x y with Some Gt | Some Eq => true | _ => false end.
Definition nine_eighths : f64 := f64_div (f64_of_Z 9) (f64_of_Z 8).

(** Factors with which no lookup fails: at least 1.125, or senseless (negative, not a number). *)
Definition good_factor (f : f64) : Prop := f64_ge f nine_eighths = true \/ f64_gt (f64_of_Z 0) f = true \/ f = B754_nan.
(** Factors from 0 to 1 *)
Definition small_factor (f : f64) : Prop := f = f64_of_Z 0 \/ f64_gt f (f64_of_Z 0) = true /\ f64_gt f (f64_of_Z 1) = false.

(** The time a lookup took, in cycles: less than two seconds *)
Definition cycles (start end_ overhead : Z) : Z := s64 (u64 (u64 (end_ - start) - overhead)).

(** The counters after these lookups; the additions are atomic, so those of several workers happen one after
    the other in some order *)
Definition tally : Type := counter -> Z.
Definition counter_eqb (a b : counter) : bool :=
  match a, b with HitHint, HitHint | HitDefault, HitDefault | MissDeferred, MissDeferred | MissDefault, MissDefault => true | _, _ => false end.
Definition add_one (t : tally) (c : counter) : tally := fun d => if counter_eqb c d then u64 (t d + 1) else t d.
Definition counted (cs : list counter) : tally := fold_left add_one cs (fun _ => 0).

(** [l] is what several workers did, one after the other in some order; [ls] what each did *)
Inductive interleaved {A : Type} : list (list A) -> list A -> Prop :=
| interleaved_nil : forall ls, Forall (fun l => l = []) ls -> interleaved ls []
| interleaved_step : forall before a l after r, interleaved (before ++ l :: after) r ->
    interleaved (before ++ (a :: l) :: after) (a :: r).

(** The number of elements for which [f] holds *)
Definition number {A : Type} (f : A -> bool) (l : list A) : Z := zlen (filter f l).
(** the lookup is a hit *)
Definition hit (c : counter) : bool := match c with HitHint | HitDefault => true | _ => false end.
(** [id] is in a range *)
Definition covered (rs : list range) (id : Z) : bool := existsb (fun r => (r_first r <=? id) && (id <? r_first r + r_count r)) rs.
(** the refs that are looked up: those of these ways that are not yet locations *)
Definition looked_up (ws : list Way) : list Z := filter (fun ref => 0 <=? ref) (concat (map way_Refs ws)).
