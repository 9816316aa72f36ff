(** * TmModel: the statistics of index lookups (internal/nodeindex/nodesubindex.go, internal/wayindex/subindex.go): the
    four counters and the table of lookup times. *)
From Flocq Require Import BinarySingleNaN.
From Verif Require Import Base TModel NiModel WiModel.

(** ** float64: IEEE 754 binary64, rounding to nearest even (Flocq's formalisation; Go's conversions and operators
    on float64 are these). *)
Definition f64 : Type := binary_float 53 1024.
Definition f64_prec : FLX.Prec_gt_0 53 := eq_refl.
Definition f64_emax : Prec_lt_emax 53 1024 := eq_refl.
Definition f64_of_Z (n : Z) : f64 := @binary_normalize 53 1024 f64_prec f64_emax mode_NE n 0 false.
Definition f64_div (x y : f64) : f64 := @Bdiv 53 1024 f64_prec f64_emax mode_NE x y.
(** the comparison operator > ; false if one side is not a number *)
Definition f64_gt (x y : f64) : bool := match Bcompare x y with Some Gt => true | _ => false end.

(** ** the four counters *)
Inductive counter : Type := HitHint | HitDefault | MissDeferred | MissDefault.

(** nodesubindex.go:28-74 [findNodeActual]: its result and the counter it adds one to, before the location is read. *)
Definition findNodeActual (si : NodeSubIndex) (id hint : Z) : res (Z * Z * bool * counter) :=
  if si_Top si <? id then Ok (0, hint, false, MissDeferred)
  else
    let search (lo up : Z) : res (Z * Z * bool * counter) :=
      lo <- binary_search (si_element si) id lo up ;;
      if zlen (si_element si) <=? lo then Ok (0, hint, false, MissDefault)
      else
        e <- lidx (si_element si) lo ;;
        if negb (contains e id) then Ok (0, hint, false, MissDefault)
        else
          off <- OffsetForID e id ;;
          loc <- lidx (si_locations si) off ;;
          Ok (loc, lo, negb (loc =? 0), HitDefault) in
    if hint <? zlen (si_element si) then
      e <- lidx (si_element si) hint ;;
      let cmp := compareId e id in
      if cmp =? -1 then search 0 hint
      else if cmp =? 0 then
        off <- OffsetForID e id ;;
        loc <- lidx (si_locations si) off ;;
        Ok (loc, hint, negb (loc =? 0), HitHint)
      else search hint (zlen (si_element si))
    else search 0 (zlen (si_element si)).

(** subindex.go:18-64 [findLocationsActual]: its result and the counter it adds one to. *)
Definition findLocationsActual (si : SubWayIndex) (id hint : Z) : res (list Z * Z * bool * counter) :=
  if sw_Top si <? id then Ok ([], hint, false, MissDeferred)
  else
    let search (lo up : Z) : res (list Z * Z * bool * counter) :=
      lo <- way_search (sw_Ids si) id lo up ;;
      if zlen (sw_Ids si) <=? lo then Ok ([], hint, false, MissDefault)
      else
        d <- lidx (sw_Ids si) lo ;;
        if negb (wd_WayID d =? id) then Ok ([], hint, false, MissDefault)
        else
          locs <- way_locations si d ;;
          Ok (locs, lo, true, HitDefault) in
    if hint <? zlen (sw_Ids si) then
      d <- lidx (sw_Ids si) hint ;;
      if id <? wd_WayID d then search 0 hint
      else if id =? wd_WayID d then
        locs <- way_locations si d ;;
        Ok (locs, hint, true, HitHint)
      else search hint (zlen (sw_Ids si))
    else search 0 (zlen (sw_Ids si)).

(** noderewriter_worker.go:61-88: the counters that rewriting the refs of these ways (those of a block, in order) adds to,
    and the hint.  (RwModel.rw_refs and rw_ways without what they write.) *)
Fixpoint refs_counters (ix : NodeSubIndex) (refs : list Z) (hint : Z) : res (list counter * Z) :=
  match refs with
  | [] => Ok ([], hint)
  | ref :: r =>
      if ref <? 0 then refs_counters ix r hint
      else
        x <- findNodeActual ix (u64 ref) hint ;;
        y <- refs_counters ix r (snd (fst (fst x))) ;;
        Ok (snd x :: fst y, snd y)
  end.
Fixpoint ways_counters (ix : NodeSubIndex) (ways : list Way) (hint : Z) : res (list counter * Z) :=
  match ways with
  | [] => Ok ([], hint)
  | w :: r =>
      x <- refs_counters ix (way_Refs w) hint ;;
      y <- ways_counters ix r (snd x) ;;
      Ok (fst x ++ fst y, snd y)
  end.

(** ** the table of lookup times *)

(** nodesubindex.go:93-97, subindex.go:80-83: the loop; [i] at its end. *)
Fixpoint timing_loop (fuel : nat) (divFactor delta : f64) (i : Z) : res Z :=
  if f64_gt delta (f64_of_Z 1) then
    match fuel with
    | O => Diverge
    | S fuel => timing_loop fuel divFactor (f64_div delta divFactor) (i + 1)
    end
  else Ok i.

(** nodesubindex.go:88-98, subindex.go:76-84: the slot of the table counted up, if any.  [start] and [end_] are the time
    stamp counters before and after the lookup, [overhead] that of reading it. *)
Definition cpuFreq : Z := 3300000000.
Definition timing_slot (fuel : nat) (divFactor : f64) (start end_ overhead : Z) : res (option Z) :=
  let delta := f64_of_Z (s64 (u64 (u64 (end_ - start) - overhead))) in
  if f64_gt delta (f64_of_Z 1) && f64_gt (f64_of_Z (2 * cpuFreq)) delta then
    i <- timing_loop fuel divFactor delta 0 ;;
    if (0 <=? i - 1) && (i - 1 <? 200) then Ok (Some (i - 1)) else Panic IndexOutOfRange
  else Ok None.

(** nodesubindex.go:78-100 [FindNode], subindex.go:68-87 [FindLocations] around the lookup [actual]: what is returned, the
    counter and the slot.  [timing] is the option of that name. *)
Definition timed {A : Type} (fuel : nat) (timing : option f64) (start end_ overhead : Z) (actual : res (A * counter)) : res (A * counter * option Z) :=
  x <- actual ;;
  match timing with
  | None => Ok (x, None)
  | Some divFactor => slot <- timing_slot fuel divFactor start end_ overhead ;; Ok (x, slot)
  end.
Definition FindNode_timed (fuel : nat) (timing : option f64) (start end_ overhead : Z) (si : NodeSubIndex) (id hint : Z) :=
  timed fuel timing start end_ overhead (findNodeActual si id hint).
Definition FindLocations_timed (fuel : nat) (timing : option f64) (start end_ overhead : Z) (si : SubWayIndex) (id hint : Z) :=
  timed fuel timing start end_ overhead (findLocationsActual si id hint).
