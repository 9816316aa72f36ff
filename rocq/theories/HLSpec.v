(** * HLSpec: what it means for entities to be the same, and the strings of a block. *)
From Coq Require Export Permutation Sorted.
From Verif Require Import Base PbSpec HLModel.

(** A Go map: distinct keys.  Two maps are equal when they have the same entries. *)
Definition is_map {V} (m : smap V) : Prop := NoDup (map fst m).

Definition same_node (n n' : HLNode) : Prop :=
  hn_Id n' = hn_Id n /\ Permutation (hn_Tags n) (hn_Tags n') /\
  hn_Lat n' = hn_Lat n /\ hn_Lon n' = hn_Lon n.
Definition same_way (w w' : HLWay) : Prop :=
  hw_Id w' = hw_Id w /\ Permutation (hw_Tags w) (hw_Tags w') /\ hw_Nodes w' = hw_Nodes w.
Definition same_rel (r r' : HLRelation) : Prop :=
  hr_Id r' = hr_Id r /\ Permutation (hr_Tags r) (hr_Tags r') /\ hr_Roles r' = hr_Roles r /\
  hr_Members r' = hr_Members r /\ hr_MemberType r' = hr_MemberType r.

(** Values fit their Go types and maps are maps. *)
Definition tags_typed (m : smap (list Z)) : Prop :=
  is_map m /\ Forall (fun kv => bytes (fst kv) /\ bytes (snd kv)) m.
Definition node_typed (n : HLNode) : Prop :=
  is_u64 (hn_Id n) /\ tags_typed (hn_Tags n) /\ is_s64 (hn_Lat n) /\ is_s64 (hn_Lon n).
Definition hway_typed (w : HLWay) : Prop :=
  is_s64 (hw_Id w) /\ tags_typed (hw_Tags w) /\ Forall is_u64 (hw_Nodes w).
Definition hrel_typed (r : HLRelation) : Prop :=
  is_s64 (hr_Id r) /\ tags_typed (hr_Tags r) /\ Forall bytes (hr_Roles r) /\
  Forall is_s64 (hr_Members r) /\ Forall is_s64 (hr_MemberType r).

(** Every string of the entities, with repetitions. *)
Definition tag_strings (m : smap (list Z)) : list (list Z) := flat_map (fun kv => [fst kv; snd kv]) m.
Definition all_strings (ns : list HLNode) (ws : list HLWay) (rs : list HLRelation) : list (list Z) :=
  flat_map (fun n => tag_strings (hn_Tags n)) ns ++
  flat_map (fun w => tag_strings (hw_Tags w)) ws ++
  flat_map (fun r => tag_strings (hr_Tags r) ++ hr_Roles r) rs.

(** how often [s] occurs in [l] *)
Definition occurrences (l : list (list Z)) (s : list Z) : Z :=
  zlen (filter (fun x => if list_eq_dec Z.eq_dec x s then true else false) l).

(** A coordinate moved towards zero to a multiple of 100. *)
Definition toward_zero_100 (x y : Z) : Prop :=
  (exists k, y = 100 * k) /\ Z.abs (x - y) < 100 /\ 0 <= y * x /\ Z.abs y <= Z.abs x.
Definition quantised_node (n n' : HLNode) : Prop :=
  hn_Id n' = hn_Id n /\ Permutation (hn_Tags n) (hn_Tags n') /\
  toward_zero_100 (hn_Lat n) (hn_Lat n') /\ toward_zero_100 (hn_Lon n) (hn_Lon n').

(** byte-wise lexicographic order on strings *)
Inductive bytes_lt : list Z -> list Z -> Prop :=
| lt_nil x b : bytes_lt [] (x :: b)
| lt_head x y a b : x < y -> bytes_lt (x :: a) (y :: b)
| lt_tail x a b : bytes_lt a b -> bytes_lt (x :: a) (x :: b).

(** The order C24 observes: by decreasing weight modulo 2^32, ties by bytes; the empty
    string weighs 2^32-1 more than its number of additions. *)
Definition heavier (L : list (list Z)) (a b : list Z) : Prop :=
  let w s := ((match s with [] => 2^32 - 1 | _ => 0 end) + occurrences L s) mod 2^32 in
  w b < w a \/ w a = w b /\ bytes_lt a b.

(** The string that comes before the empty string and every other string of [L]. *)
Definition first_string (L : list (list Z)) (s : list Z) : Prop :=
  (s = [] \/ In s L) /\ forall t, t = [] \/ In t L -> t <> s -> heavier L s t.
(** No tag of a node has the first string of the block as its key. *)
Definition first_key_free (ns : list HLNode) (ws : list HLWay) (rs : list HLRelation) : Prop :=
  forall n k v, In n ns -> In (k, v) (hn_Tags n) -> ~ first_string (all_strings ns ws rs) k.
