(** * SzSpec: how many bytes a way, a relation, a dense section need. *)
From Verif Require Import Base PbModel PbSpec TModel TSpec.

(** A number below 2^64 takes one byte per started group of seven bits. *)
Definition vsize (v : Z) : Z := if v =? 0 then 1 else Z.log2 v / 7 + 1.
Definition sum (l : list Z) : Z := fold_right Z.add 0 l.
(** A list of numbers, each as its 64-bit pattern. *)
Definition plain_size (l : list Z) : Z := sum (map (fun v => vsize (v mod 2^64)) l).
(** The change from [a] to [b] as a 64-bit signed number. *)
Definition change64 (a b : Z) : Z := (b - a + 2^63) mod 2^64 - 2^63.
(** A list of numbers written as the changes from one to the next, starting from 0. *)
Fixpoint changes_size (last : Z) (l : list Z) : Z :=
  match l with
  | [] => 0
  | x :: r => vsize (zigzag (change64 last x)) + changes_size x r
  end.

(** A way: one byte of tag and the id; tag, two bytes of length and content for the keys,
    the values and the refs. *)
Definition way_size (w : Way) : Z :=
  1 + vsize (way_ID w mod 2^64) + (3 + plain_size (way_Keys w)) + (3 + plain_size (way_Vals w)) +
  (3 + changes_size 0 (way_Refs w)).
(** A relation: keys and values with two bytes of length, the others with three. *)
Definition relation_size (r : Relation) : Z :=
  1 + vsize (rel_ID r mod 2^64) + (3 + plain_size (rel_Keys r)) + (3 + plain_size (rel_Vals r)) +
  (4 + plain_size (rel_RolesSID r)) + (4 + changes_size 0 (rel_MemIDs r)) + (4 + plain_size (rel_MemberType r)).
Definition dense_size (d : DenseNodes) : Z :=
  (4 + changes_size 0 (dn_Id d)) + (4 + changes_size 0 (dn_Lat d)) + (4 + changes_size 0 (dn_Lon d)) +
  match dn_KeyVals d with [] => 0 | kv => 5 + plain_size kv end.

(** What can be written. *)
Definition way_writable (w : Way) : Prop := way_size w < 2^14.
Definition relation_writable (r : Relation) : Prop :=
  plain_size (rel_Keys r) < 2^14 /\ plain_size (rel_Vals r) < 2^14 /\ relation_size r < 2^21.
Definition dense_writable (d : DenseNodes) : Prop :=
  changes_size 0 (dn_Id d) < 2^21 /\ changes_size 0 (dn_Lat d) < 2^21 /\ changes_size 0 (dn_Lon d) < 2^21 /\
  dense_size d < 2^28.
Definition group_writable (g : PrimitiveGroup) : Prop :=
  (forall d, pg_Dense g = Some d -> dense_writable d) /\
  (forall ws w, pg_Ways g = Some ws -> In w ws -> way_writable w) /\
  (forall rs r, pg_Relations g = Some rs -> In r rs -> relation_writable r).

(** A byte string on its own: tag, length, content. *)
Definition field_size (b : list Z) : Z := 1 + vsize (zlen b) + zlen b.
Definition group_size (g : PrimitiveGroup) : Z :=
  match pg_Dense g with
  | Some d => 5 + dense_size d
  | None => match pg_RawDense g with Some raw => field_size raw | None => 0 end
  end +
  match pg_Ways g with
  | Some ws => sum (map (fun w => 3 + way_size w) ws)
  | None => sum (map field_size (pg_RawWays g))
  end +
  match pg_Relations g with
  | Some rs => sum (map (fun r => 4 + relation_size r) rs)
  | None => sum (map field_size (pg_RawRelations g))
  end.
(** A setting of the block is left out when it has its usual value. *)
Definition option_size (usual v : Z) : Z := if v =? usual then 0 else 2 + vsize (v mod 2^64).
Definition strings_size (st : list (list Z)) : Z := sum (map field_size st).
Definition block_size (b : PrimitiveBlock) : Z :=
  match pblk_StringTable b with
  | Some st => 5 + strings_size st
  | None => match pblk_StringTableRaw b with Some raw => field_size raw | None => 0 end
  end +
  sum (map (fun g => 5 + group_size g) (pblk_PrimitiveGroup b)) +
  option_size 100 (pblk_Granularity b) + option_size 1000 (pblk_DateGranularity b) +
  option_size 0 (pblk_LatOffset b) + option_size 0 (pblk_LonOffset b).
Definition block_writable (b : PrimitiveBlock) : Prop :=
  (forall st, pblk_StringTable b = Some st -> strings_size st < 2^28) /\
  forall g, In g (pblk_PrimitiveGroup b) -> group_writable g /\ group_size g < 2^28.
(** Byte strings of the block are shorter than the address space. *)
Definition strings_sane (b : PrimitiveBlock) : Prop :=
  (forall st s, pblk_StringTable b = Some st -> In s st -> zlen s < 2^63) /\
  (forall raw, pblk_StringTableRaw b = Some raw -> zlen raw < 2^63) /\
  forall g, In g (pblk_PrimitiveGroup b) ->
    (forall raw, pg_RawDense g = Some raw -> zlen raw < 2^63) /\
    (forall w, In w (pg_RawWays g) -> zlen w < 2^63) /\
    (forall r, In r (pg_RawRelations g) -> zlen r < 2^63).
