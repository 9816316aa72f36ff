(** * CtSpec: what the counting and finding tools report. *)
From Verif Require Import Base TModel HLModel FrModel ZlModel CtModel.

(** The groups of a block of the file: those of the message in an OSMData block, none in a
    block of another type. *)
Definition block_groups (envs : Z -> zenv) (b : Block) : res (list PrimitiveGroup) :=
  if seqb (blk_Type b) (bytes_of "OSMData") then
    bl <- ReadBlob (blk_Data b) Blob0 ;;
    raw <- GetRawData (envs (blk_Index b)) bl ;;
    p <- ReadPrimitiveBlock (mkReader true false false false) raw PrimitiveBlock0 ;;
    Ok (pblk_PrimitiveGroup p)
  else Ok [].

(** The dense nodes' ids, the ways and the relations of some groups, in order. *)
Definition node_ids (gs : list PrimitiveGroup) : list Z :=
  flat_map (fun g => match pg_Dense g with Some d => dn_Id d | None => [] end) gs.
Definition all_ways (gs : list PrimitiveGroup) : list Way :=
  flat_map (fun g => match pg_Ways g with Some ws => ws | None => [] end) gs.
Definition all_relations (gs : list PrimitiveGroup) : list Relation :=
  flat_map (fun g => match pg_Relations g with Some rs => rs | None => [] end) gs.

(** [m] is the largest of the values, or 0 if there are none (all are non-negative). *)
Definition is_largest (vs : list Z) (m : Z) : Prop :=
  (vs = [] /\ m = 0) \/ (In m vs /\ forall v, In v vs -> v <= m).

(** What entitycount prints for a file of [n] blocks with these groups: numbers modulo 2^64, ids
    as unsigned numbers (negative ids count as 2^64 + id). *)
Definition reports (n : Z) (gs : list PrimitiveGroup) (m : mem) : Prop :=
  m 0%nat = n mod 2^64 /\
  m 1%nat = zlen (node_ids gs) mod 2^64 /\
  m 2%nat = zlen (all_ways gs) mod 2^64 /\
  m 3%nat = zlen (all_relations gs) mod 2^64 /\
  m 4%nat = zlen (flat_map way_Refs (all_ways gs)) mod 2^64 /\
  is_largest (map (fun id => id mod 2^64) (node_ids gs)) (m 5%nat) /\
  is_largest (map (fun w => way_ID w mod 2^64) (all_ways gs)) (m 6%nat) /\
  is_largest (map (fun r => rel_ID r mod 2^64) (all_relations gs)) (m 7%nat) /\
  is_largest (map (fun w => zlen (way_Refs w)) (all_ways gs)) (m 8%nat).

(** [out] are the elements of [l], in order, whose id (as an unsigned number) is among [ids]. *)
Inductive picked {A} (ids : list Z) (id : A -> Z) : list A -> list A -> Prop :=
| picked_nil : picked ids id [] []
| picked_yes : forall a l out, In (id a mod 2^64) ids -> picked ids id l out -> picked ids id (a :: l) (a :: out)
| picked_no : forall a l out, ~ In (id a mod 2^64) ids -> picked ids id l out -> picked ids id (a :: l) out.
