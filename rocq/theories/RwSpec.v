(** * RwSpec: what rewriting node references means. *)
From Verif Require Import Base PbSpec TModel TSpec HLModel FrModel ZlModel NiModel NiSpec RwModel.

(** The new value of one ref: the location if the index has one for it. *)
Definition new_ref (rs : list range) (locs : list Z) (ref : Z) : Z :=
  if ref <? 0 then ref
  else match linear_search rs locs ref 0 with
       | Some (loc, _) => if loc =? 0 then ref else loc
       | None => ref
       end.
(** The same block with every ref of every way replaced by [f] of it. *)
Definition refs_with (f : Z -> Z) (w : Way) : Way := mkWay (way_ID w) (way_Keys w) (way_Vals w) (map f (way_Refs w)).
Definition group_with (f : Z -> Z) (g : PrimitiveGroup) : PrimitiveGroup :=
  mkGroup (pg_RawDense g) (pg_Dense g) (option_map (map (refs_with f)) (pg_Ways g)) (pg_RawWays g)
          (pg_Relations g) (pg_RawRelations g).
Definition block_with (f : Z -> Z) (p : PrimitiveBlock) : PrimitiveBlock :=
  mkBlock (pblk_StringTableRaw p) (pblk_StringTable p) (map (group_with f) (pblk_PrimitiveGroup p))
          (pblk_Granularity p) (pblk_DateGranularity p) (pblk_LatOffset p) (pblk_LonOffset p).

(** What the block holds when its string table, dense nodes and relations are left as bytes. *)
Definition holds (env : zenv) (data : slice) (p : PrimitiveBlock) : Prop :=
  exists bl raw, ReadBlob data Blob0 = Ok bl /\ GetRawData env bl = Ok raw /\
    ReadPrimitiveBlock (mkReader true true false true) raw PrimitiveBlock0 = Ok p.
(** The same, and the data is understood without looking beyond its end. *)
Definition holds_alone (env : zenv) (data : list Z) (p : PrimitiveBlock) : Prop :=
  exists bl raw, ReadBlob (exact data) Blob0 = Ok bl /\ GetRawData env bl = Ok raw /\
    ReadPrimitiveBlock (mkReader true true false true) (exact (vis raw)) PrimitiveBlock0 = Ok p.
Definition has_way (p : PrimitiveBlock) : Prop :=
  exists g w ws, In g (pblk_PrimitiveGroup p) /\ pg_Ways g = Some ws /\ In w ws.

(** The file after the first [k] of [n] passes. *)
Fixpoint after_passes (envs : Z -> Z -> zenv) (idx : NodeIndex) (n : Z) (k : nat) (file : list Z) : res (list Z) :=
  match k with
  | O => Ok file
  | S k => file <- after_passes envs idx n k file ;;
           sub <- SubIndex idx (Z.of_nat k) n ;;
           rw_pass (envs (Z.of_nat k)) sub (Z.of_nat k =? n - 1) file
  end.
