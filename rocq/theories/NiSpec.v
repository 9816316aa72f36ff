(** * NiSpec: what a node index is, independent of how it is packed and searched. *)
From Verif Require Import Base PbSpec TModel FrModel ZlModel IoModel IoSpec NiModel.

(** A range of consecutive ids whose locations are stored one after the other. *)
Record range : Type := mkRange { r_first : Z; r_count : Z; r_offset : Z }.
Definition in_range (r : range) (id : Z) : Prop := r_first r <= id < r_first r + r_count r.

(** A range that can be stored, in an index with locations [locs]. *)
Definition range_ok (locs : list Z) (r : range) : Prop :=
  0 <= r_first r /\ 0 < r_count r < 2^24 /\ r_first r + r_count r <= 2^64 /\
  0 <= r_offset r < 2^40 /\ r_offset r + r_count r <= zlen locs.

(** Ranges in ascending order that do not overlap. *)
Definition ascending_ranges (rs : list range) : Prop :=
  forall i j a b, (i < j)%nat -> nth_error rs i = Some a -> nth_error rs j = Some b ->
    r_first a + r_count a <= r_first b.

(** The two words of a range in a file: the first id; the offset in the upper 40 bits and
    the count in the lower 24. *)
Definition elem_of (r : range) : IndexElement := mkElem (r_first r) (r_offset r * 2^24 + r_count r).
Definition words_of (r : range) : list Z := [r_first r; r_offset r * 2^24 + r_count r].

(** The index (a list of int64) with these ranges and locations. *)
Definition index_of (rs : list range) (locs : list Z) : NodeIndex :=
  mkNI (map s64 (flat_map words_of rs)) locs.

(** A sub-index with these ranges; [top] is at least the last id of every range. *)
Definition sub_index_of (rs : list range) (locs : list Z) (top : Z) : NodeSubIndex :=
  mkNSI (map elem_of rs) locs top.
Definition top_of (rs : list range) (top : Z) : Prop := forall r, In r rs -> r_first r + r_count r - 1 <= top.

(** Linear search: the location stored for [id] and the number of the first range that
    contains it. *)
Fixpoint linear_search (rs : list range) (locs : list Z) (id i : Z) : option (Z * Z) :=
  match rs with
  | [] => None
  | r :: rs =>
      if (r_first r <=? id) && (id <? r_first r + r_count r)
      then Some (nth (Z.to_nat (r_offset r + (id - r_first r))) locs 0, i)
      else linear_search rs locs id (i + 1)
  end.

(** ** Files *)

(** The ranges (first id, last id), their locations stored from position [off] on. *)
Fixpoint place (off : Z) (ranges : list (Z * Z)) : list range :=
  match ranges with
  | [] => []
  | (f, l) :: r => mkRange f (l - f + 1) off :: place (off + (l - f + 1)) r
  end.
(** Ranges that can be stored from position [off] on. *)
Fixpoint storable (off : Z) (ranges : list (Z * Z)) : Prop :=
  match ranges with
  | [] => True
  | (f, l) :: r => 0 <= f <= l /\ l < 2^64 /\ l - f + 1 < 2^24 /\ off < 2^40 /\ storable (off + (l - f + 1)) r
  end.

(** The batches the writer is sent: those of the messages of type IndexData. *)
Definition batches (msgs : list ni_msg) : list elementBatch :=
  flat_map (fun m => if HLModel.seqb (nm_Type m) (bytes_of "IndexData")
                     then match nm_Batch m with Some b => [b] | None => [] end else []) msgs.
(** Every message of type IndexData carries a batch. *)
Definition well_typed (msgs : list ni_msg) : Prop :=
  forall m, In m msgs -> nm_Type m = bytes_of "IndexData" -> nm_Batch m <> None.

(** The ranges and the locations of all of them, in order. *)
Definition all_ranges (msgs : list ni_msg) : list (Z * Z) := concat (map fst (batches msgs)).
Definition all_locs (msgs : list ni_msg) : list Z := concat (map snd (batches msgs)).

(** ** Input *)

(** A node of the input: id, longitude and latitude in units of 1e-7 degrees. *)
Record input_node : Type := mkInput { in_id : Z; in_lon : Z; in_lat : Z }.

(** OSM's formula: a stored coordinate [v] means (offset + granularity * v) nanodegrees. *)
Definition coordinate (off gran v : Z) : Z := Z.quot (off + gran * v) 100.
Definition coordinate_fits (off gran v : Z) : Prop :=
  is_s64 (gran * v) /\ is_s64 (off + gran * v) /\ is_s32 (coordinate off gran v).

Fixpoint dense_nodes (p : PrimitiveBlock) (ids lats lons : list Z) : list input_node :=
  match ids, lats, lons with
  | id :: ids, lat :: lats, lon :: lons =>
      mkInput id (coordinate (pblk_LonOffset p) (pblk_Granularity p) lon)
                 (coordinate (pblk_LatOffset p) (pblk_Granularity p) lat) :: dense_nodes p ids lats lons
  | _, _, _ => []
  end.
(** The nodes of a block, in order. *)
Definition block_nodes (p : PrimitiveBlock) : list input_node :=
  flat_map (fun g => match pg_Dense g with
                     | None => []
                     | Some d => dense_nodes p (dn_Id d) (dn_Lat d) (dn_Lon d)
                     end) (pblk_PrimitiveGroup p).
(** Every node has its coordinates, and they are representable. *)
Definition block_sane (p : PrimitiveBlock) : Prop :=
  forall g d, In g (pblk_PrimitiveGroup p) -> pg_Dense g = Some d ->
    List.length (dn_Lat d) = List.length (dn_Id d) /\ List.length (dn_Lon d) = List.length (dn_Id d) /\
    Forall (coordinate_fits (pblk_LatOffset p) (pblk_Granularity p)) (dn_Lat d) /\
    Forall (coordinate_fits (pblk_LonOffset p) (pblk_Granularity p)) (dn_Lon d).

(** A block of the input file, decompressed in [env], with nodes [ns]. *)
Definition input_block (eb : zenv * Block) (ns : list input_node) : Prop :=
  (blk_Type (snd eb) <> bytes_of "OSMData" /\ blk_Type (snd eb) <> bytes_of "IndexData" /\ ns = []) \/
  (blk_Type (snd eb) = bytes_of "OSMData" /\
   exists b raw p, ReadBlob (blk_Data (snd eb)) Blob0 = Ok b /\ GetRawData (fst eb) b = Ok raw /\
     ReadPrimitiveBlock (mkReader true false true true) raw PrimitiveBlock0 = Ok p /\
     block_sane p /\ ns = block_nodes p).

Fixpoint ascending (l : list Z) : Prop :=
  match l with
  | [] => True
  | a :: r => match r with [] => True | b :: _ => a < b end /\ ascending r
  end.

(** ** Passes *)
(** Number of locations the ranges have. *)
Fixpoint total (rs : list range) : Z := match rs with [] => 0 | r :: rs => r_count r + total rs end.
(** An index as the indexer writes it: its ranges can be stored and use all the locations. *)
Definition index_ok (rs : list range) (locs : list Z) : Prop :=
  Forall (range_ok locs) rs /\ ascending_ranges rs /\ total rs = zlen locs /\ zlen locs < 2^63.
(** The sub-indexes of passes 0..n-1, if none of them panics. *)
Definition passes (idx : NodeIndex) (n : Z) : res (list NodeSubIndex) :=
  mapm (fun i => SubIndex idx i n) (map Z.of_nat (seq 0 (Z.to_nat n))).
