(** * WiSpec: what a way index is, independent of how it is packed, aligned and searched. *)
From Verif Require Import Base PbSpec PbModel TModel HLModel FrModel ZlModel IoModel IoSpec WiModel.

(** An entry: a way id and the position of its locations in units of 2^shift bytes. *)
Record entry : Type := mkEntry { e_id : Z; e_off : Z }.
Definition entry_ok (e : entry) : Prop := 0 <= e_id e < 2^31 /\ 0 <= e_off e < 2^33.
(** The word an entry is stored as: the id in the upper 31 bits, the position in the lower 33. *)
Definition word_of (e : entry) : Z := e_id e * 2^33 + e_off e.

(** Strictly ascending. *)
Definition ascending_by {A} (f : A -> Z) (l : list A) : Prop :=
  forall i j a b, (i < j)%nat -> nth_error l i = Some a -> nth_error l j = Some b -> f a < f b.

(** The locations stored at byte [pos] are [locs]. *)
Definition stored (loc : list Z) (pos : Z) (locs : list Z) : Prop :=
  0 <= pos < zlen loc /\ DecodeS64PackedDeltaZero (exact (skipn (Z.to_nat pos) loc)) = Ok locs.

(** An index with these entries, each with its locations. *)
Definition way_index_of (es : list entry) (loc : list Z) (shift : Z) : WayIndex := mkWI (map word_of es) loc shift.
Definition way_index_ok (es : list entry) (loc : list Z) (shift : Z) : Prop :=
  Forall entry_ok es /\ ascending_by e_id es /\ ascending_by e_off es /\ 0 <= shift <= 62 /\ zlen loc < 2^63 /\
  Forall (fun e => 0 <= e_off e * 2^shift < zlen loc) es.

(** Looking an id up: the locations of the entry with that id and its number. *)
Fixpoint find_entry (es : list entry) (id i : Z) : option (entry * Z) :=
  match es with
  | [] => None
  | e :: r => if e_id e =? id then Some (e, i) else find_entry r id (i + 1)
  end.

(** ** Input *)
(** What the index keeps of the refs of a way: a ref equal to the one before it (or, at the
    start, to 0) is left out. *)
Fixpoint kept (prev : Z) (refs : list Z) : list Z :=
  match refs with
  | [] => []
  | r :: rs => (if r =? prev then [] else [r]) ++ kept r rs
  end.
(** The ways (id, refs) of a block, in order. *)
Definition block_ways (p : PrimitiveBlock) : list (Z * list Z) :=
  flat_map (fun g => match pg_Ways g with
                     | None => []
                     | Some ws => map (fun w => (way_ID w, way_Refs w)) ws
                     end) (pblk_PrimitiveGroup p).
(** A block of the input file, decompressed in [env], with ways [ws]. *)
Definition ways_block (eb : zenv * Block) (ws : list (Z * list Z)) : Prop :=
  (blk_Type (snd eb) <> bytes_of "OSMData" /\ blk_Type (snd eb) <> bytes_of "IndexData" /\ ws = []) \/
  (blk_Type (snd eb) = bytes_of "OSMData" /\
   exists b raw p, ReadBlob (blk_Data (snd eb)) Blob0 = Ok b /\ GetRawData (fst eb) b = Ok raw /\
     ReadPrimitiveBlock (mkReader true true false true) raw PrimitiveBlock0 = Ok p /\ ws = block_ways p).
(** At most this many bytes of locations. *)
Definition size_bound (shift : Z) (ws : list (Z * list Z)) : Z :=
  fold_right (fun w n => 10 * zlen (snd w) + 1 + 2^shift + n) 0 ws.

(** ** Files *)
Definition way_batches (msgs : list wi_msg) : list (list Z * list Z) :=
  flat_map (fun m => if seqb (wm_Type m) (bytes_of "IndexData")
                     then match wm_Batch m with Some b => [b] | None => [] end else []) msgs.
Definition ways_typed (msgs : list wi_msg) : Prop :=
  forall m, In m msgs -> wm_Type m = bytes_of "IndexData" -> wm_Batch m <> None.
(** The entries of all batches [(entries, bytes)]; positions count from the first batch on. *)
Fixpoint merged (shift off : Z) (bs : list (list entry * list Z)) : list entry :=
  match bs with
  | [] => []
  | (es, loc) :: r => map (fun e => mkEntry (e_id e) (off + e_off e)) es ++ merged shift (off + zlen loc / 2^shift) r
  end.

(** The batches [bs] as the writer gets them: packed entries and bytes. *)
Definition batch_as (b : list Z * list Z) (eb : list entry * list Z) : Prop :=
  fst b = map word_of (fst eb) /\ Forall entry_ok (fst eb) /\ snd b = snd eb.
(** The bytes of all batches. *)
Definition locs_of (bs : list (list entry * list Z)) : list Z := concat (map snd bs).

(** ** Location blocks *)
(** The bytes of a way: its kept refs, terminated, then 1..2^a zero bytes, in all a multiple of 2^a. *)
Definition way_block (a : Z) (refs b : list Z) : Prop :=
  exists pad, 1 <= pad <= 2^a /\ b = EncodeS64PackedDeltaZero [] (kept 0 refs) ++ repeat 0 (Z.to_nat pad) /\ (2^a | zlen b).

(** ** Passes *)
(** Where the locations of an entry start. *)
Definition position (shift : Z) (e : entry) : Z := e_off e * 2^shift.
(** The entries of the pass from [t1] to [t2]: those that start there, except that all are if none starts at [t1] or later. *)
Definition pass_of (shift t1 t2 : Z) (es : list entry) : list entry :=
  if existsb (fun e => t1 <=? position shift e) es then filter (fun e => (t1 <=? position shift e) && (position shift e <? t2)) es else es.
