(** * SySpec: what the lines of the writers of the two indexes are meant to say. *)
From Verif Require Import Base PbModel TModel HLModel FrModel ZlModel IoModel NiModel WiModel TrModel TmModel PgModel SlModel SlSpec SwModel.

Definition index_words : string := "Writer: writing index block ".
Definition copying_words : string := "Writer: copying locations (".
Definition ixw_word (w : work) : string :=
  match w with
  | WritingIndex _ _ => index_words
  | WritingLocations _ => "Writer: writing locations"
  | Copying _ _ => copying_words
  | Finalizing => "Writer: finalizing index"
  | _ => writer_waiting
  end.
(** the line while [at_] of [max] bytes are copied *)
Definition copy_line (at_ max : Z) : line :=
  Bar (bytes_of copying_words ++ shown_number at_ ++ bytes_of "/" ++ shown_number max ++ bytes_of ") " ++ percent_text (percent (fraction at_ max)) ++ bytes_of "%")
      (fraction at_ max).
(** the line while the writer is doing [w]; [t]: the number shown as that of the bytes to copy *)
Definition ixw_line (t : Z) (w : work) : line :=
  match w with
  | WritingIndex _ n => Text (bytes_of index_words ++ shown_number n)
  | Copying done _ => copy_line (u64 done) t
  | _ => Text (bytes_of (ixw_word w))
  end.
(** the number of entries being written; the bytes copied *)
Definition entries (w : work) : option Z := match w with WritingIndex _ n => Some n | _ => None end.
Definition copied (w : work) : option Z := match w with Copying done _ => Some (u64 done) | _ => None end.
(** The lines about a writer with deeds [ds], when [t] is shown as the number of bytes to copy.  If a line is made while the writer is doing something (and does not
    get on with it), it says what.  In any case, the words are those for what the writer was doing or about to do when the line was begun, and the number that
    follows is right for a later moment before the line was done. *)
Definition index_lines (ds : list deed) (t : Z) : Prop :=
  (forall n w l, doing ds n w -> (look ds n ix_writer_widget n l <-> l = ixw_line t w)) /\
  (forall m m' l, look ds m ix_writer_widget m' l -> exists i j v, (m <= i <= j)%nat /\ (j <= m')%nat /\ about (f_word ixw_word) ds i v /\
    (v <> index_words /\ v <> copying_words /\ l = Text (bytes_of v) \/
     v = index_words /\ (exists n, about entries ds j n /\ l = Text (bytes_of v ++ shown_number n)) \/
     v = copying_words /\ (exists d, about copied ds j d /\ l = copy_line d t))).
(** The copying of [T] bytes: the bytes copied grow, up to at most [T]; if the index is finalized and [whole], [T] bytes have been copied. *)
Definition copying_right (ds : list deed) (whole : Prop) : Prop :=
  (forall n d T, doing ds n (Copying d T) -> 0 <= d <= T) /\
  (forall n d T n' d' T', doing ds n (Copying d T) -> (n <= n')%nat -> doing ds n' (Copying d' T') -> d <= d' /\ T = T') /\
  (whole -> forall n, doing ds n Finalizing -> exists n' T, (n' < n)%nat /\ doing ds n' (Copying T T)).

(** The messages of the node index workers in which the ranges have as many ids as there are locations (as uint64 values). *)
Definition ids_in (ranges : list (Z * Z)) : Z := fold_right (fun r n => snd r - fst r + 1 + n) 0 ranges.
Definition ni_accounted (msgs : list ni_msg) : Prop :=
  Forall (fun m => nm_Type m = bytes_of "IndexData" -> forall ranges locations, nm_Batch m = Some (ranges, locations) -> u64 (ids_in ranges) = u64 (zlen locations)) msgs.
(** The messages of the way index workers in which the locations are a whole number of units of 2^shift bytes. *)
Definition wi_accounted (shift : Z) (msgs : list wi_msg) : Prop :=
  Forall (fun m => wm_Type m = bytes_of "IndexData" -> forall blocks locations, wm_Batch m = Some (blocks, locations) -> (2 ^ shift | zlen locations)) msgs.
(** The ids of the dense nodes of a block (none, if it is not OSMData or cannot be read). *)
Definition dense_ids (x : zenv * Block) : list Z :=
  let (env, data) := x in
  if negb (seqb (blk_Type data) tOSMData) then []
  else match (b <- ReadBlob (blk_Data data) Blob0 ;; raw <- GetRawData env b ;; ReadPrimitiveBlock ni_reader raw PrimitiveBlock0) with
       | Ok pb => flat_map (fun pg => match pg_Dense pg with Some d => dn_Id d | None => [] end) (pblk_PrimitiveGroup pb)
       | _ => []
       end.
(** The first is neither 0 nor 1, and none is -1. *)
Definition fine_ids (ids : list Z) : Prop :=
  match ids with [] => True | i :: _ => u64 i <> 0 /\ u64 i <> 1 end /\ Forall (fun i => u64 i <> 2 ^ 64 - 1) ids.
