(** * SwSpec: what the writers of decompress, relindex, rewritenodes and tagfilter are meant to leave in their output file. *)
From Verif Require Import Base PbModel TModel HLModel FrModel ZlModel RiModel IoModel IoSpec TrModel TfModel RwModel PgModel SlModel SlSpec SwModel.

(** decompress: the data of the messages, one after the other *)
Definition dc_whole (msgs : list (Z * list Z)) : list Z := List.concat (map snd msgs).
(** relindex: the bytes of the words of the messages about relations *)
Definition about_relations (m : ri_msg) : bool := seqb (rm_Type m) (bytes_of "RelationData").
Definition words_of (m : ri_msg) : list Z := match rm_Words m with Some ws => ws | None => [] end.
Definition ri_whole (msgs : list ri_msg) : list Z := flat_map (fun m => SliceAsByteSlice (words_of m)) (filter about_relations msgs).
(** every message about relations has words *)
Definition has_words (msgs : list ri_msg) : Prop := Forall (fun m => about_relations m = true -> rm_Words m <> None) msgs.

(** A writer that is to leave [out] in its file, for whatever the operating system answers: the writer ends, the file has an initial part of
    [out], and all of it if the writer does not panic; it does not panic unless [may_panic]; a panic is one of [panics]. *)
Definition leaves (out : list Z) (fine : Prop) (panics : list panic) (run : ofile * res unit) : Prop :=
  let (s, r) := run in
  prefix (f_data (of_file s)) out /\ (r = Ok tt -> f_data (of_file s) = out) /\ (fine -> r = Ok tt) /\
  (r = Ok tt \/ exists p, r = Panic p /\ In p panics).

(** ** The lines *)
(** The lines of [widget] about a writer with deeds [ds] say whether it waits or writes, and which block; [t]: the words for writing.  If a line is made while the
    writer is doing something (and does not get on with it), it says what.  In any case, the words are those for what the writer was doing or about to do when the
    line was begun, and the number that of the block that was being written, or about to be, at some later moment before the line was done. *)
Definition right_lines (ds : list deed) (widget : update) (t : string) : Prop :=
  (forall n w l, doing ds n w -> (look ds n widget n l <-> l = Text (writer_said t w))) /\
  (forall m m' l, look ds m widget m' l -> exists i j v, (m <= i <= j)%nat /\ (j <= m')%nat /\ about (f_word (writer_word t)) ds i v /\
    (v = writer_waiting /\ l = Text (bytes_of v) \/ exists b, v <> writer_waiting /\ about number ds j b /\ l = Text (bytes_of v ++ shown_number b))).

(** The writer of the tag filter: how many of the first blocks are fillers, and the number of the last that is not (0: none). *)
Definition is_filler (b : Block) : bool := seqb (blk_Type b) (bytes_of "Filler").
Definition fillers (msgs : list Block) : Z := zlen (filter is_filler msgs).
Definition last_written (msgs : list Block) : Z :=
  match rev (filter (fun b => negb (is_filler b)) msgs) with [] => 0 | b :: _ => blk_Index b end.
(** The blocks received by a writer that has begun to wait [p] times and is doing [w]. *)
Definition received (w : work) (p : nat) : nat := match w with Waiting => (p - 1)%nat | _ => p end.
Definition tfw_word (w : work) : string :=
  match w with Writing _ => "Writer: writing block, dropped " | _ => "Writer: waiting for block, dropped " end.
Definition tfw_text (word : string) (f b : Z) : list Z := bytes_of word ++ decimal 20 f ++ bytes_of "/" ++ decimal 20 b ++ bytes_of " blocks".
