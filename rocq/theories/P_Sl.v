(** * P_Sl: property theorems (generated from SlThms.v by tools/gen_props.py). *)
From Verif Require Import Base PbModel TModel HLModel FrModel ZlModel IoModel NiModel WiModel RiModel RwModel TfModel TrModel TmModel PgModel SlModel SlSpec NiThms SlThms.

(** C102.  The line about a worker of the decompressor, for all blocks it is given.  If it is made while the worker is doing something (and does not
    get on with it), it says what the worker is doing, and with which block.  In any case, the words are those for what the worker was doing
    or about to do when the line was begun, and the number that of the block that was at work, or about to be, at some later moment before the
    line was done. *)
Theorem C102_decompress : forall inBlocks, let ds := fst (dc_worker_told inBlocks) in
  (forall n w l, doing ds n w -> (look ds n dc_worker_widget n l <-> l = Text (said dc_word w))) /\
  (forall m m' l, look ds m dc_worker_widget m' l -> exists i j v, (m <= i <= j)%nat /\ (j <= m')%nat /\ about (f_word dc_word) ds i v /\
    (v = waiting_word /\ l = Text (bytes_of v) \/ exists b, v <> waiting_word /\ about number ds j b /\ l = Text (bytes_of v ++ shown_number b))).
Proof. exact pC102_decompress. Qed.
Print Assumptions C102_decompress.

(** C102, partial.  The same for the workers of the node index, way index and relation index tools.  Missing: while a worker sends on a block that
    is not OSMData its line says that it is waiting (see C102_passing_refuted). *)
Theorem C102_index_partial : forall inBlocks shift ds,
  ds = fst (ix_worker_told ni_told inBlocks) \/ ds = fst (ix_worker_told (wi_told shift) inBlocks) \/ ds = fst (ix_worker_told ri_told inBlocks) ->
  (forall n w l, doing ds n w -> (look ds n ix_worker_widget n l <-> l = Text (said ix_word w))) /\
  (forall m m' l, look ds m ix_worker_widget m' l -> exists i j v, (m <= i <= j)%nat /\ (j <= m')%nat /\ about (f_word ix_word) ds i v /\
    (v = waiting_word /\ l = Text (bytes_of v) \/ exists b, v <> waiting_word /\ about number ds j b /\ l = Text (bytes_of v ++ shown_number b))).
Proof. exact pC102_index_partial. Qed.
Print Assumptions C102_index_partial.

(** C102 is false of the code for other blocks: a worker of the node index tool sends on the header (block 3) and its line says that it is waiting. *)
Theorem C102_passing_refuted : let ds := fst (ix_worker_told ni_told [(mkZenv true [] [], mkBlk 3 (exact [1]) (bytes_of "OSMHeader"))]) in
  doing ds 3 (Passing 3) /\ look ds 3 ix_worker_widget 3 (Text (bytes_of "Worker: waiting for block")).
Proof. exact pC102_passing_refuted. Qed.
Print Assumptions C102_passing_refuted.

(** C102.  The workers with their status are the workers of the other properties: they send the same messages, and panic on the same blocks. *)
Theorem C102_same_programs : forall inBlocks shift ix finalPass,
  snd (dc_worker_told inBlocks) = mapm (fun x => decompress_block (fst x) (snd x)) inBlocks /\
  snd (ix_worker_told ni_told inBlocks) = mapm (fun x => ni_worker (fst x) (snd x)) inBlocks /\
  snd (ix_worker_told (wi_told shift) inBlocks) = mapm (fun x => wi_worker shift (fst x) (snd x)) inBlocks /\
  snd (ix_worker_told ri_told inBlocks) = mapm (fun x => ri_worker (fst x) (snd x)) inBlocks /\
  snd (rw_worker_told ix finalPass inBlocks) = mapm (fun x => rw_worker (fst x) ix finalPass (snd x)) inBlocks /\
  snd (tf_worker_told inBlocks) = tf_worker inBlocks.
Proof. exact pC102_same_programs. Qed.
Print Assumptions C102_same_programs.

(** An example, with lines made while nothing happens and one made while the worker gets on: it had been sending block 1, and had begun with block 2 when
    the number was read. *)
Example C102_ex : let ds := fst (ix_worker_told ni_told ex_ni_blocks) in
  doing ds 7 (Decoding 1) /\ look ds 7 ix_worker_widget 7 (Text (bytes_of "Worker: decoding block 1")) /\
  doing ds 11 (Sending 1) /\ look ds 11 ix_worker_widget 14 (Text (bytes_of "Worker: sending block 2")) /\
  doing (fst (dc_worker_told (tl ex_ni_blocks))) 6 (Decompressing 1).
Proof. exact pC102_ex. Qed.
