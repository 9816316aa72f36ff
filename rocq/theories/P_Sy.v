(** * P_Sy: property theorems (generated from SyThms.v by tools/gen_props.py). *)
From Verif Require Import Base PbModel TModel HLModel FrModel ZlModel IoModel IoSpec NiModel WiModel TrModel TmModel PgModel SlModel SlSpec SwModel SySpec NiThms SyThms.

(** C107.  The lines of the writer of the node index: if a line is made while the writer is doing something (and does not get on with it), it says what: that it waits,
    that it writes a part of the index, with the number of its entries, that it writes locations, that it copies locations, with the number of bytes copied, or that it
    is about to finish; in any case it is right for moments while the line was made.  The bytes copied grow, to at most the size of the temporary file, and are all
    of them at the end if nothing is cancelled and reads make progress.  The number shown as that of the bytes to copy is always the same; it is the size of the
    temporary file if the ranges of every message have as many ids as the message has locations.
    Missing: "writing index block n" with n the number of the block (C107_number_refuted); the total for messages that are not like that. *)
Theorem C107_node_partial : forall o msgs, let ds := fst (ni_output_told o msgs w0) in ds <> [] ->
  copying_right ds (never_cancelled o /\ reads_progress o) /\
  exists t, index_lines ds t /\ (ni_accounted msgs -> forall n d T, doing ds n (Copying d T) -> t = u64 T).
Proof. exact pC107_node_partial. Qed.
Print Assumptions C107_node_partial.

(** The lines of the writer of the way index, likewise; the words "writing index block" are also for writing the locations.  The total is right if the locations of
    every message are a whole number of units of 2^shift bytes. *)
Theorem C107_way_partial : forall o shift msgs, let ds := fst (wi_output_told o shift msgs w0) in ds <> [] ->
  copying_right ds (never_cancelled o /\ reads_progress o) /\
  exists t, index_lines ds t /\ (wi_accounted shift msgs -> forall n d T, doing ds n (Copying d T) -> t = u64 T).
Proof. exact pC107_way_partial. Qed.
Print Assumptions C107_way_partial.

(** The writers with their records do to the files what the writers of NiModel.v and WiModel.v do. *)
Theorem C107_same_programs : forall o, (forall msgs w, snd (ni_output_told o msgs w) = ni_output o msgs w) /\
  (forall shift msgs w, snd (wi_output_told o shift msgs w) = wi_output o shift msgs w).
Proof. exact pC107_same_programs. Qed.
Print Assumptions C107_same_programs.

(** The messages of the node index workers are as C107_node_partial asks if no block begins with node 0 or 1 and no node has the id -1. *)
Theorem C107_node_messages : forall inBlocks msgs, mapm (fun b => ni_worker (fst b) (snd b)) inBlocks = Ok msgs ->
  Forall (fun b => fine_ids (dense_ids b)) inBlocks -> ni_accounted msgs.
Proof. exact pC107_node_messages. Qed.
Print Assumptions C107_node_messages.

(** The messages of the way index workers always are as C107_way_partial asks. *)
Theorem C107_way_messages : forall shift inBlocks msgs, mapm (fun b => wi_worker shift (fst b) (snd b)) inBlocks = Ok msgs -> wi_accounted shift msgs.
Proof. exact pC107_way_messages. Qed.
Print Assumptions C107_way_messages.

(** "writing index block n": n is not the number of the block but the number of its entries in the index. *)
Theorem C107_number_refuted : let ds := fst (ni_output_told ex_ten ex_batch w0) in
  doing ds 6 (WritingIndex 7 1) /\ look ds 6 ix_writer_widget 6 (Text (bytes_of "Writer: writing index block 1")).
Proof. exact pC107_number_refuted. Qed.
Print Assumptions C107_number_refuted.

(** The total can be wrong for the messages of a block that begins with node 1: of a temporary file of 24 bytes, 10 are said to be 125%. *)
Theorem C107_total_refuted : let ds := fst (ni_output_told ex_ten ex_one_five w0) in
  mapm (fun b => ni_worker (fst b) (snd b)) [ni_block 0 [1; 5] [10; 20] [30; 40]] = Ok ex_one_five /\
  doing ds 15 (Copying 10 24) /\ look ds 15 ix_writer_widget 15 (Bar (bytes_of "Writer: copying locations (10/8) 125.0%") (fraction 10 8)).
Proof. exact pC107_total_refuted. Qed.
Print Assumptions C107_total_refuted.

Example C107_ex : let ds := fst (ni_output_told ex_ten ex_batch w0) in
  ni_accounted ex_batch /\ never_cancelled ex_ten /\ reads_progress ex_ten /\ fine_ids (dense_ids (ni_block 1 [2; 3; 5; 9] [10; -20; 30; 40] [1; 2; 3; 4])) /\
  doing ds 16 (Copying 10 16) /\ look ds 16 ix_writer_widget 16 (Bar (bytes_of "Writer: copying locations (10/16) 62.5%") (fraction 10 16)) /\ doing ds 20 Finalizing.
Proof. exact pC107_ex. Qed.
