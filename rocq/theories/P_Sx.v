(** * P_Sx: property theorems (generated from SxThms.v by tools/gen_props.py). *)
From Verif Require Import Base PbModel TModel HLModel FrModel ZlModel IoModel NiModel WiModel RiModel RwModel TfModel TrModel TmModel PgModel SlModel SlSpec SwModel SwSpec SxThms.

(** C106.  The lines about the writer of the decompressor, of the first step of the relation index tool and of rewritenodes (with all its passes), for all
    messages and everything the operating system answers, once the writer has begun (the output file could be created). *)
Theorem C106_lines : forall ds, ds <> [] ->
  (forall o msgs, ds = fst (dc_output o msgs of0) -> right_lines ds dc_writer_widget "Writer: writing block ") /\
  (forall o msgs, ds = fst (ri_output o msgs of0) -> right_lines ds ri_writer_widget "Writer: writing index block ") /\
  (forall passes, ds = rw_outputs passes -> right_lines ds dc_writer_widget "Writer: writing block ").
Proof. exact pC106_lines. Qed.
Print Assumptions C106_lines.

(** C106, the writer of the tag filter.  If the line is made while the writer is doing something (and does not get on with it), it says whether it waits or writes,
    how many of the blocks received so far were dropped, and the number of the last block written or being written (0 if there is none).  In any case the words are
    right for a moment while the line was made, and each number for a later moment, with or without the block then received.  Missing: "dropped x/y blocks" as x of y blocks, which is false (C106_dropped_refuted). *)
Theorem C106_tagfilter_partial : forall o msgs, let ds := fst (tf_output o msgs of0) in ds <> [] ->
  let dropped k := u64 (fillers (firstn k msgs)) in
  let written k := last_written (firstn k msgs) in
  (forall n w l, doing ds n w -> (look ds n tf_writer_widget n l <->
     l = Text (tfw_text (tfw_word w) (dropped (received w (waits ds n))) (written (received w (waits ds n)))))) /\
  (forall n b, doing ds n (Writing b) -> b = written (waits ds n)) /\
  (forall m m' l, look ds m tf_writer_widget m' l -> exists i jf jb v f b, (m <= i <= jf)%nat /\ (jf <= jb <= m')%nat /\
     about (f_word tfw_word) ds i v /\ (f = waits ds jf \/ S f = waits ds jf) /\ (b = waits ds jb \/ S b = waits ds jb) /\
     l = Text (tfw_text v (dropped f) (written b))).
Proof. exact pC106_tagfilter_partial. Qed.
Print Assumptions C106_tagfilter_partial.

(** "dropped x/y blocks" is not "x of y": after a first block that was dropped, the line says that 1 of 0 blocks were. *)
Theorem C106_dropped_refuted : let ds := fst (tf_output ex_os ex_msgs of0) in
  doing ds 3 Waiting /\ look ds 3 tf_writer_widget 3 (Text (bytes_of "Writer: waiting for block, dropped 1/0 blocks")).
Proof. exact pC106_dropped_refuted. Qed.
Print Assumptions C106_dropped_refuted.

(** Examples. *)
Example C106_ex : let ds := fst (tf_output ex_os ex_msgs of0) in let ds' := rw_outputs [(ex_os, ex_msgs); (ex_os, ex_msgs)] in
  doing ds 13 (Writing 3) /\ look ds 13 tf_writer_widget 13 (Text (bytes_of "Writer: writing block, dropped 2/3 blocks")) /\
  doing ds' 25 (Writing 0) /\ look ds' 25 dc_writer_widget 25 (Text (bytes_of "Writer: writing block 0")) /\
  (* the writer gets on while the line is made *)
  look ds' 25 dc_writer_widget 28 (Text (bytes_of "Writer: writing block 1")).
Proof. exact pC106_ex. Qed.
