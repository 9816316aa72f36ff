(** * P_Sf: property theorems (generated from SfThms.v by tools/gen_props.py). *)
From Verif Require Import Base PbModel TModel HLModel FrModel ZlModel IoModel NiModel WiModel RiModel RwModel TfModel TrModel TmModel PgModel SlModel SlSpec TfThms SfThms.

(** C104, partial.  The line about a worker of the tag filter, for all blocks.  If it is made while the worker is doing something (and does not get on with it), it
    says what the worker is doing, and unless it waits the number of the block that was begun last, and how many nodes were kept (for a tag) and
    dropped, of the blocks that have been processed.  In any case the words are right for some moment while the line was made, and each of the numbers
    for some later moment: a block that was begun last or is begun next; the nodes of all blocks before the one at work, with or without those of the latter.
    Missing: a block that is not OSMData is shown with the number of the block begun before it (see C104_passing_refuted). *)
Theorem C104_tagfilter_partial : forall inBlocks, let ds := fst (tf_worker_told inBlocks) in
  let kept k := u64 (sum_of kept_in (firstn k inBlocks)) in
  let dropped k := u64 (sum_of dropped_in (firstn k inBlocks)) in
  (forall n w l, doing ds n w -> (look ds n tf_worker_widget n l <->
     l = Text (tf_text (tf_word w) (last_number ds n) (kept (counted w (waits ds n))) (dropped (counted w (waits ds n)))))) /\
  (forall m m' l, look ds m tf_worker_widget m' l -> exists i v, (m <= i <= m')%nat /\ about (f_word tf_word) ds i v /\
    (v = waiting_word /\ l = Text (bytes_of v) \/
     exists jb jk jd b k d, (i <= jb <= jk)%nat /\ (jk <= jd <= m')%nat /\ v <> waiting_word /\
       (b = last_number ds jb \/ first_some (told_of number (skipn jb ds)) = Some b) /\
       (k = waits ds jk \/ S k = waits ds jk) /\ (d = waits ds jd \/ S d = waits ds jd) /\ l = Text (tf_text v b (kept k) (dropped d)))).
Proof. exact pC104_tagfilter_partial. Qed.
Print Assumptions C104_tagfilter_partial.

(** C104.  The two counts: every node is in one of them, and those kept are those that the block that is sent is made from. *)
Theorem C104_counts : forall x, kept_in x + dropped_in x = zlen (nodes_in x) /\ kept_in x = zlen (filter_nodes (nodes_in x)).
Proof. exact pC104_counts. Qed.
Print Assumptions C104_counts.

(** C104 is false of the code for other blocks: the header, block 8, is sent after block 7 and shown as 7. *)
Theorem C104_passing_refuted : let ds := fst (tf_worker_told ex_tf_blocks) in
  doing ds 16 (Passing 8) /\ look ds 16 tf_worker_widget 16 (Text (bytes_of "Worker: sending block 7, 2 kept, 2 dropped")).
Proof. exact pC104_passing_refuted. Qed.
Print Assumptions C104_passing_refuted.

(** An example. *)
Example C104_ex : let ds := fst (tf_worker_told ex_tf_blocks) in
  kept_in (ex_env, ex_tf_block) = 2 /\ dropped_in (ex_env, ex_tf_block) = 2 /\
  doing ds 4 (Decoding 7) /\ look ds 4 tf_worker_widget 4 (Text (bytes_of "Worker: decoding block 7, 0 kept, 0 dropped")) /\
  doing ds 10 (Encoding 7) /\ look ds 10 tf_worker_widget 10 (Text (bytes_of "Worker: encoding block 7, 2 kept, 2 dropped")) /\
  look ds 4 tf_worker_widget 8 (Text (bytes_of "Worker: processing block 7, 2 kept, 2 dropped")).
Proof. exact pC104_ex. Qed.
