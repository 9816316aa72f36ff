(** * P_Sr: property theorems (generated from SrThms.v by tools/gen_props.py). *)
From Verif Require Import Base PbModel TModel HLModel FrModel ZlModel IoModel NiModel NiSpec WiModel RiModel RwModel TfModel TrModel TmModel PgModel SlModel SlSpec RwThms SrThms.

(** C103, partial.  The line about a worker of the rewriter, for all blocks, indexes and passes.  If it is made while the worker is doing something (and does not
    get on with it), it says what the worker is doing, and with which block; when it rewrites, also the number of the way at work and the number of ways of the
    block, with a bar of their quotient.  In any case the words are right for some moment while the line was made, and each of the numbers for
    some later moment.  Missing: a block that is not OSMData is sent on while the line says that the worker waits; the numbers may be about different blocks (see
    C103_race_refuted). *)
Theorem C103_rewriter_partial : forall ix finalPass inBlocks view, let ds := fst (rw_worker_told ix finalPass inBlocks) in
  (forall n w l, doing ds n w -> (look ds n (rw_worker_widget view) n l <-> l = rw_line view w)) /\
  (forall m m' l, look ds m (rw_worker_widget view) m' l -> exists i v, (m <= i <= m')%nat /\ about (f_word rw_word) ds i v /\
    (v = waiting_word /\ l = Text (bytes_of v) \/
     (exists j b, (i <= j <= m')%nat /\ v <> waiting_word /\ v <> working_word /\ about number ds j b /\ l = Text (bytes_of v ++ shown_number b)) \/
     (exists ja jx jb a x b, (i <= ja <= jx)%nat /\ (jx <= jb <= m')%nat /\ about way_at ds ja a /\ about way_max ds jx x /\ about number ds jb b /\
        v = working_word /\ l = way_line view b a x))).
Proof. exact pC103_rewriter_partial. Qed.
Print Assumptions C103_rewriter_partial.

(** C103.  If the worker does not go on to another block while the line is made and the line is about ways, its numbers are those of one way that was at work (or
    about to be) at one moment while the line was made; the way's number is not larger than the number of ways. *)
Theorem C103_same_block : forall ix finalPass inBlocks view m m' l, let ds := fst (rw_worker_told ix finalPass inBlocks) in
  look ds m (rw_worker_widget view) m' l -> same_block ds m m' ->
  (exists j b i n, (m <= j <= m')%nat /\ about rewriting ds j (b, i, n) /\ 0 <= i <= n /\ l = way_line view b (u64 i) (u64 n)) \/
  (exists j v b, (m <= j <= m')%nat /\ about (f_word rw_word) ds j v /\ v <> working_word /\ l = Text (bytes_of v ++ b)).
Proof. exact pC103_same_block. Qed.
Print Assumptions C103_same_block.

(** C103 is false of the code without "at the same moment": a line begun at the last way of block 1, which has two, and done in block 2, which has one. *)
Theorem C103_race_refuted : exists m m', let ds := fst (rw_worker_told (sub_index_of [] [] 0) false ex_rw_blocks) in
  look ds m (rw_worker_widget false) m' (Text (bytes_of "Worker: working on block 2, way 2/1")) /\
  doing ds 2 (Passing 0) /\ look ds 2 (rw_worker_widget false) 2 (Text (bytes_of "Worker: waiting for block")).
Proof. exact pC103_race_refuted. Qed.
Print Assumptions C103_race_refuted.

(** An example: the second of two ways. *)
Example C103_ex : let ds := fst (rw_worker_told (sub_index_of [] [] 0) false ex_rw_blocks) in
  doing ds 14 (Rewriting 1 2 2) /\ look ds 14 (rw_worker_widget false) 14 (Text (bytes_of "Worker: working on block 1, way 2/2")) /\
  same_block ds 10 14 /\ look ds 10 (rw_worker_widget false) 14 (Text (bytes_of "Worker: working on block 1, way 1/2")).
Proof. exact pC103_ex. Qed.
