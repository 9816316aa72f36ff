(** * P_Tn: property theorems (generated from TnThms.v by tools/gen_props.py). *)
From Verif Require Import Base PbSpec TModel FrModel ZlModel MtModel IoModel IoSpec NiModel NiSpec TnSpec NiThms TnThms.

(** C95.  However the run ends - any write cut short or failing, any other call failing, cancelled or not - the
    file it leaves never gives a wrong location: if it opens and a pass of it can be made, what a lookup finds
    is the location of the node with that id.  (Partial: for more than 127 nodes, if the write of the 16 bytes of the header is not cut within its second
    word, see below.) *)
Theorem C95_never_wrong_partial : forall o inBlocks nss, Forall2 input_block inBlocks nss ->
  let ns := concat nss in
  word_whole o \/ zlen ns < 128 ->
  ascending (map in_id ns) -> Forall (fun n => 2 <= in_id n < 2^63) ns ->
  Forall (fun b => zlen b < 2^23) nss -> zlen ns < 2^39 ->
  forall idx pass count sub id hint loc h, NewNodeIndex (f_data (w_idx (fst (ni_index o inBlocks)))) = Ok idx ->
    SubIndex idx pass count = Ok sub -> FindNode sub id hint = Ok (loc, h, true) ->
    exists n, In n ns /\ in_id n = id /\ location (in_lon n) (in_lat n) = Ok loc.
Proof. exact pC95_never_wrong_partial. Qed.
Print Assumptions C95_never_wrong_partial.

(** all calls fail after a while, in one case the write of the header after its version, in the other, with one read only, the close at the end *)
Example C95_ex : let o := mkOS (fun k n => if (15 <=? k)%nat then (8, true) else (n, false)) (fun _ => (30, NoErr)) (fun _ => false) (fun _ => false) in
  let o' := mkOS (fun k n => (n, false)) (fun k => if (k =? 9)%nat then (30, NoErr) else (0, EOF)) (fun k => (17 <=? k)%nat) (fun _ => false) in
  Forall2 input_block ex_ni_blocks ex_ni_nodes /\ word_whole o /\ word_whole o' /\
  (exists w idx, ni_index o ex_ni_blocks = (w, Panic IOError) /\ NewNodeIndex (f_data (w_idx w)) = Ok idx /\ ni_elements idx = []) /\
  exists w, ni_index o' ex_ni_blocks = (w, Panic IOError) /\ exists idx sub, NewNodeIndex (f_data (w_idx w)) = Ok idx /\
    zlen (ni_locations idx) = 3 /\ SubIndex idx 0 1 = Ok sub /\ exists l, FindNode sub 2 0 = Ok (l, 0, true) /\ location 1 10 = Ok l.
Proof. exact pC95_ex. Qed.

(** C95 is false of the code if the write of the header can be cut within its second word: the file for 257 nodes with a gap after each, when
    the last write stops after nine bytes, opens, and the location it gives for node 10 is 20. *)
Theorem C95_torn_header_refuted : input_block (ni_block 0 ex_gaps ex_gaps ex_gaps) ex_gap_nodes /\ ascending (map in_id ex_gap_nodes) /\ 
  Forall (fun n => 2 <= in_id n < 2^63) ex_gap_nodes /\ zlen ex_gap_nodes = 257 /\
  exists w idx sub, ni_index ex_cut [ni_block 0 ex_gaps ex_gaps ex_gaps] = (w, Panic IOError) /\
    NewNodeIndex (f_data (w_idx w)) = Ok idx /\ SubIndex idx 0 1 = Ok sub /\ FindNode sub 10 0 = Ok (20, 0, true) /\
    forall n l, In n ex_gap_nodes -> in_id n = 10 -> location (in_lon n) (in_lat n) = Ok l -> l <> 20.
Proof. exact pC95_torn_header_refuted. Qed.
Print Assumptions C95_torn_header_refuted.
