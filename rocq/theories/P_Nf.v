(** * P_Nf: property theorems (generated from NfThms.v by tools/gen_props.py). *)
From Verif Require Import Base PbSpec PbModel TModel HLModel FrModel ZlModel MtModel IoModel IoSpec NiModel NiSpec NiThms NfThms.

(** C47, exactly: the index made of any input with ascending node ids (fewer than 2^23 nodes in a
    block and 2^39 in all) opens, and finds every node at its own location whatever the hint, if
    and only if the input has no node 0 and no node 1. *)
Theorem C47_exact : forall o inBlocks nss, all_well o -> Forall2 input_block inBlocks nss ->
  let ns := concat nss in
  ascending (map in_id ns) -> Forall (fun n => 0 <= in_id n < 2^63) ns ->
  Forall (fun b => zlen b < 2^23) nss -> 0 < zlen ns < 2^39 ->
  ((exists w idx sub, ni_index o inBlocks = (w, Ok tt) /\ NewNodeIndex (f_data (w_idx w)) = Ok idx /\ SubIndex idx 0 1 = Ok sub /\
     forall n hint, In n ns -> 0 <= hint -> exists loc h, location (in_lon n) (in_lat n) = Ok loc /\ FindNode sub (in_id n) hint = Ok (loc, h, true)) <->
   ~ In 0 (map in_id ns) /\ ~ In 1 (map in_id ns)).
Proof. exact pC47_exact. Qed.
Print Assumptions C47_exact.

(** Both sides: [ex_ni_blocks] has no node 0 or 1; a block with the nodes 1 and 5 has. *)
Example C47_exact_ex : let nodes := [[mkInput 1 30 10; mkInput 5 40 20]] in
  ~ In 1 (map in_id (concat ex_ni_nodes)) /\ all_well os_well /\ Forall2 input_block [ni_block 0 [1; 5] [10; 20] [30; 40]] nodes /\ ascending (map in_id (concat nodes)) /\
  Forall (fun n => 0 <= in_id n < 2^63) (concat nodes) /\ Forall (fun b => zlen b < 2^23) nodes /\ 0 < zlen (concat nodes) < 2^39 /\ In 1 (map in_id (concat nodes)).
Proof. exact pC47_exact_ex. Qed.
