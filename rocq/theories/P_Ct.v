(** * P_Ct: property theorems (generated from CtThms.v by tools/gen_props.py). *)
From Verif Require Import Base PbSpec TModel HLModel FrModel ZlModel TfSpec PlModel PlSpec CtModel CtSpec CtThms.

(** C71.  Any number of goroutines merge their values into a shared variable at the same time.
    When all have finished, however they were scheduled, it is the maximum of its first
    value and all of theirs. *)
Theorem C71_max : forall init vs n m ths,
  msteps n (fun _ => init, start (map (fun v => [OMax 0 v]) vs)) (m, ths) -> finished ths ->
  m 0%nat = fold_right Z.max init vs.
Proof. exact pC71_max. Qed.
Print Assumptions C71_max.

(** C71.  They all finish: no schedule has more than this many atomic operations ... *)
Theorem C71_bounded : forall init vs n s,
  msteps n (fun _ => init, start (map (fun v => [OMax 0 v]) vs)) s ->
  (n <= List.length vs * (2 * List.length vs + 5))%nat.
Proof. exact pC71_bounded. Qed.
Print Assumptions C71_bounded.

(** C71.  ... and as long as some have not finished, one can go on. *)
Theorem C71_progress : forall progs m0 n m ths,
  msteps n (m0, start progs) (m, ths) -> finished ths \/ exists s, mstep (m, ths) s.
Proof. exact pC71_progress. Qed.
Print Assumptions C71_progress.

(** Two goroutines with 5 and 7: the first loads, the second does all its work, the first's
    swap fails and it loads again. *)
Example C71_ex : exists m ths, msteps 5 (fun _ => 3, start (map (fun v => [OMax 0 v]) [5; 7])) (m, ths) /\ finished ths /\ m 0%nat = 7.
Proof. exact pC71_ex. Qed.

(** C72.  However the blocks of the file were distributed over the workers, and however the
    workers' additions and maxima were interleaved at the end, what is printed are the
    numbers of blocks, nodes, ways, relations and way references of the file and the largest
    ids and the largest number of references. *)
Theorem C72_entitycount : forall envs rp bs workers s,
  reachable (ec_cfg envs rp) bs workers s -> completed s -> s_cancelled s = false ->
  exists gss ts, mapm (block_groups envs) bs = Ok gss /\
    mapm (fun w => ec_worker envs (w_mine w)) (s_workers s) = Ok ts /\
    forall n m ths, msteps n (mem0, start (map ec_merge ts)) (m, ths) -> finished ths ->
      reports (zlen bs) (concat gss) m.
Proof. exact pC72_entitycount. Qed.
Print Assumptions C72_entitycount.

(** C72.  blockcount prints the number of blocks of the file. *)
Theorem C72_blockcount : forall rp bs workers s,
  reachable (bc_cfg rp) bs workers s -> completed s -> s_cancelled s = false ->
  forall n m ths, msteps n (mem0, start (map (fun w => [OAdd 0 (bc_worker (w_mine w))]) (s_workers s))) (m, ths) -> finished ths ->
    m 0%nat = zlen bs mod 2^64.
Proof. exact pC72_blockcount. Qed.
Print Assumptions C72_blockcount.

(** C78.  What entityfind prints for an OSMData block: its nodes, ways and relations whose id
    is asked for, in this order; for other blocks nothing. *)
Theorem C78_block : forall envs ids b,
  (blk_Type b <> bytes_of "OSMData" -> ef_block envs ids b = Ok []) /\
  (forall ns ws rs, blk_Type b = bytes_of "OSMData" -> entities (envs (blk_Index b)) b ns ws rs ->
    exists ns' ws' rs', ef_block envs ids b = Ok (map FNode ns' ++ map FWay ws' ++ map FRelation rs') /\
      picked ids hn_Id ns ns' /\ picked ids hw_Id ws ws' /\ picked ids hr_Id rs rs').
Proof. exact pC78_block. Qed.
Print Assumptions C78_block.

(** C78.  Whatever the schedule and the number of workers, all workers together print, in some
    order, exactly what a scan of the file in order prints. *)
Theorem C78_all : forall envs ids rp bs workers s,
  reachable (ef_cfg envs ids rp) bs workers s -> completed s -> s_cancelled s = false ->
  exists outs printed, mapm (ef_block envs ids) bs = Ok outs /\
    mapm (fun w => mapm (ef_block envs ids) (w_mine w)) (s_workers s) = Ok printed /\
    Permutation (concat (map (@concat found) printed)) (concat outs).
Proof. exact pC78_all. Qed.
Print Assumptions C78_all.

Example C72_ex :
  (exists s, reachable (ec_cfg ct_envs false) ct_ex 3 s /\ completed s /\ s_cancelled s = false) /\
  exists gss m, mapm (block_groups ct_envs) ct_ex = Ok gss /\ reports 3 (concat gss) m /\
    map m (seq 0 9) = [3; 4; 2; 2; 6; 12; 2; 8; 3].
Proof. exact pC72_ex. Qed.

Example C78_ex :
  (exists s, reachable (ef_cfg ct_envs [3; 8] false) ct_ex 3 s /\ completed s /\ s_cancelled s = false) /\
  (exists ns ws rs, entities (ct_envs 1) (ct_block 1) ns ws rs) /\
  ef_block ct_envs [3; 8] (ct_block 1) = Ok [FNode (mkNode 3 [] 100 200); FRelation (mkHRel 8 [] [[120]] [1] [0])].
Proof. exact pC78_ex. Qed.
