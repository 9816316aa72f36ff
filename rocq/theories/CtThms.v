(** * CtThms: the counting and finding tools, C71, C72, C78. *)
From Verif Require Import Base PbSpec TModel HLModel FrModel ZlModel TfSpec PlModel PlSpec CtModel CtSpec.
From Verif Require Import BaseLemmas PlProofs2 PlThms CtProofs.
From Verif Require HLProofs.

(** ** C71 *)
Lemma maxs_one vs : maxs 0 (concat (map (fun v => [OMax 0 v]) vs)) = vs.
Proof. induction vs as [|v vs IH]; [reflexivity|]. cbn [map concat app]. rewrite maxs_cons_max, IH. reflexivity. Qed.
Lemma adds_one k vs : adds k (concat (map (fun v => [OMax 0 v]) vs)) = [].
Proof. induction vs as [|v vs IH]; [reflexivity|]. cbn [map concat app]. rewrite adds_cons_max. exact IH. Qed.
(** C71.  Any number of goroutines merge their values into a shared variable at the same time.
    When all have finished, however they were scheduled, it is the maximum of its first
    value and all of theirs. *)
Lemma pC71_max : forall init vs n m ths,
  msteps n (fun _ => init, start (map (fun v => [OMax 0 v]) vs)) (m, ths) -> finished ths ->
  m 0%nat = fold_right Z.max init vs.
Proof.
  intros init vs n m ths H F. pose proof (msteps_max 0 n _ _ H) as X. cbn [fst snd] in X. rewrite left_start, maxs_one, adds_one in X. apply X; [apply pend_start|reflexivity|exact F].
Qed.
Lemma start_weight m progs : (list_sum (map (th_weight m) (start progs)) <= 2 * List.length progs)%nat.
Proof.
  unfold start. induction progs as [|p progs IH]; [reflexivity|]. cbn [map List.length]. change (list_sum (th_weight m (p, None) :: map (th_weight m) (map (fun p => (p, None)) progs))) with (th_weight m (p, None) + list_sum (map (th_weight m) (map (fun p => (p, @None Z)) progs)))%nat.
  assert (th_weight m (p, None) <= 2)%nat by (destruct p as [|[] ?]; cbn; lia). lia.
Qed.
Lemma msteps_weight n s s' : msteps n s s' -> (n + m_weight s' <= m_weight s)%nat.
Proof. induction 1 as [s|n s s1 s2 ST _ IH]; [lia|]. apply mstep_weight in ST. lia. Qed.
(** C71.  They all finish: no schedule has more than this many atomic operations ... *)
Lemma pC71_bounded : forall init vs n s,
  msteps n (fun _ => init, start (map (fun v => [OMax 0 v]) vs)) s ->
  (n <= List.length vs * (2 * List.length vs + 5))%nat.
Proof.
  intros init vs n s H. apply msteps_weight in H. unfold m_weight in H at 2. cbn [fst snd] in H. rewrite left_start in H.
  assert (L1 : List.length (concat (map (fun v => [OMax 0 v]) vs)) = List.length vs) by (clear; induction vs as [|v vs IH]; [reflexivity|]; cbn [map concat app List.length]; rewrite IH; reflexivity).
  pose proof (start_weight (fun _ => init) (map (fun v => [OMax 0 v]) vs)) as W. rewrite map_length in W. assert (L2 : List.length (start (map (fun v => [OMax 0 v]) vs)) = List.length vs) by (unfold start; rewrite !map_length; reflexivity).
  rewrite L1, L2 in H. nia.
Qed.
(** C71.  ... and as long as some have not finished, one can go on. *)
Lemma pC71_progress : forall progs m0 n m ths,
  msteps n (m0, start progs) (m, ths) -> finished ths \/ exists s, mstep (m, ths) s.
Proof.
  intros progs m0 n m ths H.
  assert (P : pend_ok ths).
  { assert (G : forall n s s', msteps n s s' -> pend_ok (snd s) -> pend_ok (snd s')) by (clear; intros n s s' H; induction H as [s|n s s1 s2 ST _ IH]; intros P; [exact P|apply IH; eapply step_pend; eassumption]). exact (G _ _ _ H (pend_start progs)). }
  clear H. assert (X : finished ths \/ exists l th r, ths = l ++ th :: r /\ fst th <> []).
  { clear P. induction ths as [|th ths IH]; [left; constructor|]. destruct th as [[|o ops] x] eqn:E.
    - destruct IH as [IH|(l & th' & r & -> & N)]; [left; constructor; [reflexivity|exact IH]|right; exists (([], x) :: l), th', r; split; [reflexivity|exact N]].
    - right. exists [], (o :: ops, x), ths. split; [reflexivity|discriminate]. }
  destruct X as [X|(l & [p x] & r & -> & N)]; [left; exact X|]. right. cbn [fst] in N. apply pend_at in P. destruct P as (_ & P & _). cbn [fst snd] in P.
  destruct x as [old|].
  - destruct P as (k & v & ops & -> & L). destruct (Z.eq_dec (m k) old) as [E|E]; eexists; [apply m_cas; exact E|apply m_cas_fails; exact E].
  - destruct p as [|[k v|k v] ops]; [congruence|eexists; apply m_add|]. destruct (Z_lt_dec (m k) v) as [E|E]; eexists; [apply m_load_less; exact E|apply m_load_enough; exact E].
Qed.
(** Two goroutines with 5 and 7: the first loads, the second does all its work, the first's
    swap fails and it loads again. *)
Lemma pC71_ex : exists m ths, msteps 5 (fun _ => 3, start (map (fun v => [OMax 0 v]) [5; 7])) (m, ths) /\ finished ths /\ m 0%nat = 7.
Proof.
  exists (mset_cell (fun _ => 3) 0 7), [([], None); ([], None)]. split; [|split; [repeat constructor|]].
  - eapply msteps_S; [apply (m_load_less _ [] [([OMax 0 7], None)] 0 5 []); lia|]. cbn [app].
    eapply msteps_S; [apply (m_load_less _ [([OMax 0 5], Some 3)] [] 0 7 []); lia|]. cbn [app].
    eapply msteps_S; [apply (m_cas _ [([OMax 0 5], Some 3)] [] 0 7 []); reflexivity|]. cbn [app].
    eapply msteps_S; [apply (m_cas_fails _ [] [([], None)] 0 5 [] 3); cbn; lia|]. cbn [app].
    eapply msteps_S; [apply (m_load_enough _ [] [([], None)] 0 5 []); cbn; lia|]. cbn [app]. apply msteps_0.
  - reflexivity.
Qed.

(** ** C72 *)
Definition grp (envs : Z -> zenv) (b : Block) : list PrimitiveGroup := match block_groups envs b with Ok g => g | _ => [] end.
Lemma mapm_all {A B} (f : A -> res B) (d : A -> B) l : (forall a, In a l -> f a = Ok (d a)) -> mapm f l = Ok (map d l).
Proof. induction l as [|a l IH]; intros H; [reflexivity|]. cbn [mapm map]. rewrite (H a (or_introl eq_refl)). cbn [bind]. rewrite IH; [reflexivity|]. intros x Hx. apply H. right. exact Hx. Qed.
Lemma merge_adds k ts : adds k (concat (map ec_merge ts)) =
  match k with 0 => map t_block ts | 1 => map t_node ts | 2 => map t_way ts | 3 => map t_relation ts | 4 => map t_ref ts | _ => [] end%nat.
Proof.
  induction ts as [|t ts IH]; [destruct k as [|[|[|[|[|k]]]]]; reflexivity|]. cbn [map concat]. rewrite adds_app, IH. clear IH. destruct k as [|[|[|[|[|k]]]]]; reflexivity.
Qed.
Lemma merge_maxs k ts : maxs k (concat (map ec_merge ts)) =
  match k with 5 => map t_maxNode ts | 6 => map t_maxWay ts | 7 => map t_maxRelation ts | 8 => map t_maxRef ts | _ => [] end%nat.
Proof.
  induction ts as [|t ts IH]; [destruct k as [|[|[|[|[|[|[|[|[|k]]]]]]]]]; reflexivity|]. cbn [map concat]. rewrite maxs_app, IH. clear IH. destruct k as [|[|[|[|[|[|[|[|[|k]]]]]]]]]; reflexivity.
Qed.
Lemma finished_work {A B} (c : cfg A B) inp n s : c_writer c = false -> reachable c inp n s -> completed s -> s_cancelled s = false ->
  Permutation (flat_map w_mine (s_workers s)) inp /\ forall a, In a inp -> exists b, c_work c a = Ok b.
Proof.
  intros W R D C. pose proof (pC40_once _ _ c inp n s W R D C) as P. split; [exact P|]. intros a I. apply (i_ok _ _ _ _ (inv_reach c (fun _ => 0) inp n ltac:(congruence) ltac:(congruence) s R)).
  eapply Permutation_in; [symmetry; exact P|exact I].
Qed.
(** C72.  However the blocks of the file were distributed over the workers, and however the
    workers' additions and maxima were interleaved at the end, what is printed are the
    numbers of blocks, nodes, ways, relations and way references of the file and the largest
    ids and the largest number of references. *)
Lemma pC72_entitycount : forall envs rp bs workers s,
  reachable (ec_cfg envs rp) bs workers s -> completed s -> s_cancelled s = false ->
  exists gss ts, mapm (block_groups envs) bs = Ok gss /\
    mapm (fun w => ec_worker envs (w_mine w)) (s_workers s) = Ok ts /\
    forall n m ths, msteps n (mem0, start (map ec_merge ts)) (m, ths) -> finished ths ->
      reports (zlen bs) (concat gss) m.
Proof.
  intros envs rp bs nw s R D C. destruct (finished_work (ec_cfg envs rp) bs nw s eq_refl R D C) as (P & OKS). cbn [ec_cfg c_work] in OKS.
  assert (G : forall b, In b bs -> block_groups envs b = Ok (grp envs b)).
  { intros b I. destruct (OKS b I) as (t & E). rewrite <- tot_0, block_tot in E. unfold grp. destruct (block_groups envs b); cbn [bind] in E; [reflexivity|discriminate E..]. }
  set (T := fun w : worker Block totals => tot (zlen (w_mine w)) (flat_map (grp envs) (w_mine w))).
  exists (map (grp envs) bs), (map T (s_workers s)). split; [apply mapm_all; exact G|]. split.
  - apply mapm_all. intros w I. unfold ec_worker. rewrite <- tot_0, worker_tot. rewrite (mapm_all _ (grp envs)).
    + cbn [bind]. unfold T. rewrite flat_map_concat_map. reflexivity.
    + intros b Ib. apply G. eapply Permutation_in; [exact P|]. apply in_flat_map. exists w. split; assumption.
  - intros n m ths H F. rewrite <- flat_map_concat_map. set (gs := flat_map (grp envs) bs). set (ws := s_workers s) in *.
    assert (PG : Permutation (flat_map (fun w => flat_map (grp envs) (w_mine w)) ws) gs) by (rewrite <- flat_flat; apply Permutation_flat_map; exact P).
    assert (ADD : forall k (f : worker Block totals -> Z) z, maxs k (concat (map ec_merge (map T ws))) = [] -> adds k (concat (map ec_merge (map T ws))) = map (fun w => u64 (f w)) ws -> zsum (map f ws) = z -> m k = z mod 2^64).
    { intros k f z M A Z0. pose proof (msteps_add k n _ _ H) as X. pose proof (msteps_u64 k n _ _ H) as Y. cbn [fst snd] in X, Y. rewrite left_start in X, Y. specialize (X M F). specialize (Y ltac:(unfold is_u64, mem0; lia) M). rewrite u64_id in X by exact Y.
      rewrite X, A. unfold mem0. rewrite Z.add_0_l, zsum_u64, Z0. reflexivity. }
    assert (MAX : forall k (h : worker Block totals -> list Z) vs, adds k (concat (map ec_merge (map T ws))) = [] -> maxs k (concat (map ec_merge (map T ws))) = map (fun w => lmax (h w)) ws -> Permutation (flat_map h ws) vs -> Forall (fun v => 0 <= v) vs -> is_largest vs (m k)).
    { intros k h vs A M PV NN. pose proof (msteps_max k n _ _ H) as X. cbn [fst snd] in X. rewrite left_start in X. specialize (X (pend_start _) A F). rewrite X, M. unfold mem0. fold (lmax (map (fun w => lmax (h w)) ws)). rewrite lmax_flat, (lmax_perm _ _ PV). apply largest_lmax. exact NN. }
    assert (PF : forall (Y : Type) (f : PrimitiveGroup -> list Y), Permutation (flat_map (fun w => flat_map f (flat_map (grp envs) (w_mine w))) ws) (flat_map f gs)) by (intros Y f; rewrite <- flat_flat; apply Permutation_flat_map; exact PG).
    assert (PM : forall (Y : Type) (f : PrimitiveGroup -> list Y) (v : Y -> Z), Permutation (flat_map (fun w => map v (flat_map f (flat_map (grp envs) (w_mine w)))) ws) (map v (flat_map f gs))).
    { intros Y f v. rewrite <- (PF Y f). clear. induction ws as [|w ws IH]; [reflexivity|]. cbn [flat_map]. rewrite map_app, IH. reflexivity. }
    assert (U : forall (Y : Type) (v : Y -> Z) l, Forall (fun z => 0 <= z) (map (fun y => v y mod 2^64) l)) by (intros Y v l; rewrite Forall_map; apply Forall_forall; intros y _; apply Z.mod_pos_bound; lia).
    unfold reports. repeat (split; [|]).
    + apply (ADD 0%nat (fun w => zlen (w_mine w))); [apply merge_maxs|rewrite merge_adds, map_map; reflexivity|]. rewrite <- zlen_flat. apply zlen_perm. exact P.
    + apply (ADD 1%nat (fun w => zlen (node_ids (flat_map (grp envs) (w_mine w))))); [apply merge_maxs|rewrite merge_adds, map_map; reflexivity|]. rewrite <- zlen_flat. apply zlen_perm, PF.
    + apply (ADD 2%nat (fun w => zlen (all_ways (flat_map (grp envs) (w_mine w))))); [apply merge_maxs|rewrite merge_adds, map_map; reflexivity|]. rewrite <- zlen_flat. apply zlen_perm, PF.
    + apply (ADD 3%nat (fun w => zlen (all_relations (flat_map (grp envs) (w_mine w))))); [apply merge_maxs|rewrite merge_adds, map_map; reflexivity|]. rewrite <- zlen_flat. apply zlen_perm, PF.
    + apply (ADD 4%nat (fun w => zlen (way_refs (flat_map (grp envs) (w_mine w))))); [apply merge_maxs|rewrite merge_adds, map_map; reflexivity|]. rewrite <- zlen_flat. apply zlen_perm.
      unfold way_refs. rewrite <- (flat_flat way_Refs (fun w => all_ways (flat_map (grp envs) (w_mine w))) ws). apply Permutation_flat_map, PF.
    + apply (MAX 5%nat (fun w => map u64 (node_ids (flat_map (grp envs) (w_mine w))))); [apply merge_adds|rewrite merge_maxs, map_map; reflexivity|apply PM|apply U].
    + apply (MAX 6%nat (fun w => map (fun w => u64 (way_ID w)) (all_ways (flat_map (grp envs) (w_mine w))))); [apply merge_adds|rewrite merge_maxs, map_map; reflexivity|apply PM|apply U].
    + apply (MAX 7%nat (fun w => map (fun r => u64 (rel_ID r)) (all_relations (flat_map (grp envs) (w_mine w))))); [apply merge_adds|rewrite merge_maxs, map_map; reflexivity|apply PM|apply U].
    + apply (MAX 8%nat (fun w => map (fun w => zlen (way_Refs w)) (all_ways (flat_map (grp envs) (w_mine w))))); [apply merge_adds|rewrite merge_maxs, map_map; reflexivity|apply PM|].
      rewrite Forall_map. apply Forall_forall. intros w _. apply zlen_nonneg.
Qed.
(** C72.  blockcount prints the number of blocks of the file. *)
Lemma pC72_blockcount : forall rp bs workers s,
  reachable (bc_cfg rp) bs workers s -> completed s -> s_cancelled s = false ->
  forall n m ths, msteps n (mem0, start (map (fun w => [OAdd 0 (bc_worker (w_mine w))]) (s_workers s))) (m, ths) -> finished ths ->
    m 0%nat = zlen bs mod 2^64.
Proof.
  intros rp bs nw s R D C n m ths H F. destruct (finished_work (bc_cfg rp) bs nw s eq_refl R D C) as (P & _). set (ws := s_workers s) in *.
  assert (BC : forall l, bc_worker l = u64 (zlen l)).
  { assert (G : forall l k, fold_left (fun n _ => u64 (n + 1)) l (u64 k) = u64 (k + @zlen Block l)).
    { induction l as [|b l IH]; intros k; cbn [fold_left]; [change (zlen (@nil Block)) with 0; rewrite Z.add_0_r; reflexivity|]. rewrite u64_add_u64, IH, zlen_cons. f_equal. lia. }
    intros l. exact (G l 0). }
  pose proof (msteps_add 0 n _ _ H) as X. pose proof (msteps_u64 0 n _ _ H) as Y. cbn [fst snd] in X, Y. rewrite left_start in X, Y.
  assert (M : maxs 0 (concat (map (fun w : worker Block unit => [OAdd 0 (bc_worker (w_mine w))]) ws)) = []) by (clear; induction ws as [|w ws IH]; [reflexivity|exact IH]).
  assert (A : adds 0 (concat (map (fun w : worker Block unit => [OAdd 0 (bc_worker (w_mine w))]) ws)) = map (fun w => u64 (zlen (w_mine w))) ws).
  { clear - BC. induction ws as [|w ws IH]; [reflexivity|]. cbn [map concat app]. rewrite adds_cons_add, IH, BC. reflexivity. }
  specialize (X M F). specialize (Y ltac:(unfold is_u64, mem0; lia) M). rewrite u64_id in X by exact Y. rewrite X, A. unfold mem0. rewrite Z.add_0_l, zsum_u64, <- zlen_flat, (zlen_perm _ _ P). reflexivity.
Qed.

(** ** C78 *)
Lemma isIn_spec ids id : isIn ids id = true <-> In id ids.
Proof. induction ids as [|x ids IH]; cbn [isIn In]; [split; [discriminate|intros []]|]. destruct (Z.eqb_spec x id) as [->|N]; [tauto|]. rewrite IH. intuition congruence. Qed.
Lemma picked_filter {A} ids (id : A -> Z) l : picked ids id l (filter (fun a => isIn ids (u64 (id a))) l).
Proof.
  induction l as [|a l IH]; [constructor|]. cbn [filter]. destruct (isIn ids (u64 (id a))) eqn:E.
  - apply isIn_spec in E. apply picked_yes; [exact E|exact IH].
  - apply picked_no; [|exact IH]. intros X. apply isIn_spec in X. unfold u64 in E. congruence.
Qed.
(** C78.  What entityfind prints for an OSMData block: its nodes, ways and relations whose id
    is asked for, in this order; for other blocks nothing. *)
Lemma pC78_block : forall envs ids b,
  (blk_Type b <> bytes_of "OSMData" -> ef_block envs ids b = Ok []) /\
  (forall ns ws rs, blk_Type b = bytes_of "OSMData" -> entities (envs (blk_Index b)) b ns ws rs ->
    exists ns' ws' rs', ef_block envs ids b = Ok (map FNode ns' ++ map FWay ws' ++ map FRelation rs') /\
      picked ids hn_Id ns ns' /\ picked ids hw_Id ws ws' /\ picked ids hr_Id rs rs').
Proof.
  intros envs ids b. unfold ef_block. split.
  - intros H. destruct (HLProofs.seqb_spec (blk_Type b) tOSMData) as [E|E]; [contradiction|reflexivity].
  - intros ns ws rs T (p & (bl & raw & E1 & E2 & E3) & N & W & R). rewrite T. fold tOSMData. rewrite HLProofs.seqb_refl. cbn [negb]. rewrite E1. cbn [bind]. rewrite E2. cbn [bind]. unfold ef_reader. rewrite E3. cbn [bind]. rewrite N. cbn [bind]. rewrite W. cbn [bind]. rewrite R. cbn [bind].
    eexists _, _, _. split; [rewrite <- app_assoc; reflexivity|]. split; [apply picked_filter|]. split; apply picked_filter.
Qed.
(** C78.  Whatever the schedule and the number of workers, all workers together print, in some
    order, exactly what a scan of the file in order prints. *)
Lemma pC78_all : forall envs ids rp bs workers s,
  reachable (ef_cfg envs ids rp) bs workers s -> completed s -> s_cancelled s = false ->
  exists outs printed, mapm (ef_block envs ids) bs = Ok outs /\
    mapm (fun w => mapm (ef_block envs ids) (w_mine w)) (s_workers s) = Ok printed /\
    Permutation (concat (map (@concat found) printed)) (concat outs).
Proof.
  intros envs ids rp bs nw s R D C. destruct (finished_work (ef_cfg envs ids rp) bs nw s eq_refl R D C) as (P & OKS). cbn [ef_cfg c_work] in OKS.
  set (G := fun b => match ef_block envs ids b with Ok o => o | _ => [] end).
  assert (E : forall b, In b bs -> ef_block envs ids b = Ok (G b)) by (intros b I; destruct (OKS b I) as (o & X); unfold G; rewrite X; reflexivity).
  exists (map G bs), (map (fun w => map G (w_mine w)) (s_workers s)). split; [apply mapm_all; exact E|]. split.
  - apply mapm_all. intros w I. apply mapm_all. intros b Ib. apply E. eapply Permutation_in; [exact P|]. apply in_flat_map. exists w. split; assumption.
  - rewrite map_map, <- !flat_map_concat_map. rewrite <- (Permutation_flat_map G P), flat_flat.
    assert (X : flat_map (fun w => concat (map G (w_mine w))) (s_workers s) = flat_map (fun w => flat_map G (w_mine w)) (s_workers s)); [|rewrite X; reflexivity].
    apply flat_map_ext. intros w. symmetry. apply flat_map_concat_map.
Qed.

(** *** A file of three blocks and three workers *)
Definition ct_block (index : Z) : Block :=
  mkBlk index (match (p <- MakePrimitiveBlock [mkNode 3 [] 100 200; mkNode (index + 10) [] 0 0] [mkHWay index [] [3; 5; 7]] [mkHRel 8 [] [[120]] [1] [0]] ;;
                      Blob_Write (mkBlob None None None (Some (PrimitiveBlock_Write p))) []) with
           | Ok out => exact out | _ => exact [] end) (bytes_of "OSMData").
Definition ct_ex : list Block := [mkBlk 0 (exact [1]) (bytes_of "OSMHeader"); ct_block 1; ct_block 2].
Definition ct_envs : Z -> zenv := fun _ => mkZenv true [] [].
Lemma runs {A B} (c : cfg A B) inp n : c_writer c = false -> no_panics c inp -> (0 < n)%nat -> exists s, reachable c inp n s /\ completed s /\ s_cancelled s = false.
Proof.
  intros W NP N. destruct (pC38_completes _ _ c (fun _ => 0) inp n _ ltac:(congruence) NP N (reach_init _ _ _)) as (k & s & S & D & C). exists s. split; [|split; [exact D|exact C]].
  revert S. generalize (reach_init c inp n). generalize (pl_init c inp n). clear. intros s0 R S. induction S as [|k s s' s'' ST _ IH]; [exact R|apply IH; eapply reach_step; eassumption].
Qed.
Lemma pC72_ex :
  (exists s, reachable (ec_cfg ct_envs false) ct_ex 3 s /\ completed s /\ s_cancelled s = false) /\
  exists gss m, mapm (block_groups ct_envs) ct_ex = Ok gss /\ reports 3 (concat gss) m /\
    map m (seq 0 9) = [3; 4; 2; 2; 6; 12; 2; 8; 3].
Proof.
  split.
  - apply runs; [reflexivity| |lia]. split; [|split; reflexivity]. intros a I. unfold ct_ex in I. cbn [In] in I.
    destruct I as [<-|[<-|[<-|[]]]]; eexists; vm_compute; reflexivity.
  - eexists. exists (fun k => nth k [3; 4; 2; 2; 6; 12; 2; 8; 3] 0). split; [vm_compute; reflexivity|]. split; [|reflexivity].
    unfold reports. repeat (split; [vm_compute; reflexivity|]). repeat split; right; (split; [cbn; tauto|]); intros v I; vm_compute in I; repeat (destruct I as [<-|I]; [vm_compute; discriminate|]); destruct I.
Qed.
Lemma pC78_ex :
  (exists s, reachable (ef_cfg ct_envs [3; 8] false) ct_ex 3 s /\ completed s /\ s_cancelled s = false) /\
  (exists ns ws rs, entities (ct_envs 1) (ct_block 1) ns ws rs) /\
  ef_block ct_envs [3; 8] (ct_block 1) = Ok [FNode (mkNode 3 [] 100 200); FRelation (mkHRel 8 [] [[120]] [1] [0])].
Proof.
  split; [|split].
  - apply runs; [reflexivity| |lia]. split; [|split; reflexivity]. intros a I. unfold ct_ex in I. cbn [In] in I.
    destruct I as [<-|[<-|[<-|[]]]]; eexists; vm_compute; reflexivity.
  - do 4 eexists. split; [do 2 eexists; split; [vm_compute; reflexivity|]; split; [vm_compute; reflexivity|]; vm_compute; reflexivity|].
    split; [vm_compute; reflexivity|]. split; [vm_compute; reflexivity|]. vm_compute; reflexivity.
  - vm_compute. reflexivity.
Qed.
