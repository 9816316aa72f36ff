(** * CtProofs: shared counters, and what a worker's totals are. *)
From Verif Require Import Base BaseLemmas TModel HLModel FrModel ZlModel PlModel PlSpec CtModel CtSpec.

(** ** Shared counters *)
Definition adds (k : nat) (ops : list op) : list Z := flat_map (fun o => match o with OAdd j v => if Nat.eqb j k then [v] else [] | OMax _ _ => [] end) ops.
Definition maxs (k : nat) (ops : list op) : list Z := flat_map (fun o => match o with OMax j v => if Nat.eqb j k then [v] else [] | OAdd _ _ => [] end) ops.
Definition left_ops (ths : list thread) : list op := flat_map fst ths.
Definition zsum (l : list Z) : Z := fold_right Z.add 0 l.
Definition pend_ok (ths : list thread) : Prop :=
  Forall (fun th => match snd th with None => True | Some old => exists k v ops, fst th = OMax k v :: ops /\ old < v end) ths.

Lemma zsum_app a b : zsum (a ++ b) = zsum a + zsum b.
Proof. unfold zsum. induction a as [|x a IH]; cbn [app fold_right]; lia. Qed.
Lemma fmax_app a l1 l2 : fold_right Z.max a (l1 ++ l2) = fold_right Z.max (fold_right Z.max a l2) l1.
Proof. apply fold_right_app. Qed.
Lemma fmax_base a v l : fold_right Z.max (Z.max v a) l = Z.max v (fold_right Z.max a l).
Proof. induction l as [|x l IH]; cbn [fold_right]; [reflexivity|]. rewrite IH. lia. Qed.
Lemma fmax_ge a l : a <= fold_right Z.max a l.
Proof. induction l as [|x l IH]; cbn [fold_right]; lia. Qed.
Lemma left_at l th r : left_ops (l ++ th :: r) = left_ops l ++ fst th ++ left_ops r.
Proof. unfold left_ops. rewrite flat_map_app. reflexivity. Qed.
Lemma adds_app k a b : adds k (a ++ b) = adds k a ++ adds k b.
Proof. apply flat_map_app. Qed.
Lemma maxs_app k a b : maxs k (a ++ b) = maxs k a ++ maxs k b.
Proof. apply flat_map_app. Qed.
Lemma adds_cons_add k j v ops : adds k (OAdd j v :: ops) = (if Nat.eqb j k then [v] else []) ++ adds k ops. Proof. reflexivity. Qed.
Lemma adds_cons_max k j v ops : adds k (OMax j v :: ops) = adds k ops. Proof. reflexivity. Qed.
Lemma maxs_cons_max k j v ops : maxs k (OMax j v :: ops) = (if Nat.eqb j k then [v] else []) ++ maxs k ops. Proof. reflexivity. Qed.
Lemma maxs_cons_add k j v ops : maxs k (OAdd j v :: ops) = maxs k ops. Proof. reflexivity. Qed.

Lemma u64_eq a b : (exists q, a = b + q * 2^64) -> u64 a = u64 b.
Proof. intros (q & ->). apply u64_add_k. Qed.
Lemma step_add k s s' : mstep s s' -> maxs k (left_ops (snd s)) = [] ->
  maxs k (left_ops (snd s')) = [] /\ u64 (fst s' k + zsum (adds k (left_ops (snd s')))) = u64 (fst s k + zsum (adds k (left_ops (snd s)))).
Proof.
  intros ST; inversion ST; subst; cbn [fst snd]; rewrite !left_at; cbn [fst]; rewrite !maxs_app, !adds_app, ?maxs_cons_add, ?maxs_cons_max, ?adds_cons_add, ?adds_cons_max; intros M.
  - split; [exact M|]. unfold mset_cell. rewrite Nat.eqb_sym. destruct (Nat.eqb_spec k0 k) as [->|N]; [|reflexivity]. rewrite !zsum_app. cbn [zsum fold_right].
    apply u64_eq. destruct (u64_cong (m k + v)) as (q & ->). exists q. lia.
  - split; [exact M|reflexivity].
  - apply app_eq_nil in M. destruct M as (M1 & M2). apply app_eq_nil in M2. destruct M2 as (M2 & M3). apply app_eq_nil in M2. destruct M2 as (_ & M2). rewrite M1, M2, M3. split; reflexivity.
  - apply app_eq_nil in M. destruct M as (M1 & M2). apply app_eq_nil in M2. destruct M2 as (M2 & M3). apply app_eq_nil in M2. destruct M2 as (M0 & M2). rewrite M1, M2, M3. split; [reflexivity|].
    unfold mset_cell. rewrite Nat.eqb_sym. destruct (Nat.eqb_spec k0 k) as [->|N]; [discriminate M0|reflexivity].
  - split; [exact M|reflexivity].
Qed.
Lemma pend_at l th r : pend_ok (l ++ th :: r) <-> pend_ok l /\ match snd th with None => True | Some old => exists k v ops, fst th = OMax k v :: ops /\ old < v end /\ pend_ok r.
Proof. unfold pend_ok. rewrite Forall_app, Forall_cons_iff. tauto. Qed.
Lemma step_pend s s' : mstep s s' -> pend_ok (snd s) -> pend_ok (snd s').
Proof.
  intros ST; inversion ST; subst; cbn [fst snd]; rewrite !pend_at; cbn [fst snd]; try tauto. intros (H1 & _ & H2). split; [exact H1|]. split; [|exact H2]. exists k, v, ops. split; [reflexivity|assumption].
Qed.
Lemma step_max k s s' : mstep s s' -> pend_ok (snd s) -> adds k (left_ops (snd s)) = [] ->
  adds k (left_ops (snd s')) = [] /\ fold_right Z.max (fst s' k) (maxs k (left_ops (snd s'))) = fold_right Z.max (fst s k) (maxs k (left_ops (snd s))).
Proof.
  intros ST; inversion ST; subst; cbn [fst snd]; rewrite pend_at; cbn [fst snd]; rewrite !left_at; cbn [fst]; rewrite !maxs_app, !adds_app, ?maxs_cons_add, ?maxs_cons_max, ?adds_cons_add, ?adds_cons_max; intros (P1 & P2 & P3) M.
  - apply app_eq_nil in M. destruct M as (M1 & M2). apply app_eq_nil in M2. destruct M2 as (M2 & M3). apply app_eq_nil in M2. destruct M2 as (M0 & M2). rewrite M1, M2, M3. split; [reflexivity|].
    unfold mset_cell. rewrite Nat.eqb_sym. destruct (Nat.eqb_spec k0 k) as [->|N]; [discriminate M0|reflexivity].
  - split; [exact M|reflexivity].
  - split; [exact M|]. destruct (Nat.eqb_spec k0 k) as [->|N]; [|reflexivity]. rewrite !fmax_app. f_equal. cbn [fold_right app]. rewrite <- fmax_app. pose proof (fmax_ge (m k) (maxs k ops ++ maxs k (left_ops r))). lia.
  - split; [exact M|]. unfold mset_cell. rewrite Nat.eqb_sym. destruct (Nat.eqb_spec k0 k) as [->|N]; [|reflexivity]. rewrite !fmax_app. f_equal. cbn [fold_right app]. rewrite <- !fmax_app.
    destruct P2 as (k1 & v1 & ops1 & E & L). injection E as <- <- <-. rewrite <- fmax_base. f_equal. lia.
  - split; [exact M|reflexivity].
Qed.
Lemma finished_left ths : finished ths -> left_ops ths = [].
Proof. induction 1 as [|th ths H _ IH]; [reflexivity|]. unfold left_ops in *. cbn [flat_map]. rewrite H, IH. reflexivity. Qed.
Lemma left_start progs : left_ops (start progs) = concat progs.
Proof. unfold left_ops, start. rewrite flat_map_concat_map, map_map. cbn [fst]. rewrite map_id. reflexivity. Qed.
Lemma pend_start progs : pend_ok (start progs).
Proof. unfold pend_ok, start. rewrite Forall_map. apply Forall_forall. intros p _. exact I. Qed.
Lemma msteps_add k n s s' : msteps n s s' -> maxs k (left_ops (snd s)) = [] -> finished (snd s') ->
  u64 (fst s' k) = u64 (fst s k + zsum (adds k (left_ops (snd s)))).
Proof.
  intros H. induction H as [s|n s s1 s2 ST _ IH]; intros M F.
  - rewrite (finished_left _ F). cbn. f_equal. lia.
  - destruct (step_add k _ _ ST M) as (M1 & E). rewrite (IH M1 F). exact E.
Qed.
Lemma msteps_max k n s s' : msteps n s s' -> pend_ok (snd s) -> adds k (left_ops (snd s)) = [] -> finished (snd s') ->
  fst s' k = fold_right Z.max (fst s k) (maxs k (left_ops (snd s))).
Proof.
  intros H. induction H as [s|n s s1 s2 ST _ IH]; intros P M F.
  - rewrite (finished_left _ F). reflexivity.
  - destruct (step_max k _ _ ST P M) as (M1 & E). rewrite (IH (step_pend _ _ ST P) M1 F). exact E.
Qed.
(** a cell that is u64 stays so *)
Lemma msteps_u64 k n s s' : msteps n s s' -> is_u64 (fst s k) -> maxs k (left_ops (snd s)) = [] -> is_u64 (fst s' k).
Proof.
  intros H. induction H as [s|n s s1 s2 ST _ IH]; intros U M; [exact U|]. apply IH; [|exact (proj1 (step_add k _ _ ST M))]. clear IH. inversion ST; subst; cbn [fst snd] in *; try exact U.
  - unfold mset_cell. destruct (Nat.eqb k k0); [apply u64_range|exact U].
  - rewrite left_at in M. cbn [fst] in M. rewrite !maxs_app, maxs_cons_max in M. unfold mset_cell. rewrite Nat.eqb_sym. destruct (Nat.eqb_spec k0 k) as [->|N]; [|exact U].
    apply app_eq_nil in M. destruct M as (_ & M). discriminate M.
Qed.

(** how long it can take *)
Definition th_weight (m : mem) (th : thread) : nat :=
  match th with
  | ([], _) => 0
  | (_, None) => 2
  | (OMax k _ :: _, Some old) => if m k =? old then 1 else 3
  | (OAdd _ _ :: _, Some _) => 3
  end.
Definition m_weight (s : mem * list thread) : nat :=
  (List.length (left_ops (snd s)) * (2 * List.length (snd s) + 3) + list_sum (map (th_weight (fst s)) (snd s)))%nat.
Lemma th_bound m th : (th_weight m th <= 3)%nat.
Proof. destruct th as [[|[] ?] [?|]]; cbn; try destruct (_ =? _); lia. Qed.
Lemma th_mono m m' th : (th_weight m' th <= th_weight m th + 2)%nat.
Proof. destruct th as [[|[] ?] [?|]]; cbn; repeat destruct (_ =? _); lia. Qed.
Lemma sum_mono m m' l : (list_sum (map (th_weight m') l) <= list_sum (map (th_weight m) l) + 2 * List.length l)%nat.
Proof. induction l as [|th l IH]; [cbn; lia|]. change (list_sum (map (th_weight m') (th :: l))) with (th_weight m' th + list_sum (map (th_weight m') l))%nat. change (list_sum (map (th_weight m) (th :: l))) with (th_weight m th + list_sum (map (th_weight m) l))%nat. pose proof (th_mono m m' th). cbn [List.length]. lia. Qed.
Lemma sum_at m l th r : list_sum (map (th_weight m) (l ++ th :: r)) = (list_sum (map (th_weight m) l) + th_weight m th + list_sum (map (th_weight m) r))%nat.
Proof. rewrite map_app, list_sum_app. cbn [map]. change (list_sum (th_weight m th :: map (th_weight m) r)) with (th_weight m th + list_sum (map (th_weight m) r))%nat. lia. Qed.
Lemma w_pop a b c N x y : (y < x + N)%nat -> ((a + (b + c)) * N + y < (a + (S b + c)) * N + x)%nat.
Proof. intros H. replace (a + (S b + c))%nat with (S (a + (b + c)))%nat by lia. rewrite Nat.mul_succ_l. lia. Qed.
Lemma mstep_weight s s' : mstep s s' -> (m_weight s' < m_weight s)%nat.
Proof.
  intros ST; inversion ST; subst; unfold m_weight; cbn [fst snd]; rewrite !left_at, !sum_at, !app_length; cbn [fst List.length].
  - pose proof (sum_mono m (mset_cell m k (u64 (m k + v))) l). pose proof (sum_mono m (mset_cell m k (u64 (m k + v))) r). pose proof (th_bound (mset_cell m k (u64 (m k + v))) (ops, None)).
    assert (th_weight (mset_cell m k (u64 (m k + v))) (ops, None) <= 2)%nat by (destruct ops as [|[] ?]; cbn; lia). assert (th_weight m (OAdd k v :: ops, None) = 2%nat) by reflexivity. apply w_pop; unfold thread in *; lia.
  - cbn [th_weight]. rewrite Z.eqb_refl. apply Nat.add_lt_mono_l. unfold thread in *. lia.
  - assert (th_weight m (ops, None) <= 2)%nat by (destruct ops as [|[] ?]; cbn; lia). assert (th_weight m (OMax k v :: ops, None) = 2%nat) by reflexivity. apply w_pop; unfold thread in *; lia.
  - pose proof (sum_mono m (mset_cell m k v) l). pose proof (sum_mono m (mset_cell m k v) r). assert (th_weight (mset_cell m k v) (ops, None) <= 2)%nat by (destruct ops as [|[] ?]; cbn; lia).
    assert (th_weight m (OMax k v :: ops, Some (m k)) = 1%nat) by (cbn; rewrite Z.eqb_refl; reflexivity). apply w_pop; unfold thread in *; lia.
  - cbn [th_weight]. destruct (Z.eqb_spec (m k) old); [contradiction|]. apply Nat.add_lt_mono_l. unfold thread in *. lia.
Qed.

(** ** The totals of a worker *)
Definition lmax (l : list Z) : Z := fold_right Z.max 0 l.
Definition way_refs (gs : list PrimitiveGroup) : list Z := flat_map way_Refs (all_ways gs).
Definition tot (n : Z) (gs : list PrimitiveGroup) : totals :=
  mkTot (u64 n) (u64 (zlen (node_ids gs))) (u64 (zlen (all_ways gs))) (u64 (zlen (all_relations gs))) (u64 (zlen (way_refs gs)))
    (lmax (map u64 (node_ids gs))) (lmax (map (fun w => u64 (way_ID w)) (all_ways gs)))
    (lmax (map (fun r => u64 (rel_ID r)) (all_relations gs))) (lmax (map (fun w => zlen (way_Refs w)) (all_ways gs))).
Lemma umax_max a b : umax a b = Z.max a b.
Proof. unfold umax. destruct (Z.ltb_spec b a); lia. Qed.
Lemma fmax_swap a l1 l2 : fold_right Z.max (fold_right Z.max a l2) l1 = fold_right Z.max (fold_right Z.max a l1) l2.
Proof. induction l1 as [|x l1 IH]; cbn [fold_right]; [reflexivity|]. rewrite IH, fmax_base. reflexivity. Qed.
Lemma lmax_snoc l1 l2 : fold_right Z.max (lmax l1) l2 = lmax (l1 ++ l2).
Proof. unfold lmax. rewrite fmax_app. apply fmax_swap. Qed.
Lemma lmax_nonneg l : 0 <= lmax l.
Proof. apply fmax_ge. Qed.
Lemma lmax_app l1 l2 : lmax (l1 ++ l2) = Z.max (lmax l1) (lmax l2).
Proof. unfold lmax. rewrite fmax_app. pose proof (lmax_nonneg l2) as H. unfold lmax in H. replace (fold_right Z.max 0 l2) with (Z.max (fold_right Z.max 0 l2) 0) at 1 by lia. rewrite fmax_base. lia. Qed.
Lemma ids_app a b : node_ids (a ++ b) = node_ids a ++ node_ids b. Proof. apply flat_map_app. Qed.
Lemma ways_app a b : all_ways (a ++ b) = all_ways a ++ all_ways b. Proof. apply flat_map_app. Qed.
Lemma rels_app a b : all_relations (a ++ b) = all_relations a ++ all_relations b. Proof. apply flat_map_app. Qed.
Lemma refs_app a b : way_refs (a ++ b) = way_refs a ++ way_refs b. Proof. unfold way_refs. rewrite ways_app. apply flat_map_app. Qed.
Lemma ids_one g : node_ids [g] = match pg_Dense g with Some d => dn_Id d | None => [] end. Proof. unfold node_ids. cbn [flat_map]. apply app_nil_r. Qed.
Lemma ways_one g : all_ways [g] = ways_of g. Proof. unfold all_ways. cbn [flat_map]. apply app_nil_r. Qed.
Lemma rels_one g : all_relations [g] = rels_of g. Proof. unfold all_relations. cbn [flat_map]. apply app_nil_r. Qed.
Lemma u64_add_u64 a b : u64 (u64 a + b) = u64 (a + b).
Proof. apply u64_eq. destruct (u64_cong a) as (q & ->). exists q. lia. Qed.

Lemma dense_fold ids : forall t, fold_left (fun t nid => mkTot (t_block t) (t_node t) (t_way t) (t_relation t) (t_ref t)
      (umax (u64 nid) (t_maxNode t)) (t_maxWay t) (t_maxRelation t) (t_maxRef t)) ids t =
  mkTot (t_block t) (t_node t) (t_way t) (t_relation t) (t_ref t) (fold_right Z.max (t_maxNode t) (map u64 ids)) (t_maxWay t) (t_maxRelation t) (t_maxRef t).
Proof.
  induction ids as [|i ids IH]; intros t; [destruct t; reflexivity|]. cbn [fold_left]. rewrite IH. cbn [t_block t_node t_way t_relation t_ref t_maxNode t_maxWay t_maxRelation t_maxRef map fold_right].
  rewrite umax_max, fmax_base. reflexivity.
Qed.
Lemma way_fold ws : forall t, fold_left ec_way ws t =
  mkTot (t_block t) (t_node t) (t_way t) (t_relation t) (match ws with [] => t_ref t | _ => u64 (t_ref t + zlen (flat_map way_Refs ws)) end)
    (t_maxNode t) (fold_right Z.max (t_maxWay t) (map (fun w => u64 (way_ID w)) ws)) (t_maxRelation t) (fold_right Z.max (t_maxRef t) (map (fun w => zlen (way_Refs w)) ws)).
Proof.
  induction ws as [|w ws IH]; intros t; [destruct t; reflexivity|]. cbn [fold_left]. rewrite IH. unfold ec_way. cbn [t_block t_node t_way t_relation t_ref t_maxNode t_maxWay t_maxRelation t_maxRef map fold_right flat_map].
  rewrite !umax_max, fmax_base. rewrite (Z.max_comm (t_maxRef t)), fmax_base. f_equal. destruct ws as [|w2 ws]; [cbn [flat_map]; rewrite app_nil_r; reflexivity|]. rewrite u64_add_u64, zlen_app. f_equal. lia.
Qed.
Lemma rel_fold rs : forall t, fold_left ec_relation rs t =
  mkTot (t_block t) (t_node t) (t_way t) (t_relation t) (t_ref t)
    (t_maxNode t) (t_maxWay t) (fold_right Z.max (t_maxRelation t) (map (fun r => u64 (rel_ID r)) rs)) (t_maxRef t).
Proof.
  induction rs as [|r rs IH]; intros t; [destruct t; reflexivity|]. cbn [fold_left]. rewrite IH. unfold ec_relation. cbn [t_block t_node t_way t_relation t_ref t_maxNode t_maxWay t_maxRelation t_maxRef map fold_right].
  rewrite !umax_max, fmax_base. reflexivity.
Qed.
Lemma group_tot n gs g : ec_group (tot n gs) g = tot n (gs ++ [g]).
Proof.
  unfold ec_group. cbv zeta.
  assert (D : (match pg_Dense g with Some d => ec_dense (tot n gs) d | None => tot n gs end) = mkTot (u64 n) (u64 (zlen (node_ids (gs ++ [g])))) (t_way (tot n gs)) (t_relation (tot n gs)) (t_ref (tot n gs))
      (lmax (map u64 (node_ids (gs ++ [g])))) (t_maxWay (tot n gs)) (t_maxRelation (tot n gs)) (t_maxRef (tot n gs))).
  { rewrite ids_app, ids_one. destruct (pg_Dense g) as [d|].
    - unfold ec_dense. rewrite dense_fold. cbn [t_block t_node t_way t_relation t_ref t_maxNode t_maxWay t_maxRelation t_maxRef tot]. rewrite u64_add_u64, zlen_app, map_app, <- lmax_snoc. reflexivity.
    - rewrite app_nil_r. reflexivity. }
  rewrite D. clear D. rewrite rel_fold, way_fold. cbn [t_block t_node t_way t_relation t_ref t_maxNode t_maxWay t_maxRelation t_maxRef tot]. unfold tot.
  rewrite ways_app, rels_app, refs_app, ways_one, rels_one, !zlen_app, !map_app, !u64_add_u64. unfold way_refs. rewrite ways_one, !lmax_snoc. f_equal.
  destruct (ways_of g) as [|w ws]; [cbn [flat_map]; change (zlen (@nil Z)) with 0; rewrite Z.add_0_r; reflexivity|]. reflexivity.
Qed.
Lemma groups_tot gs' : forall n gs, fold_left ec_group gs' (tot n gs) = tot n (gs ++ gs').
Proof.
  induction gs' as [|g gs' IH]; intros n gs; cbn [fold_left]; [rewrite app_nil_r; reflexivity|]. rewrite group_tot, IH, <- app_assoc. reflexivity.
Qed.
Lemma block_tot envs n gs b : ec_block envs (tot n gs) b = (gs' <- block_groups envs b ;; Ok (tot (n + 1) (gs ++ gs'))).
Proof.
  unfold ec_block, block_groups. fold tOSMData. cbn [t_block t_node t_way t_relation t_ref t_maxNode t_maxWay t_maxRelation t_maxRef tot]. rewrite u64_add_u64.
  match goal with |- context [mkTot ?a1 ?a2 ?a3 ?a4 ?a5 ?a6 ?a7 ?a8 ?a9] => change (mkTot a1 a2 a3 a4 a5 a6 a7 a8 a9) with (tot (n + 1) gs) end.
  destruct (seqb (blk_Type b) tOSMData); cbn [negb bind]; [|rewrite app_nil_r; reflexivity].
  destruct (ReadBlob _ _); cbn [bind]; try reflexivity. destruct (GetRawData _ _); cbn [bind]; try reflexivity. unfold ec_reader. destruct (ReadPrimitiveBlock _ _ _); cbn [bind]; try reflexivity. rewrite groups_tot. reflexivity.
Qed.
Lemma worker_tot envs bs : forall n gs, foldm (ec_block envs) bs (tot n gs) = (gss <- mapm (block_groups envs) bs ;; Ok (tot (n + zlen bs) (gs ++ concat gss))).
Proof.
  induction bs as [|b bs IH]; intros n gs; cbn [foldm mapm].
  - cbn [bind concat]. change (zlen (@nil Block)) with 0. rewrite Z.add_0_r, app_nil_r. reflexivity.
  - rewrite block_tot. destruct (block_groups envs b) as [g| |]; cbn [bind]; try reflexivity. rewrite IH. destruct (mapm _ bs) as [gss| |]; cbn [bind]; try reflexivity.
    cbn [concat]. rewrite zlen_cons, app_assoc. replace (n + 1 + zlen bs) with (n + (1 + zlen bs)) by lia. reflexivity.
Qed.
Lemma tot_0 : tot 0 [] = totals0. Proof. reflexivity. Qed.

(** ** All workers together *)
Lemma lmax_flat {X} (h : X -> list Z) l : lmax (map (fun x => lmax (h x)) l) = lmax (flat_map h l).
Proof. induction l as [|x l IH]; [reflexivity|]. cbn [map flat_map]. rewrite lmax_app, <- IH. reflexivity. Qed.
Lemma lmax_perm a b : Permutation a b -> lmax a = lmax b.
Proof. induction 1 as [|x a b _ IH|x y a|a b c _ IH1 _ IH2]; unfold lmax in *; cbn [fold_right]; [reflexivity|rewrite IH; reflexivity|lia|congruence]. Qed.
Lemma zlen_flat {X Y} (h : X -> list Y) l : zlen (flat_map h l) = zsum (map (fun x => zlen (h x)) l).
Proof. induction l as [|x l IH]; [reflexivity|]. cbn [flat_map map]. rewrite zlen_app, IH. reflexivity. Qed.
Lemma zlen_perm {X} (a b : list X) : Permutation a b -> zlen a = zlen b.
Proof. intros H. apply Permutation_length in H. unfold zlen. rewrite H. reflexivity. Qed.
Lemma zsum_u64 {X} (f : X -> Z) l : u64 (zsum (map (fun x => u64 (f x)) l)) = u64 (zsum (map f l)).
Proof.
  apply u64_eq. induction l as [|x l (q & IH)]; [exists 0; reflexivity|]. cbn [map zsum fold_right]. fold (zsum (map (fun x => u64 (f x)) l)). fold (zsum (map f l)). rewrite IH. destruct (u64_cong (f x)) as (p & ->). exists (p + q). lia.
Qed.
Lemma largest_lmax vs : Forall (fun v => 0 <= v) vs -> is_largest vs (lmax vs).
Proof.
  destruct vs as [|v vs]; intros H; [left; auto|]. right. split.
  - clear - H. revert v H. induction vs as [|w vs IH]; intros v H; inversion H; subst; unfold lmax in *; cbn [fold_right] in *; [left; lia|]. destruct (Z.max_spec v (Z.max w (fold_right Z.max 0 vs))) as [(_ & ->)|(_ & ->)]; [|left; reflexivity]. right. apply IH. assumption.
  - intros x I. clear H. unfold lmax. revert I. generalize (v :: vs). intros l I. induction l as [|y l IH]; [destruct I|]. cbn [fold_right]. destruct I as [->|I]; [lia|]. specialize (IH I). lia.
Qed.
Lemma flat_flat {X Y W} (f : Y -> list W) (g : X -> list Y) l : flat_map f (flat_map g l) = flat_map (fun x => flat_map f (g x)) l.
Proof. induction l as [|x l IH]; [reflexivity|]. cbn [flat_map]. rewrite flat_map_app, IH. reflexivity. Qed.
