(** * TrThms: the worker tracker, its display and the progress markup: C73, C74, C75. *)
From Verif Require Import Base TrModel TrSpec.
From Coq Require Import Permutation.
From Verif Require Import BaseLemmas.

(** ** The list *)
Fixpoint remove_first (w : Z) (l : list Z) : list Z :=
  match l with [] => [] | x :: l => if x =? w then l else x :: remove_first w l end.
Lemma untrack_from pre rest w : tr_untrack_from (pre ++ rest) (List.length pre) rest w = pre ++ remove_first w rest.
Proof.
  revert pre. induction rest as [|x rest IH]; intros pre; [reflexivity|]. cbn [tr_untrack_from remove_first]. destruct (x =? w).
  - unfold copy_down. replace (firstn (List.length pre) (pre ++ x :: rest)) with pre by (rewrite firstn_app, firstn_all, Nat.sub_diag; cbn; rewrite app_nil_r; reflexivity).
    replace (skipn (S (List.length pre)) (pre ++ x :: rest)) with rest.
    2:{ rewrite skipn_app, skipn_all2 by lia. replace (S (List.length pre) - List.length pre)%nat with 1%nat by lia. reflexivity. }
    rewrite app_length. cbn [List.length]. replace (List.length pre + S (List.length rest) - 1)%nat with (List.length pre + List.length rest)%nat by lia.
    rewrite app_assoc, firstn_app, app_length, Nat.sub_diag. cbn [firstn]. rewrite app_nil_r. apply firstn_all2. rewrite app_length. lia.
  - specialize (IH (pre ++ [x])). rewrite app_length, <- !app_assoc in IH. cbn [List.length app] in IH. rewrite Nat.add_1_r in IH. exact IH.
Qed.
Lemma untrack_is ws w : tr_untrack ws w = remove_first w ws.
Proof. exact (untrack_from [] ws w). Qed.
Lemma states_is ws : WorkerStates ws = ws.
Proof.
  unfold WorkerStates. assert (G : forall (l a : list Z), fold_left (fun states worker => states ++ [worker]) l a = a ++ l).
  { induction l as [|x l IH]; intros a; cbn [fold_left]; [symmetry; apply app_nil_r|]. rewrite IH, <- app_assoc. reflexivity. }
  apply G.
Qed.
Lemma remove_none w l : ~ In w l -> remove_first w l = l.
Proof. induction l as [|x l IH]; intros H; [reflexivity|]. cbn [remove_first]. destruct (Z.eqb_spec x w) as [->|N]; [exfalso; apply H; left; reflexivity|]. rewrite IH; [reflexivity|]. intros X. apply H. right. exact X. Qed.
Lemma remove_in w l a : NoDup l -> In a (remove_first w l) <-> In a l /\ a <> w.
Proof.
  induction 1 as [|x l N ND IH]; [cbn; tauto|]. cbn [remove_first]. destruct (Z.eqb_spec x w) as [->|E].
  - split; [intros I; split; [right; exact I|intros ->; contradiction]|]. intros [[<-|I] E]; [congruence|exact I].
  - cbn [In]. rewrite IH. split; [intros [<-|[I J]]; tauto|tauto].
Qed.
(** what is listed after a history *)
Definition listed (h : list call) : list Z := fold_left tr_update h [].
Lemma listed_snoc h c : listed (h ++ [c]) = tr_update (listed h) c.
Proof. unfold listed. rewrite fold_left_app. reflexivity. Qed.
Lemma tracked_app h1 h2 : tracked (h1 ++ h2) = tracked h1 ++ tracked h2.
Proof. induction h1 as [|[w|w] h1 IH]; cbn [app tracked]; [reflexivity|f_equal; exact IH|exact IH]. Qed.
Lemma tracked_in h w : In w (tracked h) <-> In (Track w) h.
Proof.
  induction h as [|[x|x] h IH]; cbn [tracked In]; [tauto| |]; rewrite IH; split; intros H; try tauto; destruct H as [H|H]; try tauto; try (injection H as ->; tauto); try discriminate H.
  subst. left. reflexivity.
Qed.
Lemma live_track h w a : live (h ++ [Track w]) a <-> a = w \/ live h a.
Proof.
  split.
  - intros (h1 & h2 & E & N). destruct h2 as [|x h2] using rev_ind.
    + apply app_inj_tail in E as [_ E]. injection E as <-. left. reflexivity.
    + clear IHh2. right. rewrite app_comm_cons, app_assoc in E. apply app_inj_tail in E as [-> <-]. exists h1, h2. split; [reflexivity|]. intros X. apply N, in_or_app. left. exact X.
  - intros [->|(h1 & h2 & -> & N)]; [exists h, []; split; [reflexivity|intros []]|]. exists h1, (h2 ++ [Track w]). rewrite <- app_assoc. split; [reflexivity|].
    intros X. apply in_app_or in X as [X|[X|[]]]; [contradiction|discriminate X].
Qed.
Lemma live_untrack h w a : live (h ++ [Untrack w]) a <-> live h a /\ a <> w.
Proof.
  split.
  - intros (h1 & h2 & E & N). destruct h2 as [|x h2] using rev_ind.
    + apply app_inj_tail in E as [_ E]. discriminate E.
    + clear IHh2. rewrite app_comm_cons, app_assoc in E. apply app_inj_tail in E as [-> <-]. split.
      * exists h1, h2. split; [reflexivity|]. intros X. apply N, in_or_app. left. exact X.
      * intros ->. apply N, in_or_app. right. left. reflexivity.
  - intros [(h1 & h2 & -> & N) Na]. exists h1, (h2 ++ [Untrack w]). rewrite <- app_assoc. split; [reflexivity|].
    intros X. apply in_app_or in X as [X|[X|[]]]; [contradiction|]. injection X as ->. contradiction.
Qed.
Lemma live_tracked h a : live h a -> In a (tracked h).
Proof. intros (h1 & h2 & -> & _). rewrite tracked_app. apply in_or_app. right. left. reflexivity. Qed.
Lemma those_app P a1 a2 l1 l2 : those P a1 l1 -> those P a2 l2 -> those P (a1 ++ a2) (l1 ++ l2).
Proof. induction 1; intros H2; [exact H2|apply those_yes; auto|apply those_no; auto]. Qed.
Lemma those_ext (P Q : Z -> Prop) all l : (forall a, In a all -> (P a <-> Q a)) -> those P all l -> those Q all l.
Proof.
  intros E H. induction H as [|a all l Pa H IH|a all l Pa H IH]; [constructor| |].
  - apply those_yes; [apply E; [left; reflexivity|exact Pa]|apply IH; intros x X; apply E; right; exact X].
  - apply those_no; [rewrite <- E; [exact Pa|left; reflexivity]|apply IH; intros x X; apply E; right; exact X].
Qed.
Lemma those_in P all l : those P all l -> forall a, In a l <-> In a all /\ P a.
Proof. induction 1 as [|x all l Px H IH|x all l Px H IH]; intros a; cbn [In]; [tauto| |]; rewrite IH; split; intros X; intuition (subst; tauto). Qed.
Lemma those_nodup P all l : those P all l -> NoDup all -> NoDup l.
Proof. induction 1 as [|x all l Px H IH|x all l Px H IH]; intros N; [constructor| |]; inversion N; subst; [constructor; [rewrite (those_in _ _ _ H); tauto|auto]|auto]. Qed.
Lemma those_remove P all l w : NoDup all -> those P all l -> those (fun a => P a /\ a <> w) all (remove_first w l).
Proof.
  intros ND H. induction H as [|x all l Px H IH|x all l Px H IH]; [constructor| |]; inversion ND; subst.
  - cbn [remove_first]. destruct (Z.eqb_spec x w) as [->|E].
    + apply those_no; [tauto|]. eapply those_ext; [|exact H]. intros a I. split; [intros Pa; split; [exact Pa|intros ->; contradiction]|tauto].
    + apply those_yes; [tauto|]. apply IH. assumption.
  - apply those_no; [tauto|]. apply IH. assumption.
Qed.
Lemma nodup_l {A} (a b : list A) : NoDup (a ++ b) -> NoDup a.
Proof. induction a as [|x a IH]; intros H; [constructor|]. inversion H; subst. constructor; [intros X; apply H2, in_or_app; left; exact X|auto]. Qed.
Lemma listed_live h : NoDup (tracked h) -> those (live h) (tracked h) (listed h).
Proof.
  induction h as [|c h IH] using rev_ind; intros ND; [constructor|]. rewrite listed_snoc. rewrite tracked_app in *. destruct c as [w|w]; cbn [tracked tr_update] in *.
  - assert (NDh : NoDup (tracked h)) by (eapply nodup_l; exact ND). assert (Nw : ~ In w (tracked h)) by (apply NoDup_remove_2 in ND; rewrite app_nil_r in ND; exact ND). apply those_app.
    + eapply those_ext; [|exact (IH NDh)]. intros a I. rewrite live_track. split; [tauto|]. intros [->|L]; [contradiction|exact L].
    + apply those_yes; [apply live_track; left; reflexivity|constructor].
  - rewrite app_nil_r in *. rewrite untrack_is. eapply those_ext; [|apply those_remove; [exact ND|exact (IH ND)]]. intros a _. rewrite live_untrack. reflexivity.
Qed.
Lemma log_tracked progs s : treach progs s -> Permutation (tracked (t_log s) ++ flat_map (fun th => tracked (fst th)) (t_threads s)) (flat_map tracked progs).
Proof.
  induction 1 as [|s s' R IH ST].
  - cbn. clear. induction progs as [|p progs IH]; [constructor|]. cbn [map flat_map fst]. apply Permutation_app_head. exact IH.
  - rewrite <- IH. clear IH R. inversion ST; subst; cbn [t_log t_threads]; try reflexivity.
    + rewrite !flat_map_app, tracked_app. cbn [flat_map fst]. destruct c as [w|w]; cbn [tracked app].
      * rewrite <- app_assoc. apply Permutation_app_head. cbn [app]. apply Permutation_middle.
      * rewrite app_nil_r. reflexivity.
    + rewrite !flat_map_app. cbn [flat_map fst]. reflexivity.
Qed.
Lemma log_nodup progs s : treach progs s -> NoDup (flat_map tracked progs) -> NoDup (tracked (t_log s)).
Proof. intros R N. eapply nodup_l. eapply Permutation_NoDup; [symmetry; apply (log_tracked _ _ R)|exact N]. Qed.
Lemma workers_listed progs s : treach progs s -> t_workers s = listed (t_log s).
Proof.
  intros R. induction R as [|s s' R IH ST]; [reflexivity|]. inversion ST; subst; cbn [t_log t_workers] in *; try assumption. rewrite listed_snoc, IH. reflexivity.
Qed.
(** C73.  At every moment of every interleaving of goroutines whose calls track no worker twice,
    the listed workers are exactly those tracked and not untracked since, in the order of
    tracking. *)
Lemma pC73_listed : forall progs s,
  treach progs s -> NoDup (flat_map tracked progs) ->
  those (live (t_log s)) (tracked (t_log s)) (WorkerStates (t_workers s)).
Proof.
  intros progs s R ND. rewrite states_is, (workers_listed _ _ R). apply listed_live, (log_nodup _ _ R ND).
Qed.
(** C73.  The version is the number of calls that have finished, modulo 2^64. *)
Lemma pC73_version : forall progs s, treach progs s -> t_version s = calls_done s mod 2^64.
Proof.
  unfold calls_done. induction 1 as [|s s' R IH ST].
  - cbn. replace (filter snd (map (fun p => (p, false)) progs)) with (@nil (list call * bool)); [reflexivity|]. induction progs as [|p progs IH]; [reflexivity|exact IH].
  - inversion ST; subst; cbn [t_log t_threads t_version] in *; try assumption.
    + rewrite IH. rewrite !filter_app, !zlen_app. cbn [filter snd]. rewrite !zlen_cons. change (zlen (@nil call)) with 0. f_equal. lia.
    + rewrite filter_app in *. cbn [filter snd] in *. rewrite zlen_app in *. rewrite zlen_cons in IH. unfold u64. rewrite IH, Zplus_mod_idemp_l. f_equal. lia.
Qed.
(** C73.  The tools' workers track themselves when they start and untrack themselves when they
    return: when all have returned nothing is listed any more. *)
Lemma pC73_all_gone : forall ws s,
  NoDup ws -> treach (map (fun w => [Track w; Untrack w]) ws) s -> quiet s -> WorkerStates (t_workers s) = [].
Proof.
  intros ws s ND R Q. 
  assert (ND' : NoDup (flat_map tracked (map (fun w => [Track w; Untrack w]) ws))).
  { replace (flat_map tracked (map (fun w => [Track w; Untrack w]) ws)) with ws; [exact ND|]. clear. induction ws as [|w ws IH]; [reflexivity|]. cbn [map flat_map tracked app]. f_equal. exact IH. }
  pose proof (pC73_listed _ _ R ND') as T.
  destruct (WorkerStates (t_workers s)) as [|w l] eqn:E; [reflexivity|exfalso].
  assert (I : In w (w :: l)) by (left; reflexivity). rewrite (those_in _ _ _ T) in I. destruct I as [_ L].
  assert (G : forall w, live (t_log s) w -> exists th, In th (t_threads s) /\ In (Untrack w) (fst th)).
  { clear - R.
    assert (GI : (forall w, live (t_log s) w -> exists th, In th (t_threads s) /\ In (Untrack w) (fst th)) /\
                 (forall th, In th (t_threads s) -> exists w, fst th = [Track w; Untrack w] \/ fst th = [Untrack w] \/ fst th = [])).
    { induction R as [|s s' R IH ST].
      - split; [intros w (h1 & h2 & E & _); cbn in E; destruct h1; discriminate E|]. intros th I. cbn [tsys0 t_threads] in I. apply in_map_iff in I as (p & <- & I). apply in_map_iff in I as (x & <- & _). exists x. left. reflexivity.
      - destruct IH as [IH1 IH2]. inversion ST; subst; cbn [t_log t_threads] in *; try (split; assumption).
        + split.
          * intros x Lx. destruct c as [y|y].
            -- apply live_track in Lx as [->|Lx].
               ++ exists (cs, true). split; [apply in_elt|]. destruct (IH2 (Track y :: cs, false) (in_elt _ _ _)) as (z & [E|[E|E]]); cbn [fst] in E; [injection E as -> ->; left; reflexivity|discriminate E..].
               ++ destruct (IH1 x Lx) as (th & I & J). apply in_app_or in I as [I|[<-|I]].
                  ** exists th. split; [apply in_or_app; left; exact I|exact J].
                  ** destruct J as [J|J]; [discriminate J|]. exists (cs, true). split; [apply in_elt|exact J].
                  ** exists th. split; [apply in_or_app; right; right; exact I|exact J].
            -- apply live_untrack in Lx as [Lx Nx]. destruct (IH1 x Lx) as (th & I & J). apply in_app_or in I as [I|[<-|I]].
               ++ exists th. split; [apply in_or_app; left; exact I|exact J].
               ++ destruct J as [J|J]; [injection J as ->; contradiction|]. exists (cs, true). split; [apply in_elt|exact J].
               ++ exists th. split; [apply in_or_app; right; right; exact I|exact J].
          * intros th I. apply in_app_or in I as [I|[<-|I]].
            -- apply IH2. apply in_or_app; left; exact I.
            -- destruct (IH2 (c :: cs, false) (in_elt _ _ _)) as (z & [E|[E|E]]); cbn [fst] in *; [injection E as -> ->; exists z; tauto|injection E as -> ->; exists z; tauto|discriminate E].
            -- apply IH2. apply in_or_app; right; right; exact I.
        + split.
          * intros x Lx. destruct (IH1 x Lx) as (th & I & J). apply in_app_or in I as [I|[<-|I]].
            -- exists th. split; [apply in_or_app; left; exact I|exact J].
            -- exists (cs, false). split; [apply in_elt|exact J].
            -- exists th. split; [apply in_or_app; right; right; exact I|exact J].
          * intros th I. apply in_app_or in I as [I|[<-|I]].
            -- apply IH2. apply in_or_app; left; exact I.
            -- apply (IH2 (cs, true)). apply in_elt.
            -- apply IH2. apply in_or_app; right; right; exact I. }
    apply GI. }
  destruct (G w L) as (th & I & J). unfold quiet in Q. rewrite Forall_forall in Q. rewrite (Q th I) in J. destruct J.
Qed.

(** ** The display *)
Definition pairs (l : list widget) : list (Z * widget) := map (fun x => (wg_state x, x)) l.
Record dinv (d : display) : Prop :=
  { di_map : d_states d = pairs (d_box d);
    di_states : NoDup (map wg_state (d_box d));
    di_ids : NoDup (map wg_id (d_box d));
    di_made : Forall (fun x => wg_id x < d_made d) (d_box d) }.
Lemma wg_eqb_refl x : wg_eqb x x = true.
Proof. unfold wg_eqb. rewrite !Z.eqb_refl. reflexivity. Qed.
Lemma remove_old_nil old box : (forall x, In x box -> In x (map snd old)) -> remove_old box old = [].
Proof.
  revert box. unfold remove_old. induction old as [|p old IH]; intros box H; cbn [fold_left map] in *; [destruct box as [|x box]; [reflexivity|destruct (H x (or_introl eq_refl))]|].
  apply IH. intros x X. apply filter_In in X as [X E]. destruct (H x X) as [<-|I]; [rewrite wg_eqb_refl in E; discriminate E|exact I].
Qed.
Lemma lookup_pairs l w x : lookup w (pairs l) = Some x -> In x l /\ wg_state x = w.
Proof.
  unfold lookup, pairs. induction l as [|y l IH]; cbn [map find option_map]; [discriminate|]. cbn [fst]. destruct (Z.eqb_spec (wg_state y) w) as [E|E]; cbn [option_map snd].
  - intros X. injection X as <-. split; [left; reflexivity|exact E].
  - intros X. destruct (IH X) as [I J]. split; [right; exact I|exact J].
Qed.
Lemma lookup_in l x : NoDup (map wg_state l) -> In x l -> lookup (wg_state x) (pairs l) = Some x.
Proof.
  unfold lookup, pairs. induction l as [|y l IH]; cbn [map find option_map]; [intros _ []|]. intros N I. inversion N; subst. cbn [fst]. destruct (Z.eqb_spec (wg_state y) (wg_state x)) as [E|E]; cbn [option_map snd].
  - destruct I as [->|I]; [reflexivity|]. exfalso. apply H1. rewrite E. apply in_map. exact I.
  - destruct I as [->|I]; [congruence|]. apply IH; assumption.
Qed.
Lemma map_set_new l x : ~ In (wg_state x) (map wg_state l) -> map_set (pairs l) (wg_state x) x = pairs (l ++ [x]).
Proof.
  intros H. unfold map_set, pairs. rewrite map_app. cbn [map]. f_equal. induction l as [|y l IH]; [reflexivity|]. cbn [map filter fst]. destruct (Z.eqb_spec (wg_state y) (wg_state x)) as [E|E].
  - exfalso. apply H. left. exact E.
  - cbn [negb]. f_equal. apply IH. intros X. apply H. right. exact X.
Qed.
Lemma nodup_snoc {A} (l : list A) a : NoDup l -> ~ In a l -> NoDup (l ++ [a]).
Proof. intros N I. eapply Permutation_NoDup; [apply Permutation_cons_append|]. constructor; assumption. Qed.
Lemma nodup_inj {A B} (f : A -> B) l x y : NoDup (map f l) -> In x l -> In y l -> f x = f y -> x = y.
Proof.
  induction l as [|a l IH]; intros N I J E; [destruct I|]. inversion N; subst. destruct I as [->|I], J as [->|J]; [reflexivity| | |auto].
  - exfalso. apply H1. rewrite E. apply in_map. exact J.
  - exfalso. apply H1. rewrite <- E. apply in_map. exact I.
Qed.
Lemma rebuild_ok d ws : dinv d -> NoDup ws ->
  dinv (rebuild d ws) /\ shown (rebuild d ws) = ws /\ d_last (rebuild d ws) = d_last d /\
  (forall x, In x (d_box d) -> In (wg_state x) ws -> In x (d_box (rebuild d ws))).
Proof.
  intros [M S I MD] ND. unfold rebuild. set (old := d_box d) in *. rewrite M. rewrite remove_old_nil.
  2:{ intros x X. unfold pairs. rewrite map_map. cbn [snd]. rewrite map_id. exact X. }
  assert (G : forall todo bs made, NoDup (map wg_state bs ++ todo) -> d_made d <= made ->
    (forall x, In x bs -> In x old \/ d_made d <= wg_id x) -> Forall (fun x => wg_id x < made) bs -> NoDup (map wg_id bs) ->
    (forall x, In x bs -> forall y, In y old -> wg_state y = wg_state x -> x = y) ->
    exists bs' made', fold_left (add_worker (pairs old)) todo (pairs bs, bs, made) = (pairs bs', bs', made') /\
      map wg_state bs' = map wg_state bs ++ todo /\ NoDup (map wg_id bs') /\ Forall (fun x => wg_id x < made') bs' /\
      (forall x, In x bs' -> forall y, In y old -> wg_state y = wg_state x -> x = y)).
  { induction todo as [|w todo IH]; intros bs made NS MM OR FB NI KE.
    - exists bs, made. cbn [fold_left]. rewrite app_nil_r. auto.
    - cbn [fold_left add_worker].
      assert (Nw : ~ In w (map wg_state bs)) by (apply NoDup_remove_2 in NS; intros X; apply NS, in_or_app; left; exact X).
      assert (step : forall x made2, wg_state x = w -> made <= made2 -> (In x old \/ d_made d <= wg_id x) -> wg_id x < made2 -> ~ In (wg_id x) (map wg_id bs) -> (forall y, In y old -> wg_state y = wg_state x -> x = y) ->
        exists bs' made', fold_left (add_worker (pairs old)) todo (map_set (pairs bs) w x, bs ++ [x], made2) = (pairs bs', bs', made') /\
          map wg_state bs' = map wg_state bs ++ w :: todo /\ NoDup (map wg_id bs') /\ Forall (fun x => wg_id x < made') bs' /\
          (forall x, In x bs' -> forall y, In y old -> wg_state y = wg_state x -> x = y)).
      { intros x made2 <- L1 O L2 Ni K. rewrite map_set_new by exact Nw.
        destruct (IH (bs ++ [x]) made2) as (bs' & made' & E1 & E2 & E3).
        - rewrite map_app. cbn [map]. rewrite <- app_assoc. exact NS.
        - lia.
        - intros y Y. apply in_app_or in Y as [Y|[<-|[]]]; [apply OR; exact Y|exact O].
        - apply Forall_app. split; [eapply Forall_impl; [|exact FB]; cbn; intros; lia|constructor; [lia|constructor]].
        - rewrite map_app. apply nodup_snoc; assumption.
        - intros y Y. apply in_app_or in Y as [Y|[<-|[]]]; [apply KE; exact Y|exact K].
        - exists bs', made'. split; [exact E1|]. split; [rewrite E2, map_app, <- app_assoc; reflexivity|exact E3]. }
      destruct (lookup w (pairs old)) as [x|] eqn:L.
      + apply lookup_pairs in L as [Ix Sx]. apply step; [exact Sx|lia|left; exact Ix|rewrite Forall_forall in MD; specialize (MD x Ix); cbn in MD; lia| |].
        * intros X. apply in_map_iff in X as (y & Ey & Y). destruct (OR y Y) as [O|O].
          -- assert (y = x) by (apply (nodup_inj wg_id old y x I O Ix Ey)). subst y. apply Nw. rewrite <- Sx. apply in_map. exact Y.
          -- rewrite Forall_forall in MD. specialize (MD x Ix). cbn in MD. lia.
        * intros y Y Ey. eapply (nodup_inj wg_state); [exact S| exact Ix|exact Y|congruence].
      + apply step; [reflexivity|lia|right; cbn; lia|cbn; lia| |].
        * cbn [wg_id]. intros X. apply in_map_iff in X as (y & Ey & Y). rewrite Forall_forall in FB. specialize (FB y Y). cbn in FB. lia.
        * cbn [wg_state]. intros y Y Ey. subst w. rewrite (lookup_in _ _ S Y) in L. discriminate L. }
  destruct (G ws [] (d_made d)) as (bs' & made' & E1 & E2 & E3 & E4 & E5); [exact ND|lia|intros x []|constructor|constructor|intros x []|].
  change (pairs []) with (@nil (Z * widget)) in E1. rewrite E1. cbn [map app] in E2. split; [|split; [exact E2|split; [reflexivity|]]].
  - constructor; cbn [d_states d_box d_made]; [reflexivity|rewrite E2; exact ND|exact E3|exact E4].
  - cbn [d_box]. intros x X Y. rewrite <- E2 in Y. apply in_map_iff in Y as (y & Ey & Y). rewrite <- (E5 y Y x X (eq_sym Ey)). exact Y.
Qed.

Definition dtotal (progs : list (list call)) : Z := zlen (concat progs).
Lemma log_total progs s : treach progs s -> zlen (t_log s) + zlen (flat_map fst (t_threads s)) = dtotal progs.
Proof.
  unfold dtotal. induction 1 as [|s s' R IH ST].
  - cbn. rewrite flat_map_concat_map, map_map. cbn [fst]. rewrite map_id. reflexivity.
  - rewrite <- IH. clear IH R. inversion ST; subst; cbn [t_log t_threads]; try reflexivity; rewrite !flat_map_app; cbn [flat_map fst app]; rewrite !zlen_app; [|reflexivity]. rewrite !zlen_cons. change (zlen (@nil call)) with 0. rewrite zlen_app. lia.
Qed.
Lemma done_range s : 0 <= zlen (filter snd (t_threads s)) /\ calls_done s <= zlen (t_log s).
Proof. unfold calls_done. pose proof (zlen_nonneg (filter snd (t_threads s))). lia. Qed.
Lemma done_nonneg progs s : treach progs s -> 0 <= calls_done s.
Proof.
  unfold calls_done. induction 1 as [|s s' R IH ST].
  - cbn. replace (filter snd (map (fun p => (p, false)) progs)) with (@nil (list call * bool)); [reflexivity|]. induction progs as [|p progs IH]; [reflexivity|exact IH].
  - inversion ST; subst; cbn [t_log t_threads] in *; try assumption; rewrite ?filter_app, ?zlen_app in *; cbn [filter snd] in *; rewrite ?zlen_cons in *; change (zlen (@nil call)) with 0; lia.
Qed.
Lemma version_done progs s : treach progs s -> dtotal progs < 2^64 -> t_version s = calls_done s.
Proof.
  intros R T. rewrite (pC73_version _ _ R). apply Z.mod_small. pose proof (log_total _ _ R). pose proof (done_range s). pose proof (done_nonneg _ _ R). pose proof (zlen_nonneg (flat_map fst (t_threads s))). lia.
Qed.
Lemma done_mono s s' : tstep s s' -> calls_done s <= calls_done s'.
Proof. intros ST. unfold calls_done. inversion ST; subst; cbn [t_log t_threads]; try lia; rewrite ?filter_app, ?zlen_app in *; cbn [filter snd]; rewrite ?zlen_cons in *; change (zlen (@nil call)) with 0; lia. Qed.
Lemma fresh progs s : treach progs s -> NoDup (flat_map tracked progs) -> dtotal progs < 2^64 ->
  dinv (t_display s) /\ d_last (t_display s) <= calls_done s /\
  (t_reading s = false -> exists k, d_last (t_display s) <= Z.of_nat k <= zlen (t_log s) /\ shown (t_display s) = listed (firstn k (t_log s))).
Proof.
  intros R ND T. induction R as [|s s' R IH ST].
  - split; [constructor; constructor|]. split; [exact (done_nonneg _ _ (treach_0 progs))|]. intros _. exists 0%nat. split; [split; vm_compute; discriminate|reflexivity].
  - destruct IH as (D & L & K). pose proof (done_mono _ _ ST) as DM. pose proof (version_done _ _ R T) as V. pose proof (done_range s) as DR. pose proof (workers_listed _ _ R) as WL. pose proof (log_nodup _ _ R ND) as LN.
    unfold calls_done in *. inversion ST; subst; cbn [t_display t_reading t_log t_version t_workers t_threads] in *.
    + split; [exact D|]. split; [lia|]. intros E. destruct (K E) as (k & B & S). exists k. split; [rewrite zlen_app; pose proof (zlen_nonneg [c]); lia|]. rewrite S. rewrite firstn_app. replace (k - List.length log)%nat with 0%nat by (unfold zlen in B; lia). cbn [firstn]. rewrite app_nil_r. reflexivity.
    + split; [exact D|]. split; [lia|exact K].
    + split; [exact D|]. split; [lia|exact K].
    + split; [destruct D; constructor; assumption|]. split; [cbn [d_last]; lia|discriminate].
    + rewrite states_is, WL. destruct (rebuild_ok d (listed log)) as (D' & S' & L' & _); [exact D|eapply those_nodup; [apply listed_live; exact LN|exact LN]|].
      split; [exact D'|]. split; [rewrite L'; lia|]. intros _. exists (List.length log). rewrite L', S', firstn_all. split; [unfold zlen in *; lia|reflexivity].
Qed.
(** C74.  What is shown is at every moment the list after some beginning of the history of calls,
    and this beginning includes at least all calls that had finished when the last refresh
    looked at the version (which is their number).  Fewer than 2^64 calls are made. *)
Lemma pC74_fresh : forall progs s,
  treach progs s -> NoDup (flat_map tracked progs) -> zlen (concat progs) < 2^64 -> t_reading s = false ->
  exists before after, t_log s = before ++ after /\ d_last (t_display s) <= zlen before /\
    those (live before) (tracked before) (shown (t_display s)).
Proof.
  intros progs s R ND T E. destruct (fresh _ _ R ND T) as (_ & _ & K). destruct (K E) as (k & B & S). exists (firstn k (t_log s)), (skipn k (t_log s)). split; [symmetry; apply firstn_skipn|]. split.
  - unfold zlen in *. rewrite firstn_length. lia.
  - rewrite S. apply listed_live. apply (nodup_l _ (tracked (skipn k (t_log s)))). rewrite <- tracked_app, firstn_skipn. apply (log_nodup _ _ R ND).
Qed.
Lemma refresh_reach progs s : treach progs s -> t_reading s = false -> treach progs (refresh s).
Proof.
  intros R E. unfold refresh. destruct (Z.eqb_spec (d_last (t_display s)) (t_version s)) as [Q|Q]; [exact R|].
  destruct s as [v ws ths d b log]. cbn [t_version t_workers t_threads t_display t_reading t_log] in *. subst b. eapply treach_S; [eapply treach_S; [exact R|apply t_new; exact Q]|]. apply t_rebuild.
Qed.
(** C74.  When all calls have finished, one refresh shows exactly the listed workers, whatever
    happened before. *)
Lemma pC74_current : forall progs s,
  treach progs s -> NoDup (flat_map tracked progs) -> zlen (concat progs) < 2^64 ->
  quiet s -> t_reading s = false ->
  treach progs (refresh s) /\ shown (t_display (refresh s)) = WorkerStates (t_workers s).
Proof.
  intros progs s R ND T Q E. split; [apply refresh_reach; assumption|]. destruct (fresh _ _ R ND T) as (D & L & K). rewrite states_is. unfold refresh.
  pose proof (version_done _ _ R T) as V. pose proof (workers_listed _ _ R) as WL. pose proof (log_nodup _ _ R ND) as LN.
  destruct (Z.eqb_spec (d_last (t_display s)) (t_version s)) as [H|H].
  - destruct (K E) as (k & B & S). rewrite S, WL. f_equal.
    assert (F : filter snd (t_threads s) = []). { clear - Q. unfold quiet in Q. induction Q as [|th l -> Q IH]; [reflexivity|exact IH]. }
    unfold calls_done in V. rewrite F in V. change (zlen (@nil (list call * bool))) with 0 in V. apply firstn_all2. unfold zlen in *. lia.
  - cbn [t_display]. rewrite states_is. eapply rebuild_ok; [destruct D; constructor; assumption|]. rewrite WL. eapply those_nodup; [apply listed_live; exact LN|exact LN].
Qed.
(** C74.  A refresh keeps the widget of every worker that stays listed. *)
Lemma pC74_keeps : forall progs s x,
  treach progs s -> NoDup (flat_map tracked progs) -> zlen (concat progs) < 2^64 -> t_reading s = false ->
  In x (d_box (t_display s)) -> In (wg_state x) (t_workers s) -> In x (d_box (t_display (refresh s))).
Proof.
  intros progs s x R ND T E I J. destruct (fresh _ _ R ND T) as (D & _). pose proof (workers_listed _ _ R) as WL. pose proof (log_nodup _ _ R ND) as LN. unfold refresh. destruct (_ =? _); [exact I|]. cbn [t_display]. rewrite states_is.
  eapply rebuild_ok; [destruct D; constructor; assumption| |exact I|exact J]. rewrite WL. eapply those_nodup; [apply listed_live; exact LN|exact LN].
Qed.
(** An example: worker 1 was tracked and shown, then worker 2 was tracked. *)
Lemma pC74_ex : exists s, treach [[Track 1; Untrack 1]; [Track 2]] s /\ NoDup (flat_map tracked [[Track 1; Untrack 1]; [Track 2]]) /\ t_reading s = false /\
  t_workers s = [1; 2] /\ shown (t_display s) = [1] /\ d_last (t_display s) = 1 /\ shown (t_display (refresh s)) = [1; 2].
Proof.
  eexists. split.
  - eapply treach_S; [eapply treach_S; [eapply treach_S; [eapply treach_S; [eapply treach_S; [eapply treach_S; [apply treach_0|]|]|]|]|]|]; unfold tsys0; cbn [map].
    + apply (t_update 0 [] [] (Track 1) [Untrack 1] [([Track 2], false)]).
    + apply (t_bump 0 [1] [] [Untrack 1] [([Track 2], false)]).
    + apply t_new. discriminate.
    + apply t_rebuild.
    + apply (t_update _ _ [([Untrack 1], false)] (Track 2) [] []).
    + apply (t_bump _ _ [([Untrack 1], false)] [] []).
  - split; [repeat constructor; cbn; intuition discriminate|]. repeat split.
Qed.
Lemma pC73_ex : exists s, treach [[Track 1; Untrack 1]; [Track 2; Untrack 2]] s /\ t_log s = [Track 2; Track 1; Untrack 2] /\ WorkerStates (t_workers s) = [1] /\ t_version s = 1.
Proof.
  eexists. split.
  - eapply treach_S; [eapply treach_S; [eapply treach_S; [eapply treach_S; [apply treach_0|]|]|]|]; unfold tsys0; cbn [map].
    + apply (t_update 0 [] [([Track 1; Untrack 1], false)] (Track 2) [Untrack 2] []).
    + apply (t_update 0 [2] [] (Track 1) [Untrack 1] [([Untrack 2], true)]).
    + apply (t_bump 0 [2; 1] [([Untrack 1], true)] [Untrack 2] []).
    + apply (t_update _ _ [([Untrack 1], true)] (Untrack 2) [] []).
  - repeat split.
Qed.

(** ** C75 *)
Lemma show_escape st s m : show st (EscapePercent s ++ m) = map (fun c => (c, st)) s ++ show st m.
Proof.
  induction s as [|c s IH]; [reflexivity|]. unfold EscapePercent in *. cbn [flat_map map]. rewrite <- app_assoc. destruct (Z.eqb_spec c 37) as [->|E].
  - cbn [app show]. rewrite Z.eqb_refl, IH. reflexivity.
  - cbn [app show]. destruct (Z.eqb_spec c 37) as [X|_]; [contradiction|]. rewrite IH. reflexivity.
Qed.
Lemma show_plain st s : ~ In 37 s -> show st s = map (fun c => (c, st)) s.
Proof. induction s as [|c s IH]; intros H; [reflexivity|]. cbn [show map]. destruct (Z.eqb_spec c 37) as [->|E]; [exfalso; apply H; left; reflexivity|]. rewrite IH; [reflexivity|]. intros X. apply H. right. exact X. Qed.
Lemma zlen_padded s w : zlen (padded s w) = Z.max (zlen s) w.
Proof. unfold padded. rewrite zlen_app. unfold zlen at 2. rewrite repeat_length. pose proof (zlen_nonneg s). lia. Qed.
Lemma padded_if s w : (if 0 <? w - zlen s then s ++ repeat 32 (Z.to_nat (w - zlen s)) else s) = padded s w.
Proof. unfold padded. destruct (Z.ltb_spec 0 (w - zlen s)); [reflexivity|]. replace (Z.to_nat (w - zlen s)) with 0%nat by lia. symmetry. apply app_nil_r. Qed.
(** C75, partial.  For every text, width and number of highlighted characters: if the highlighted
    part is shorter than the line, the padded text is shown literally with this part in
    standout style.  If the whole line would be highlighted (or the width is 0, or the
    progress is not a number), nothing is, and the text must not contain percent signs.
    Missing: the unescaped cases, see C75_refuted.  The characters are single bytes. *)
Lemma pC75_markup_partial : forall s w pre,
  (w <> 0 -> 0 <= pre < Z.max (zlen s) w ->
    exists m, MarkupAsProgress s w pre = Ok m /\
      show N_style m = map (fun c => (c, S_style)) (firstn (Z.to_nat pre) (padded s w)) ++
                       map (fun c => (c, N_style)) (skipn (Z.to_nat pre) (padded s w))) /\
  (w = 0 \/ pre < 0 \/ Z.max (zlen s) w <= pre -> ~ In 37 s ->
    exists m, MarkupAsProgress s w pre = Ok m /\
      show N_style m = map (fun c => (c, N_style)) (if w =? 0 then s else padded s w)).
Proof.
  intros s w pre. unfold MarkupAsProgress. rewrite padded_if, zlen_padded. split.
  - intros W P. destruct (Z.eqb_spec w 0) as [E|_]; [contradiction|]. destruct (Z.ltb_spec pre 0); [lia|]. destruct (Z.leb_spec (Z.max (zlen s) w) pre); [lia|].
    eexists. split; [reflexivity|]. set (e1 := firstn _ _). set (e2 := skipn _ _). change (show N_style ([37; 83] ++ EscapePercent e1 ++ [37; 78] ++ EscapePercent e2)) with (show S_style (EscapePercent e1 ++ [37; 78] ++ EscapePercent e2)).
    rewrite show_escape. f_equal. change (show S_style ([37; 78] ++ EscapePercent e2)) with (show N_style (EscapePercent e2)). rewrite <- (app_nil_r (EscapePercent e2)), show_escape. apply app_nil_r.
  - intros C NP. destruct (Z.eqb_spec w 0) as [E|E]; [eexists; split; [reflexivity|]; apply show_plain; exact NP|].
    assert (NP' : ~ In 37 (padded s w)). { unfold padded. intros X. apply in_app_or in X as [X|X]; [contradiction|]. apply repeat_spec in X. discriminate X. }
    destruct (Z.ltb_spec pre 0); [eexists; split; [reflexivity|]; apply show_plain; exact NP'|]. destruct (Z.leb_spec (Z.max (zlen s) w) pre); [eexists; split; [reflexivity|]; apply show_plain; exact NP'|]. lia.
Qed.
(** C75 is false of the code: "at 100%" on a line of 8 characters at full progress loses its
    percent sign and a space. *)
Lemma pC75_refuted : exists s w m,
  MarkupAsProgress s w w = Ok m /\ s = bytes_of "at 100%" /\ w = 8 /\ map fst (show N_style m) = bytes_of "at 100" /\ map fst (show N_style m) <> padded s w.
Proof. exists (bytes_of "at 100%"), 8. eexists. split; [reflexivity|]. split; [reflexivity|]. split; [reflexivity|]. split; [reflexivity|]. discriminate. Qed.
Lemma pC75_ex : exists m, MarkupAsProgress (bytes_of "at 50%") 8 4 = Ok m /\ m = bytes_of "%Sat 5%N0%%  ".
Proof. eexists. split; reflexivity. Qed.
