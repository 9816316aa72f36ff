(** * SxThms: C106, the status lines of the writers with one output file. *)
From Verif Require Import Base PbModel TModel HLModel FrModel ZlModel IoModel NiModel WiModel RiModel RwModel TfModel TrModel TmModel PgModel SlModel SlSpec SwModel SwSpec.
From Verif Require Import BaseLemmas SlProofs SlThms SrProofs SrThms SfThms.

(** ** the loop of the writers as a worker that serves *)
Section loop.
Context {M : Type} (skip : M -> bool) (skipped : list deed) (idx : M -> Z) (put : M -> tio ofile unit).
Context (mute : forall m s, fst (put m s) = []).
Definition wr_round (x : M * res unit) : told unit :=
  if skip (fst x) then tell skipped
  else _ <-- tell (SetStateWriting (idx (fst x)) ++ [Doing (Writing (idx (fst x)))]) ;; _ <-- silent (snd x) ;; tell (SetCurrentState wReading).
Lemma serve_ok : forall X Y (g : X -> told Y) x l d y, g x = (d, Ok y) ->
  fst (serve g (x :: l)) = Doing Waiting :: d ++ fst (serve g l) /\
  snd (serve g (x :: l)) = match snd (serve g l) with Ok ys => Ok (y :: ys) | Panic p => Panic p | Diverge => Diverge end.
Proof.
  intros X Y g x l d y E. cbn [serve]. unfold tbind at 1 3. cbn [tell fst snd]. unfold tbind at 1 3. rewrite E. cbn [fst snd].
  destruct (serve g l) as [d' [ys|p|]]; cbn; rewrite ?app_nil_r; split; reflexivity.
Qed.
Lemma serve_bad : forall X Y (g : X -> told Y) x l d (r : res Y), g x = (d, r) -> (forall y, r <> Ok y) ->
  fst (serve g (x :: l)) = Doing Waiting :: d /\ (forall ys, snd (serve g (x :: l)) <> Ok ys).
Proof.
  intros X Y g x l d r E N. cbn [serve]. unfold tbind at 1 3. cbn [tell fst snd]. unfold tbind at 1 2. rewrite E. destruct r as [y|p|]; [exfalso; exact (N y eq_refl)| |]; cbn; split; (reflexivity || discriminate).
Qed.
Lemma loop_ok : forall m r s d s1, (if skip m then @say ofile skipped else _ <== say (SetStateWriting (idx m) ++ [Doing (Writing (idx m))]) ;; _ <== put m ;; say (SetCurrentState wReading)) s = (d, (s1, Ok tt)) ->
  w_loop skip skipped idx put (m :: r) s = (Doing Waiting :: d ++ fst (w_loop skip skipped idx put r s1), snd (w_loop skip skipped idx put r s1)).
Proof. intros m r s d s1 E. cbn [w_loop]. unfold tio_bind at 1. cbn [say fst snd]. unfold tio_bind at 1 4. rewrite E. reflexivity. Qed.
Lemma loop_bad : forall m r s d s1 x, (if skip m then @say ofile skipped else _ <== say (SetStateWriting (idx m) ++ [Doing (Writing (idx m))]) ;; _ <== put m ;; say (SetCurrentState wReading)) s = (d, (s1, x)) ->
  x <> Ok tt -> w_loop skip skipped idx put (m :: r) s = (Doing Waiting :: d, (s1, x)).
Proof.
  intros m r s d s1 x E N. cbn [w_loop]. unfold tio_bind at 1. cbn [say fst snd]. unfold tio_bind at 1 4. rewrite E. destruct x as [[]|p|]; [contradiction|reflexivity|reflexivity].
Qed.
Lemma loop_told : forall msgs s, exists rs, List.length rs = List.length msgs /\
  fst (w_loop skip skipped idx put msgs s) = fst (serve wr_round (combine msgs rs)) /\
  match snd (snd (w_loop skip skipped idx put msgs s)) with Ok _ => exists bs, snd (serve wr_round (combine msgs rs)) = Ok bs | _ => forall bs, snd (serve wr_round (combine msgs rs)) <> Ok bs end.
Proof.
  induction msgs as [|m r IH]; intros s.
  - exists []. cbn. split; [reflexivity|]. split; [reflexivity|]. eexists; reflexivity.
  - assert (K : exists x d s1, wr_round (m, x) = (d, x) /\
      (if skip m then @say ofile skipped else _ <== say (SetStateWriting (idx m) ++ [Doing (Writing (idx m))]) ;; _ <== put m ;; say (SetCurrentState wReading)) s = (d, (s1, x))).
    { unfold wr_round. cbn [fst snd]. destruct (skip m) eqn:S.
      - exists (Ok tt), skipped, s. split; reflexivity.
      - destruct (put m s) as [d0 [s1 x]] eqn:P. pose proof (mute m s) as Mu. rewrite P in Mu. cbn [fst] in Mu. subst d0. exists x.
        destruct x as [[]|p|]; do 2 eexists; (split; [cbn; reflexivity|]); unfold tio_bind; cbn [say fst snd]; rewrite P; reflexivity. }
    destruct K as (x & d & s1 & W & L). destruct x as [[]|p|].
    + destruct (IH s1) as (rs & Ln & E & R). exists (Ok tt :: rs). split; [cbn; rewrite Ln; reflexivity|]. rewrite (loop_ok m r s d s1 L). cbn [fst snd combine].
      destruct (serve_ok _ _ wr_round (m, Ok tt) (combine r rs) d tt W) as [F1 F2]. rewrite F1, F2, E. split; [reflexivity|].
      destruct (snd (snd (w_loop skip skipped idx put r s1))).
      * destruct R as [bs ->]. eexists; reflexivity.
      * intros bs. destruct (snd (serve wr_round (combine r rs))) as [ys| |]; try discriminate. exfalso. exact (R ys eq_refl).
      * intros bs. destruct (snd (serve wr_round (combine r rs))) as [ys| |]; try discriminate. exfalso. exact (R ys eq_refl).
    + exists (Panic p :: map (fun _ => Ok tt) r). split; [cbn; rewrite map_length; reflexivity|]. rewrite (loop_bad m r s d s1 _ L ltac:(discriminate)). cbn [fst snd combine].
      destruct (serve_bad _ _ wr_round (m, Panic p) (combine r (map (fun _ => Ok tt) r)) d _ W ltac:(discriminate)) as [F1 F2]. rewrite F1. split; [reflexivity|exact F2].
    + exists (Diverge :: map (fun _ => Ok tt) r). split; [cbn; rewrite map_length; reflexivity|]. rewrite (loop_bad m r s d s1 _ L ltac:(discriminate)). cbn [fst snd combine].
      destruct (serve_bad _ _ wr_round (m, Diverge) (combine r (map (fun _ => Ok tt) r)) d _ W ltac:(discriminate)) as [F1 F2]. rewrite F1. split; [reflexivity|exact F2].
Qed.
End loop.

(** ** a word and a number *)
Definition w_ph (t : string) (s : Z) : string := if s =? 0 then writer_waiting else if s =? 1 then t else ""%string.
Definition w_phase (t : string) (s : status) : string := w_ph t (s CState).
Ltac w_tells H K := apply keeps_tell; intros begun s last rest H K; unfold SetStateWriting, SetCurrentState in *;
  cbn [app tracks told_of first_some next_last number f_word writer_word]; unfold at_phase, at_block, idle_phase, idle_block in *.
Section lines.
Context {M : Type} (skip : M -> bool) (idx : M -> Z) (t : string).
Let round : M * res unit -> told unit := wr_round skip [] idx.
Lemma wr_wait : keeps (f_word (writer_word t)) (w_phase t) on_always idle_phase (tell [Doing Waiting]) (fun _ => at_phase 0 writer_waiting).
Proof.
  w_tells H K. unfold w_phase. rewrite H. split_all; [intros _; right; reflexivity| |apply K; split; [exact H|reflexivity]].
  intros w v E F. injection E as <-. injection F as <-. reflexivity.
Qed.
Lemma wr_phases : forall x, keeps (f_word (writer_word t)) (w_phase t) on_always (at_phase 0 writer_waiting) (round x) (fun _ => idle_phase).
Proof.
  intros x. unfold round, wr_round. destruct (skip (fst x)).
  - w_tells H K. apply K. apply H.
  - refine (keeps_bind _ _ _ _ _ _ (fun _ => at_phase 1 t) _ _ _ _ _).
    { w_tells H K. unfold w_phase. cbn [perform cell_eqb]. rewrite (proj1 H). split_all; try (intros w v E F; discriminate E).
      - intros _. left. exact (proj2 H).
      - intros _. left. exact (proj2 H).
      - intros _. right. reflexivity.
      - intros w v E F. injection E as <-. injection F as <-. reflexivity.
      - apply K. cbn [perform cell_eqb]. split; reflexivity. }
    intros _ _. refine (keeps_bind _ _ _ _ _ _ (fun _ => at_phase 1 t) _ _ _ _ _).
    { apply keeps_silent; [intros ? ? ? [H L] _; unfold w_phase; rewrite H, L; reflexivity|auto]. }
    intros _ _. w_tells H K. unfold w_phase. rewrite (proj1 H). split_all; try (intros w v E F; discriminate E).
    + intros _. left. exact (proj2 H).
    + apply K. reflexivity.
Qed.
Lemma wr_numbers : forall x, keeps number v_block on_state idle_block (round x) (fun _ => idle_block).
Proof.
  intros x. unfold round, wr_round. destruct (skip (fst x)).
  - w_tells H K. apply K. exact H.
  - refine (keeps_bind _ _ _ _ _ _ (fun _ => at_block 1 (idx (fst x))) _ _ _ _ _).
    { w_tells H K. split_all; try (num_leaf H). apply K. cbn [perform cell_eqb]. split; [reflexivity|split; reflexivity]. }
    intros _ _. refine (keeps_bind _ _ _ _ _ _ (fun _ => at_block 1 (idx (fst x))) _ _ _ _ _).
    { apply keeps_silent; [intros ? ? ? (_ & H & L) _; unfold v_block; rewrite H, L; reflexivity|auto]. }
    intros _ _. w_tells H K. split_all; try (num_leaf H). apply K. cbn [perform cell_eqb]. split; [reflexivity|intros _; destruct H as (_ & -> & H); exact H].
Qed.
End lines.
Lemma wr_serve_phases : forall M skip idx t (l : list (M * res unit)),
  keeps (f_word (writer_word t)) (w_phase t) on_always idle_phase (serve (wr_round skip [] idx) l) (fun _ => at_phase 0 writer_waiting).
Proof. intros M skip idx t l. apply keeps_serve; [apply wr_wait|]. intros x _. apply wr_phases. Qed.
Lemma wr_serve_numbers : forall M skip idx (l : list (M * res unit)),
  keeps number v_block on_state idle_block (serve (wr_round skip [] idx) l) (fun _ => idle_block).
Proof. intros M skip idx l. apply keeps_serve; [apply wait_number|]. intros x _. apply wr_numbers. Qed.
Lemma writer_settled : forall t, settled (w_phase t) on_always (at_phase 0 writer_waiting).
Proof. intros t b s l [H ->] _. unfold w_phase. rewrite H. reflexivity. Qed.

(** ** whole writers *)
Definition idle_all (t : string) (ds : list deed) : Prop :=
  tracks (f_word (writer_word t)) (w_phase t) on_always false status0 None ds /\ tracks number v_block on_state false status0 None ds.
(** [a] are the first deeds of a run, after which the record is as at the start *)
Lemma loop_idle : forall M skip idx put t (msgs : list M) s, (forall m s, fst (put m s) = []) -> idle_all t (fst (w_loop skip [] idx put msgs s)).
Proof.
  intros M skip idx put t msgs s Mu. destruct (loop_told skip [] idx put Mu msgs s) as (rs & L & E & _). rewrite E. split.
  - apply (keeps_tracks _ _ _ _ _ _ _ (wr_serve_phases M skip idx t (combine msgs rs))); [reflexivity|apply writer_settled].
  - apply (keeps_tracks _ _ _ _ _ _ _ (wr_serve_numbers M skip idx (combine msgs rs))); [split; [reflexivity|discriminate]|apply idle_settled].
Qed.
Lemma loop_head : forall M skip skipped idx put (msgs : list M) s, exists r, fst (w_loop skip skipped idx put msgs s) = Doing Waiting :: r.
Proof.
  intros M skip skipped idx put msgs s. destruct msgs as [|m r]; cbn [w_loop]; unfold tio_bind at 1; cbn [say fst snd app]; eexists; reflexivity.
Qed.
Lemma idle_store : forall t r, idle_all t (Doing Waiting :: r) -> idle_all t (Store CState 0 :: Doing Waiting :: r).
Proof.
  intros t r [TP TN]. split.
  - cbn [tracks told_of first_some f_word] in *. split; [intros _; right; reflexivity|]. split; [discriminate|]. split; [intros _; right; reflexivity|].
    split; [intros w v X; injection X as <-; intros X; injection X as <-; reflexivity|].
    destruct TP as (_ & _ & T). apply (tracks_ext _ _ _ _ r _ (perform status0 (Doing Waiting))); [|intros c; cbn; destruct c; reflexivity|exact T].
    intros a b E. unfold w_phase, on_always. rewrite (E CState). split; reflexivity.
  - change (tracks number v_block on_state false status0 None (Doing Waiting :: r)) in TN. set (l := Doing Waiting :: r) in *. cbn [tracks]. split; [intros X; discriminate X|]. split; [discriminate|].
    apply (tracks_ext _ _ _ _ _ _ status0); [|intros c; cbn; destruct c; reflexivity|exact TN].
    intros a b E. unfold v_block, on_state. rewrite (E CState), (E CBlock). split; reflexivity.
Qed.
Lemma idle_writer : forall t o (body : tio ofile unit), (forall s, exists r, fst (body s) = Doing Waiting :: r) -> (forall s, idle_all t (fst (body s))) ->
  let ds := fst ((_ <== act (of_call o) ;; _ <== say (SetCurrentState wReading) ;; _ <== body ;; act (of_call o)) of0) in ds <> [] -> idle_all t ds.
Proof.
  intros t o body Hd Hi ds NE. subst ds. unfold tio_bind at 1 in NE. unfold tio_bind at 1. cbn [act of_call of0 of_k of_file of_hdr] in *. destruct (os_fail o 0); [cbn in NE; contradiction|].
  clear NE. cbn [fst snd app]. unfold tio_bind at 1. cbn [say fst snd SetCurrentState app]. unfold tio_bind.
  set (s := mkOfile 1 (mkFile [] 0) zero4). destruct (Hd s) as [r R]. specialize (Hi s). destruct (body s) as [d [s1 x]]. cbn [fst] in R, Hi. subst d.
  assert (J := idle_store t r Hi). destruct x as [u|p|]; cbn [fst act snd]; [|exact J|exact J].
  rewrite app_nil_r. exact J.
Qed.
Lemma dc_idle : forall t o msgs, let ds := fst (dc_output o msgs of0) in ds <> [] -> idle_all t ds.
Proof.
  intros t o msgs. apply idle_writer; intros s; [apply loop_head|apply loop_idle]. intros m s0. reflexivity.
Qed.
Lemma ri_idle : forall t o msgs, let ds := fst (ri_output o msgs of0) in ds <> [] -> idle_all t ds.
Proof.
  intros t o msgs. apply idle_writer; intros s; [apply loop_head|apply loop_idle]. intros m s0. destruct (rm_Words m); reflexivity.
Qed.
(** the passes of rewritenodes *)
Lemma frame_mute : forall o b s, fst (put_frame o b s) = [].
Proof.
  intros o b s. unfold put_frame. cbv zeta. unfold tio_bind at 1.
  destruct (be32_put _ _) as [out|p|]; [|reflexivity|reflexivity]. cbn [fst app]. unfold tio_bind. cbn [act fst snd]. destruct (of_write o out _) as [s1 [u|p|]]; reflexivity.
Qed.
Lemma rw_output_deeds : forall o msgs, exists rs, fst (rw_output o msgs of0) = [] /\ snd (snd (rw_output o msgs of0)) <> Ok tt \/
  fst (rw_output o msgs of0) = fst (serve (wr_round (fun _ => false) [] blk_Index) (combine msgs rs)) /\
  (snd (snd (rw_output o msgs of0)) = Ok tt -> exists bs, snd (serve (wr_round (fun _ => false) [] blk_Index) (combine msgs rs)) = Ok bs).
Proof.
  intros o msgs. unfold rw_output. unfold tio_bind at 1 3 5 7. cbn [act of_call of0 of_k of_file of_hdr]. destruct (os_fail o 0).
  - exists []. left. cbn. split; [reflexivity|discriminate].
  - cbn [fst snd app]. destruct (loop_told (fun _ => false) [] blk_Index (put_frame o) (frame_mute o) msgs (mkOfile 1 (mkFile [] 0) zero4)) as (rs & L & E & R).
    exists rs. right. unfold tio_bind. destruct (w_loop _ _ _ _ msgs _) as [d [s1 x]]. cbn [fst snd] in *. destruct x as [u|p|]; cbn [fst snd act].
    + rewrite app_nil_r. split; [exact E|]. intros _. exact R.
    + split; [exact E|discriminate].
    + split; [exact E|discriminate].
Qed.
Lemma rw_pass_tracks : forall B (f : work -> option B) view on (P Q : pre),
  (forall l, keeps f view on P (serve (wr_round (fun _ => false) [] blk_Index) l) (fun _ => Q)) -> (forall b s l, Q b s l -> P b s l) -> settled view on Q ->
  forall passes begun s last, P begun s last -> (Q begun s last \/ rw_outputs passes <> []) -> tracks f view on begun s last (rw_outputs passes).
Proof.
  intros B f view on P Q K QP St. induction passes as [|[o msgs] r IH]; intros begun s last H N; cbn [rw_outputs] in *.
  - destruct N as [N|N]; [|contradiction]. cbn [tracks]. split; [|exact I]. intros X. left. exact (St _ _ _ N X).
  - destruct (rw_output_deeds o msgs) as (rs & D). destruct (rw_output o msgs of0) as [d [s1 x]]. cbn [fst snd] in *.
    destruct D as [[D X]|[D X]].
    + assert (rw : match x with Ok _ => d ++ rw_outputs r | _ => d end = []) by (destruct x as [[]|p|]; [contradiction|exact D|exact D]).
      rewrite rw in *. destruct N as [N|N]; [|contradiction]. cbn [tracks]. split; [|exact I]. intros Y. left. exact (St _ _ _ N Y).
    + assert (G : forall rest, (forall b' s' l', Q b' s' l' -> tracks f view on b' s' l' rest) \/ rest = [] -> (snd (serve (wr_round (fun _ => false) [] blk_Index) (combine msgs rs)) <> Ok (map (fun _ => tt) msgs) -> rest = [] \/ exists bs, snd (serve (wr_round (fun _ => false) [] blk_Index) (combine msgs rs)) = Ok bs) -> tracks f view on begun s last (d ++ rest)).
      { intros rest Y Z. rewrite D. apply (K (combine msgs rs) begun s last rest H). destruct (snd (serve _ _)) as [a|p|].
        - intros b' s' l' q. destruct Y as [Y| ->]; [exact (Y _ _ _ q)|]. cbn [tracks]. split; [|exact I]. intros W. left. exact (St _ _ _ q W).
        - destruct (Z ltac:(discriminate)) as [-> |[bs W]]; [reflexivity|discriminate W].
        - destruct (Z ltac:(discriminate)) as [-> |[bs W]]; [reflexivity|discriminate W]. }
      destruct x as [[]|p|].
      * apply G; [left; intros b' s' l' q; apply IH; [apply QP, q|left; exact q]|]. intros _. right. apply X. reflexivity.
      * rewrite <- (app_nil_r d). apply G; [right; reflexivity|intros _; left; reflexivity].
      * rewrite <- (app_nil_r d). apply G; [right; reflexivity|intros _; left; reflexivity].
Qed.
Lemma rw_idle : forall t passes, let ds := rw_outputs passes in ds <> [] -> idle_all t ds.
Proof.
  intros t passes ds N. subst ds. split.
  - apply (rw_pass_tracks _ _ _ _ idle_phase (at_phase 0 writer_waiting)); [intros l; apply wr_serve_phases|intros b s l [H _]; exact H|apply writer_settled|reflexivity|right; exact N].
  - apply (rw_pass_tracks _ _ _ _ idle_block idle_block); [intros l; apply wr_serve_numbers|auto|apply idle_settled|split; [reflexivity|discriminate]|right; exact N].
Qed.
Lemma idle_lines : forall t ds widget k, t <> ""%string -> t <> writer_waiting -> widget = Load CState k ->
  (forall s, (s = 0 -> k s = Show (Text (bytes_of writer_waiting))) /\ (s = 1 -> k s = Load CBlock (fun b => Show (Text (bytes_of t ++ d_ b))))) ->
  idle_all t ds -> right_lines ds widget t.
Proof.
  intros t ds widget k T0 T1 -> K [TP TN]. unfold right_lines, writer_said. apply (simple_lines_by writer_waiting ds (writer_word t) (w_ph t) k); [exact TP|exact TN| | |].
  - intros s. destruct (K s) as [K0 K1]. unfold w_ph. destruct (Z.eqb_spec s 0) as [E0|N0]; [split; [tauto|]; split; [exact K0|contradiction]|].
    destruct (Z.eqb_spec s 1) as [E1|N1].
    + split; [split; [intros X; contradiction|contradiction]|]. split; [contradiction|]. intros _ _. exact (K1 E1).
    + split; [split; [discriminate|contradiction]|]. split; [contradiction|]. intros _ X. contradiction.
  - intros w. destruct w; cbn; (discriminate || exact T0).
  - intros w H. destruct w; cbn in *; try (exfalso; apply H; reflexivity). discriminate.
Qed.
(** C106.  The lines about the writer of the decompressor, of the first step of the relation index tool and of rewritenodes (with all its passes), for all
    messages and everything the operating system answers, once the writer has begun (the output file could be created). *)
Lemma pC106_lines : forall ds, ds <> [] ->
  (forall o msgs, ds = fst (dc_output o msgs of0) -> right_lines ds dc_writer_widget "Writer: writing block ") /\
  (forall o msgs, ds = fst (ri_output o msgs of0) -> right_lines ds ri_writer_widget "Writer: writing index block ") /\
  (forall passes, ds = rw_outputs passes -> right_lines ds dc_writer_widget "Writer: writing block ").
Proof.
  intros ds NE. assert (D : idle_all "Writer: writing block " ds -> right_lines ds dc_writer_widget "Writer: writing block ").
  { apply (idle_lines "Writer: writing block " ds dc_writer_widget _ ltac:(discriminate) ltac:(discriminate) eq_refl). intros s. split; intros ->; reflexivity. }
  split; [|split].
  - intros o msgs ->. apply D, dc_idle, NE.
  - intros o msgs ->. apply (idle_lines "Writer: writing index block " _ ri_writer_widget _ ltac:(discriminate) ltac:(discriminate) eq_refl); [intros s; split; intros ->; reflexivity|]. apply ri_idle, NE.
  - intros passes ->. apply D, rw_idle, NE.
Qed.

(** ** the tag filter: the record, and how often the writer has begun to wait *)
Definition waits1 (d : deed) : nat := match d with Doing Waiting => 1 | _ => 0 end.
Section always.
Context (I : status -> nat -> Prop) (D : status -> nat -> work -> Prop).
Definition mom : Type := (status * nat)%type.
Definition m_next (x : mom) (d : deed) : mom := (perform (fst x) d, (snd x + waits1 d)%nat).
Fixpoint always (x : mom) (ds : list deed) : Prop :=
  I (fst x) (snd x) /\ match ds with [] => True | d :: r => (forall w, d = Doing w -> D (fst x) (snd x + waits1 d)%nat w) /\ always (m_next x d) r end.
Lemma m_fold : forall ds x, fold_left m_next ds x = (fold_left perform ds (fst x), (snd x + List.length (filter (fun d => match d with Doing Waiting => true | _ => false end) ds))%nat).
Proof.
  induction ds as [|d ds IH]; intros x; cbn [fold_left filter]; [cbn [List.length]; rewrite Nat.add_0_r; destruct x; reflexivity|]. rewrite IH. unfold m_next. cbn [fst snd]. f_equal.
  destruct d as [c v|c v|w]; cbn [waits1]; try lia. destruct w; cbn [List.length]; lia.
Qed.
Lemma always_moment : forall ds x n, always x ds -> (n <= List.length ds)%nat -> let x' := fold_left m_next (firstn n ds) x in I (fst x') (snd x').
Proof.
  induction ds as [|d ds IH]; intros x n A L; cbv zeta.
  - replace n with 0%nat by (cbn in L; lia). exact (proj1 A).
  - destruct n as [|n]; [exact (proj1 A)|]. cbn [firstn fold_left]. apply (IH (m_next x d) n (proj2 (proj2 A))). cbn in L. lia.
Qed.
Lemma always_at : forall ds n, always (status0, 0%nat) ds -> (n <= List.length ds)%nat -> I (status_at ds n) (waits ds n).
Proof. intros ds n A L. pose proof (always_moment ds _ n A L) as M. cbv zeta in M. rewrite m_fold in M. exact M. Qed.
Lemma always_doing_from : forall before x w after, always x (before ++ Doing w :: after) -> let x' := fold_left m_next before x in D (fst x') (snd x' + waits1 (Doing w))%nat w.
Proof.
  induction before as [|d before IH]; intros x w after A; cbv zeta.
  - exact (proj1 (proj2 A) w eq_refl).
  - apply (IH (m_next x d) w after). exact (proj2 (proj2 A)).
Qed.
Lemma always_doing : forall ds n w, always (status0, 0%nat) ds -> doing ds n w -> D (status_at ds n) (waits ds n) w.
Proof.
  intros ds n w A (before & after & E & ->). rewrite E in A. pose proof (always_doing_from before _ w after A) as M. cbv zeta in M. rewrite m_fold in M. cbn [fst snd] in M.
  assert (F : firstn (S (List.length before)) ds = before ++ [Doing w]).
  { rewrite E. replace (before ++ Doing w :: after) with ((before ++ [Doing w]) ++ after) by (rewrite <- app_assoc; reflexivity).
    replace (S (List.length before)) with (List.length (before ++ [Doing w])) by (rewrite app_length; cbn; lia).
    rewrite firstn_app, firstn_all, Nat.sub_diag, app_nil_r. reflexivity. }
  unfold status_at, waits. rewrite F, fold_left_app, filter_app, app_length. cbn [fold_left perform].
  replace (List.length (filter (fun d => match d with Doing Waiting => true | _ => false end) [Doing w])) with (waits1 (Doing w)) by (destruct w; reflexivity). exact M.
Qed.
End always.

Section tfw.
Context (bs : list Block).
Definition fl (k : nat) : Z := u64 (fillers (firstn k bs)).
Definition lw (k : nat) : Z := last_written (firstn k bs).
Definition near (p k : nat) : Prop := k = p \/ S k = p.
Definition tI (s : status) (p : nat) : Prop := (exists k, near p k /\ s CFiller = fl k) /\ (exists k, near p k /\ s CBlock = lw k).
Definition tD (s : status) (p : nat) (w : work) : Prop := s CFiller = fl (received w p) /\ s CBlock = lw (received w p) /\ (forall b, w = Writing b -> b = lw p).
Definition x_idle (p : nat) (x : mom) : Prop := snd x = p /\ fst x CFiller = fl p /\ fst x CBlock = lw p.
Definition x_recv (p : nat) (x : mom) : Prop := snd x = S p /\ fst x CFiller = fl p /\ fst x CBlock = lw p.
Lemma x_idle_I : forall p x, x_idle p x -> tI (fst x) (snd x).
Proof. intros p x (-> & F & B). split; exists p; (split; [left; reflexivity|assumption]). Qed.
Lemma x_recv_I : forall p x, x_recv p x -> tI (fst x) (snd x).
Proof. intros p x (-> & F & B). split; exists p; (split; [right; reflexivity|assumption]). Qed.
Lemma firstn_snoc : forall p b, nth_error bs p = Some b -> firstn (S p) bs = firstn p bs ++ [b].
Proof.
  intros p b. revert p. induction bs as [|x l IH]; intros p H; [destruct p; discriminate H|]. destruct p as [|p]; [injection H as ->; reflexivity|].
  change (x :: firstn (S p) l = x :: (firstn p l ++ [b])). f_equal. apply IH. exact H.
Qed.
Lemma x_wait : forall p, holds_in (always tI tD) (x_idle p) (tell [Doing Waiting]) (fun _ => x_recv p).
Proof.
  intros p. apply holds_tell. intros x rest H K. cbn [app always]. split; [exact (x_idle_I p x H)|]. destruct H as (P & F & B). split.
  - intros w E. injection E as <-. cbn [waits1 received]. rewrite P. unfold tD, received. replace (p + 1 - 1)%nat with p by lia. split; [assumption|split; [assumption|intros b X; discriminate X]].
  - apply K. unfold m_next, x_recv. cbn [fst snd perform waits1]. split; [lia|]. split; assumption.
Qed.
Lemma x_round : forall p b r, nth_error bs p = Some b ->
  holds_in (always tI tD) (x_recv p) (wr_round (fun m => seqb (blk_Type m) tFiller) AddFiller blk_Index (b, r)) (fun _ => x_idle (S p)).
Proof.
  intros p b r NE. pose proof (firstn_snoc p b NE) as Sn. unfold wr_round. cbn [fst snd]. change (seqb (blk_Type b) tFiller) with (is_filler b).
  assert (FL : fl (S p) = if is_filler b then u64 (fl p + 1) else fl p).
  { unfold fl. rewrite Sn. unfold fillers. rewrite filter_app, zlen_app. cbn [filter]. destruct (is_filler b).
    - change (zlen [b]) with 1. rewrite <- u64_sum. f_equal.
    - change (zlen (@nil Block)) with 0. rewrite Z.add_0_r. reflexivity. }
  assert (LW : lw (S p) = if is_filler b then lw p else blk_Index b).
  { unfold lw. rewrite Sn. unfold last_written. rewrite filter_app. cbn [filter]. destruct (is_filler b); cbn [negb]; [rewrite app_nil_r; reflexivity|]. rewrite rev_app_distr. reflexivity. }
  destruct (is_filler b).
  - apply holds_tell. intros x rest H K. unfold AddFiller. cbn [app always]. split; [exact (x_recv_I p x H)|]. destruct H as (P & F & B). split; [intros w E; discriminate E|].
    apply K. unfold m_next, x_idle. cbn [fst snd perform waits1 cell_eqb]. split; [lia|]. rewrite FL, LW, F. split; [reflexivity|exact B].
  - refine (holds_bind _ _ _ _ (fun _ => x_idle (S p)) _ _ _ _ _).
    { apply holds_tell. intros x rest H K. unfold SetStateWriting. cbn [app always]. split; [exact (x_recv_I p x H)|]. destruct H as (P & F & B). split; [intros w E; discriminate E|].
      assert (J : forall y, (y = m_next x (Store CBlock (blk_Index b)) \/ y = m_next (m_next x (Store CBlock (blk_Index b))) (Store CState wWriting)) -> x_idle (S p) y).
      { intros y Y. assert (y = (fst y, S p) /\ fst y CFiller = fst x CFiller /\ fst y CBlock = blk_Index b) as (Y1 & Y2 & Y3).
        { destruct Y as [-> | ->]; unfold m_next; cbn [fst snd waits1 perform cell_eqb]; rewrite P, ?Nat.add_0_r; repeat split. }
        split; [rewrite Y1; reflexivity|]. rewrite FL, LW, Y2, Y3. split; [exact F|reflexivity]. }
      pose proof (J _ (or_introl eq_refl)) as J1. pose proof (J _ (or_intror eq_refl)) as J2.
      split; [exact (x_idle_I _ _ J1)|]. split; [intros w E; discriminate E|]. split; [exact (x_idle_I _ _ J2)|].
      set (y := m_next (m_next x (Store CBlock (blk_Index b))) (Store CState wWriting)) in *. clearbody y. destruct J2 as (Q1 & Q2 & Q3). split.
      - intros w E. injection E as <-. cbn [waits1]. unfold tD, received. rewrite Q1, Nat.add_0_r. split; [assumption|]. split; [assumption|]. intros b' X. injection X as <-. symmetry. exact LW.
      - apply K. unfold m_next, x_idle. cbn [fst snd perform waits1]. split; [lia|]. split; assumption. }
    intros _ _. refine (holds_bind _ _ _ _ _ _ _ _ (holds_silent _ _ _ _ _) _); [intros x H; split; [exact (x_idle_I _ _ H)|exact Logic.I]|].
    intros _ _. apply holds_tell. intros x rest H K. unfold SetCurrentState. cbn [app always]. split; [exact (x_idle_I _ _ H)|]. split; [intros w E; discriminate E|].
    apply K. destruct H as (P & F & B). unfold m_next, x_idle. cbn [fst snd perform waits1 cell_eqb]. split; [lia|]. split; assumption.
Qed.
Lemma x_serve : forall l rs done, bs = done ++ l -> List.length rs = List.length l ->
  holds_in (always tI tD) (x_idle (List.length done)) (serve (wr_round (fun m => seqb (blk_Type m) tFiller) AddFiller blk_Index) (combine l rs)) (fun _ x => exists p, x_recv p x).
Proof.
  induction l as [|b l IH]; intros rs done E Ln; cbn [combine serve].
  - refine (holds_bind _ _ _ _ _ _ _ _ (x_wait _) _). intros _ _. apply holds_ok. intros x H. exists (List.length done). exact H.
  - destruct rs as [|r rs]; [discriminate Ln|]. cbn [serve]. refine (holds_bind _ _ _ _ _ _ _ _ (x_wait _) _). intros _ _.
    refine (holds_bind _ _ _ _ _ _ _ _ (x_round (List.length done) b r _) _).
    { rewrite E, nth_error_app2 by lia. rewrite Nat.sub_diag. reflexivity. }
    intros u0 _. refine (holds_bind _ _ _ _ (fun _ x => exists p, x_recv p x) _ _ _ _ _).
    + replace (S (List.length done)) with (List.length (done ++ [b])) by (rewrite app_length; cbn; lia). apply IH; [rewrite <- app_assoc; exact E|cbn in Ln; lia].
    + intros bs' _. apply holds_ok. auto.
Qed.
End tfw.
(** the words of the tag filter's writer *)
Definition tfw_ph (s : Z) : string := if s =? 0 then tfw_word Waiting else if s =? 1 then tfw_word (Writing 0) else ""%string.
Definition tfw_phase (s : status) : string := tfw_ph (s CState).
Lemma tfw_wait : keeps (f_word tfw_word) tfw_phase on_always idle_phase (tell [Doing Waiting]) (fun _ => at_phase 0 (tfw_word Waiting)).
Proof.
  w_tells H K. unfold tfw_phase. rewrite H. split_all; [intros _; right; reflexivity| |apply K; split; [exact H|reflexivity]].
  intros w v E F. injection E as <-. injection F as <-. reflexivity.
Qed.
Lemma tfw_phases : forall x, keeps (f_word tfw_word) tfw_phase on_always (at_phase 0 (tfw_word Waiting)) (wr_round (fun m => seqb (blk_Type m) tFiller) AddFiller blk_Index x) (fun _ => idle_phase).
Proof.
  intros x. unfold wr_round. destruct (seqb (blk_Type (fst x)) tFiller).
  - w_tells H K. unfold AddFiller. cbn [app tracks told_of]. unfold tfw_phase. rewrite (proj1 H). split; [intros _; left; exact (proj2 H)|]. split; [intros w v E; discriminate E|]. apply K. exact (proj1 H).
  - refine (keeps_bind _ _ _ _ _ _ (fun _ => at_phase 1 (tfw_word (Writing 0))) _ _ _ _ _).
    { w_tells H K. unfold tfw_phase. cbn [perform cell_eqb]. rewrite (proj1 H). split_all; try (intros w v E F; discriminate E).
      - intros _. left. exact (proj2 H).
      - intros _. left. exact (proj2 H).
      - intros _. right. reflexivity.
      - intros w v E F. injection E as <-. injection F as <-. reflexivity.
      - apply K. cbn [perform cell_eqb]. split; reflexivity. }
    intros _ _. refine (keeps_bind _ _ _ _ _ _ (fun _ => at_phase 1 (tfw_word (Writing 0))) _ _ _ _ _).
    { apply keeps_silent; [intros ? ? ? [H L] _; unfold tfw_phase; rewrite H, L; reflexivity|auto]. }
    intros _ _. w_tells H K. unfold tfw_phase. rewrite (proj1 H). split_all; try (intros w v E F; discriminate E).
    + intros _. left. exact (proj2 H).
    + apply K. reflexivity.
Qed.
Lemma tf_output_deeds : forall o msgs, fst (tf_output o msgs of0) <> [] -> exists rs, List.length rs = List.length msgs /\
  fst (tf_output o msgs of0) = fst (serve (wr_round (fun m => seqb (blk_Type m) tFiller) AddFiller blk_Index) (combine msgs rs)).
Proof.
  intros o msgs. unfold tf_output. unfold tio_bind at 1 2. cbn [act of_call of0 of_k of_file of_hdr]. destruct (os_fail o 0); [intros X; cbn in X; contradiction|]. intros _.
  cbn [fst snd app]. destruct (loop_told (fun m => seqb (blk_Type m) tFiller) AddFiller blk_Index (put_frame o) (frame_mute o) msgs (mkOfile 1 (mkFile [] 0) zero4)) as (rs & L & E & _).
  exists rs. split; [exact L|exact E].
Qed.
(** C106, the writer of the tag filter.  If the line is made while the writer is doing something (and does not get on with it), it says whether it waits or writes,
    how many of the blocks received so far were dropped, and the number of the last block written or being written (0 if there is none).  In any case the words are
    right for a moment while the line was made, and each number for a later moment, with or without the block then received.  Missing: "dropped x/y blocks" as x of y blocks, which is false (C106_dropped_refuted). *)
Lemma pC106_tagfilter_partial : forall o msgs, let ds := fst (tf_output o msgs of0) in ds <> [] ->
  let dropped k := u64 (fillers (firstn k msgs)) in
  let written k := last_written (firstn k msgs) in
  (forall n w l, doing ds n w -> (look ds n tf_writer_widget n l <->
     l = Text (tfw_text (tfw_word w) (dropped (received w (waits ds n))) (written (received w (waits ds n)))))) /\
  (forall n b, doing ds n (Writing b) -> b = written (waits ds n)) /\
  (forall m m' l, look ds m tf_writer_widget m' l -> exists i jf jb v f b, (m <= i <= jf)%nat /\ (jf <= jb <= m')%nat /\
     about (f_word tfw_word) ds i v /\ (f = waits ds jf \/ S f = waits ds jf) /\ (b = waits ds jb \/ S b = waits ds jb) /\
     l = Text (tfw_text v (dropped f) (written b))).
Proof.
  intros o msgs ds NE dropped written. destruct (tf_output_deeds o msgs NE) as (rs & Ln & E). fold ds in E.
  assert (TP : tracks (f_word tfw_word) tfw_phase on_always false status0 None ds).
  { rewrite E. apply (keeps_tracks _ _ _ _ idle_phase (at_phase 0 (tfw_word Waiting))); [apply keeps_serve; [apply tfw_wait|intros x _; apply tfw_phases]|reflexivity|].
    intros b s l [H ->] _. unfold tfw_phase. rewrite H. reflexivity. }
  assert (AL : always (tI msgs) (tD msgs) (status0, 0%nat) ds).
  { rewrite E. apply (holds_deeds _ _ (x_idle msgs 0) (fun x => exists p, x_recv msgs p x)); [exact (x_serve msgs msgs rs [] eq_refl Ln)| |].
    - split; [reflexivity|]. split; reflexivity.
    - intros x [p H]. split; [exact (x_recv_I msgs p x H)|exact I]. }
  clearbody ds. clear E.
  assert (PH : forall n v, tfw_phase (status_at ds n) = v -> v <> ""%string -> exists k, tf_writer_widget = Load CState k /\
    k (status_at ds n CState) = Load CFiller (fun f => Load CBlock (fun b => Show (Text (tfw_text v f b))))).
  { intros n v P V. eexists. split; [reflexivity|]. cbv beta. unfold tfw_phase, tfw_ph, wReading, wWriting in *. destruct (status_at ds n CState =? 0); [subst v; reflexivity|].
    destruct (status_at ds n CState =? 1); [subst v; reflexivity|]. subst v. contradiction. }
  assert (WO : forall w, tfw_word w <> ""%string) by (destruct w; discriminate).
  split; [|split].
  - intros n w l Dn. pose proof (doing_le _ _ _ Dn) as Le. pose proof (tracks_doing _ _ _ ds n w (tfw_word w) TP Dn eq_refl) as P.
    destruct (PH n _ P (WO w)) as (k & -> & K). destruct (always_doing _ _ ds n w AL Dn) as (F & B & _).
    assert (Down : forall c (k' : Z -> update) x, (look ds n (k' (status_at ds n c)) n l <-> l = x) -> (look ds n (Load c k') n l <-> l = x)).
    { intros c k' x U. rewrite <- U. split.
      - intros L. apply look_load_inv in L. destruct L as (n' & Ln' & L). assert (n' = n) as -> by (pose proof (look_le _ _ _ _ _ L); lia). exact L.
      - intros L. apply (look_load ds n n n c k'); [lia|exact L]. }
    apply Down. rewrite K. apply Down, Down. rewrite F, B. split; [intros L; apply look_show_inv in L; exact (proj2 L)|intros ->; apply look_show].
  - intros n b Dn. destruct (always_doing _ _ ds n (Writing b) AL Dn) as (_ & _ & X). exact (X b eq_refl).
  - intros m m' l L. assert (exists k, tf_writer_widget = Load CState k) as [k0 K0] by (eexists; reflexivity). rewrite K0 in L.
    apply look_load_inv in L. destruct L as (i & Li & L).
    assert (A : about (f_word tfw_word) ds i (tfw_phase (status_at ds i))).
    { apply (tracks_about _ _ _ ds i TP); [lia|]. exists i. split; [lia|reflexivity]. }
    pose proof (about_word_ok _ _ _ _ WO A) as Ok_. destruct (PH i _ eq_refl Ok_) as (k & K & C). rewrite K0 in K. injection K as <-. rewrite C in L.
    apply look_load_inv in L. destruct L as (jf & La & L). apply look_load_inv in L. destruct L as (jb & Lb & L). apply look_show_inv in L. destruct L as [-> ->].
    destruct (always_at _ _ ds jf AL ltac:(lia)) as [(f & F1 & F2) _]. destruct (always_at _ _ ds jb AL ltac:(lia)) as [_ (b & B1 & B2)].
    exists i, jf, jb, (tfw_phase (status_at ds i)), f, b. split; [lia|]. split; [lia|]. split; [exact A|]. split; [exact F1|]. split; [exact B1|]. rewrite F2, B2. reflexivity.
Qed.

Definition ex_msgs : list Block := [mkBlk 0 (exact []) tFiller; mkBlk 1 (exact [1; 2; 3]) (bytes_of "OSMHeader"); mkBlk 2 (exact []) tFiller; mkBlk 3 (exact [4; 5]) tOSMData].
Definition ex_os : os := mkOS (fun k n => (n, false)) (fun _ => (1, NoErr)) (fun _ => false) (fun _ => false).
Lemma ex_tfw_deeds : fst (tf_output ex_os ex_msgs of0) =
  [Doing Waiting; AddTo CFiller 1; Doing Waiting; Store CBlock 1; Store CState 1; Doing (Writing 1); Store CState 0; Doing Waiting; AddTo CFiller 1; Doing Waiting;
   Store CBlock 3; Store CState 1; Doing (Writing 3); Store CState 0; Doing Waiting].
Proof. vm_compute. reflexivity. Qed.
(** "dropped x/y blocks" is not "x of y": after a first block that was dropped, the line says that 1 of 0 blocks were. *)
Lemma pC106_dropped_refuted : let ds := fst (tf_output ex_os ex_msgs of0) in
  doing ds 3 Waiting /\ look ds 3 tf_writer_widget 3 (Text (bytes_of "Writer: waiting for block, dropped 1/0 blocks")).
Proof. cbv zeta. rewrite ex_tfw_deeds. split; [apply doing_nth; reflexivity|]. do 3 at_load 3%nat 3%nat. apply look_show. Qed.
(** Examples. *)
Lemma pC106_ex : let ds := fst (tf_output ex_os ex_msgs of0) in let ds' := rw_outputs [(ex_os, ex_msgs); (ex_os, ex_msgs)] in
  doing ds 13 (Writing 3) /\ look ds 13 tf_writer_widget 13 (Text (bytes_of "Writer: writing block, dropped 2/3 blocks")) /\
  doing ds' 25 (Writing 0) /\ look ds' 25 dc_writer_widget 25 (Text (bytes_of "Writer: writing block 0")) /\
  (* the writer gets on while the line is made *)
  look ds' 25 dc_writer_widget 28 (Text (bytes_of "Writer: writing block 1")).
Proof.
  assert (E : exists rest, rw_outputs [(ex_os, ex_msgs); (ex_os, ex_msgs)] =
    [Doing Waiting; Store CBlock 0; Store CState 1; Doing (Writing 0); Store CState 0; Doing Waiting; Store CBlock 1; Store CState 1; Doing (Writing 1); Store CState 0;
     Doing Waiting; Store CBlock 2; Store CState 1; Doing (Writing 2); Store CState 0; Doing Waiting; Store CBlock 3; Store CState 1; Doing (Writing 3); Store CState 0; Doing Waiting;
     Doing Waiting; Store CBlock 0; Store CState 1; Doing (Writing 0); Store CState 0; Doing Waiting; Store CBlock 1; Store CState 1; Doing (Writing 1)] ++ rest)
    by (eexists; vm_compute; reflexivity).
  destruct E as [rest E]. cbv zeta. rewrite ex_tfw_deeds, E. split; [apply doing_nth; reflexivity|]. split; [do 3 at_load 13%nat 13%nat; apply look_show|].
  split; [apply doing_nth; reflexivity|]. split; [do 2 at_load 25%nat 25%nat; apply look_show|]. at_load 25%nat 25%nat. at_load 25%nat 28%nat. apply look_show.
Qed.
