(** * SyProofs: the deeds of the writers of the two indexes. *)
From Verif Require Import Base PbModel TModel HLModel FrModel ZlModel IoModel IoSpec NiModel WiModel TrModel TmModel PgModel SlModel SlSpec SwModel SySpec.
From Verif Require Import BaseLemmas IoThms SlProofs SlThms SfThms.

(** ** a grammar *)
Inductive mode : Type := MWait | MIndex (b : Z) | MCopy (T d : Z).
Section grammar.
Context (total_ok end_ok : Z -> Z -> Prop).
Inductive ixd : mode -> list deed -> Prop :=
| d_stop : ixd MWait [Doing Waiting]
| d_skip : forall r, ixd MWait r -> ixd MWait (Doing Waiting :: r)
| d_block : forall b n r, ixd (MIndex b) r -> ixd MWait (Doing Waiting :: Store CBlock n :: Store CState 1 :: Doing (WritingIndex b n) :: r)
| d_index_stop : forall b, ixd (MIndex b) []
| d_index_next : forall b r, ixd MWait r -> ixd (MIndex b) (Store CState 0 :: r)
| d_loc_stop : forall b, ixd (MIndex b) [Store CState 2; Doing (WritingLocations b)]
| d_loc_next : forall b r, ixd MWait r -> ixd (MIndex b) (Store CState 2 :: Doing (WritingLocations b) :: Store CState 0 :: r)
| d_copy : forall t T r, total_ok t T -> 0 <= T -> ixd (MCopy T 0) r -> ixd MWait (Doing Waiting :: Store CTotal t :: Store CState 3 :: Doing (Copying 0 T) :: r)
| d_copy_stop : forall T d, ixd (MCopy T d) []
| d_copy_same : forall T d r, ixd (MCopy T d) r -> ixd (MCopy T d) (Doing (Copying d T) :: r)
| d_copy_more : forall T d n r, 0 < n -> d + n <= T -> ixd (MCopy T (d + n)) r -> ixd (MCopy T d) (AddTo CCopied (u64 n) :: Doing (Copying (d + n) T) :: r)
| d_final : forall T d, end_ok d T -> ixd (MCopy T d) [Store CState 4; Doing Finalizing].

(** ** tracks *)
Definition x_ph (s : Z) : string :=
  if s =? 0 then writer_waiting else if s =? 1 then index_words else if s =? 2 then "Writer: writing locations"
  else if s =? 3 then copying_words else if s =? 4 then "Writer: finalizing index" else ""%string.
Definition x_phase (s : status) : string := x_ph (s CState).
Definition x_begun (m : mode) (s : status) (last : option string) : Prop :=
  match m with
  | MWait => s CState = 0
  | MIndex _ => s CState = 1 /\ last = Some index_words
  | MCopy _ _ => s CState = 3 /\ last = Some copying_words
  end.
Ltac leaf := first [ intros ? ? E F; discriminate E | intros ? ? E F; injection E as <-; injection F as <-; reflexivity
                   | intros _; left; reflexivity | intros _; right; reflexivity | exact I ].
Lemma words_tracked : forall m ds, ixd m ds -> forall begun s last, x_begun m s last -> tracks (f_word ixw_word) x_phase on_always begun s last ds.
Proof.
  intros m ds D. induction D; intros begun s last HB; cbn [x_begun] in HB; cbn [tracks told_of first_some next_last f_word perform cell_eqb]; unfold x_phase;
    cbn [perform cell_eqb]; first [rewrite HB | destruct HB as [HB HL]; rewrite HB, ?HL | idtac]; cbn [x_ph Z.eqb Pos.eqb].
  all: repeat (first [ split; [leaf|] | leaf ]).
  - apply IHD. exact HB.
  - apply IHD. cbn [x_begun]. cbn. split; reflexivity.
  - apply IHD. reflexivity.
  - apply IHD. reflexivity.
  - apply IHD. cbn. split; reflexivity.
  - apply IHD. split; [exact HB|reflexivity].
  - apply IHD. split; [exact HB|reflexivity].
Qed.
Definition on_index (s : status) : bool := s CState =? 1.
Definition n_begun (m : mode) (begun : bool) (s : status) (last : option Z) : Prop :=
  match m with
  | MWait => s CState = 0 /\ (begun = true -> last = Some (s CBlock))
  | MIndex _ => s CState = 1 /\ last = Some (s CBlock)
  | MCopy _ _ => s CState = 3 /\ (begun = true -> last = Some (s CBlock))
  end.
Ltac view_leaf HB :=
  first [ intros ? ? E F; discriminate E
        | intros ? ? E F; injection E as <-; discriminate F
        | intros ? ? E F; injection E as <-; injection F as <-; cbn; first [reflexivity | tauto | congruence]
        | let X := fresh in intros X; first [discriminate X | right; reflexivity | left; cbn in *; tauto | left; cbn in *; rewrite ?orb_false_r in *; tauto ]
        | exact I ].
Lemma entries_tracked : forall m ds, ixd m ds -> forall begun s last, n_begun m begun s last -> tracks entries (fun s => s CBlock) on_index begun s last ds.
Proof.
  intros m ds D. induction D; intros begun s last HB; cbn [n_begun] in HB; destruct HB as [HS HB]; cbn [tracks told_of first_some next_last entries perform cell_eqb]; unfold on_index;
    cbn [perform cell_eqb]; rewrite HS; cbn [Z.eqb Pos.eqb]; rewrite ?orb_false_r, ?orb_true_r.
  all: repeat (first [ split; [view_leaf HB|] | view_leaf HB ]).
  - apply IHD. split; [exact HS|exact HB].
  - apply IHD. cbn. split; reflexivity.
  - apply IHD. split; [reflexivity|intros _; exact HB].
  - apply IHD. split; [reflexivity|intros _; exact HB].
  - apply IHD. split; [reflexivity|exact HB].
  - apply IHD. split; [exact HS|exact HB].
  - apply IHD. split; [exact HS|exact HB].
Qed.
Definition on_copy (s : status) : bool := s CState =? 3.
Definition c_begun (m : mode) (begun : bool) (s : status) (last : option Z) : Prop :=
  match m with
  | MCopy _ d => s CState = 3 /\ s CCopied = u64 d /\ last = Some (u64 d)
  | MWait => s CState = 0 /\ s CCopied = 0 /\ begun = false
  | MIndex _ => s CState = 1 /\ s CCopied = 0 /\ begun = false
  end.
Lemma copied_tracked : forall m ds, ixd m ds -> forall begun s last, c_begun m begun s last -> tracks copied (fun s => s CCopied) on_copy begun s last ds.
Proof.
  intros m ds D. induction D; intros begun s last HB; cbn [c_begun] in HB; destruct HB as (HS & HC & HB); try subst begun; cbn [tracks told_of first_some next_last copied perform cell_eqb]; unfold on_copy;
    cbn [perform cell_eqb]; rewrite HS; cbn [Z.eqb Pos.eqb]; rewrite ?orb_false_r, ?orb_true_r; cbn [orb]; rewrite ?HC, ?u64_sum; change (u64 0) with 0.
  all: repeat (first [ split; [view_leaf HB|] | view_leaf HB ]).
  - apply IHD. split; [exact HS|split; [exact HC|reflexivity]].
  - apply IHD. cbn. split; [reflexivity|split; [exact HC|reflexivity]].
  - apply IHD. cbn. split; [reflexivity|split; [exact HC|reflexivity]].
  - apply IHD. cbn. split; [reflexivity|split; [exact HC|reflexivity]].
  - apply IHD. cbn. split; [reflexivity|split; [exact HC|reflexivity]].
  - apply IHD. cbn. split; [exact HS|split; [exact HC|reflexivity]].
  - apply IHD. cbn [c_begun perform cell_eqb]. split; [exact HS|split; [first [reflexivity|apply u64_sum|idtac]|reflexivity]].
Qed.
Context (t0 : Z) (total_is : forall t T, total_ok t T -> t = t0).
Definition to_copy (w : work) : option Z := match w with Copying _ _ => Some t0 | _ => None end.
Definition t_begun (m : mode) (begun : bool) (s : status) (last : option Z) : Prop :=
  match m with
  | MCopy T _ => s CState = 3 /\ s CTotal = t0 /\ last = Some t0
  | MWait => s CState = 0 /\ begun = false /\ True
  | MIndex _ => s CState = 1 /\ begun = false /\ True
  end.
Lemma total_tracked : forall m ds, ixd m ds -> forall begun s last, t_begun m begun s last -> tracks to_copy (fun s => s CTotal) on_copy begun s last ds.
Proof.
  intros m ds D. induction D; intros begun s last HB; cbn [t_begun] in HB; destruct HB as (HS & HC & HB); try subst begun; try (rewrite (total_is _ _ H)); cbn [tracks told_of first_some next_last to_copy perform cell_eqb]; unfold on_copy;
    cbn [perform cell_eqb]; rewrite HS; cbn [Z.eqb Pos.eqb]; rewrite ?orb_false_r, ?orb_true_r; cbn [orb]; try (rewrite HC).
  all: repeat (first [ split; [view_leaf HB|] | view_leaf HB ]).
  all: apply IHD; cbn [t_begun]; cbn [perform cell_eqb]; split; [first [exact HS|reflexivity]|split; [first [exact HC|reflexivity]|first [exact I|reflexivity]]].
Qed.
(** the bytes copied grow and never get beyond the bytes to copy, which stay the same *)
Definition c_low (m : mode) : Z := match m with MCopy _ d => d | _ => 0 end.
Definition c_top (m : mode) (t : Z) : Prop := match m with MCopy T d => t = T /\ d <= T | _ => 0 <= t end.
Lemma copy_range : forall m ds, ixd m ds -> (match m with MCopy T d => d <= T | _ => True end) -> forall k d t, nth_error ds k = Some (Doing (Copying d t)) ->
  c_low m <= d <= t /\ c_top m t.
Proof.
  intros m ds D. induction D; intros HT k d' t' E;
    repeat match type of E with nth_error (_ :: _) ?k = _ => is_var k; destruct k as [|k]; cbn [nth_error] in E; try discriminate E end; cbn [c_low c_top] in *.
  all: try (destruct k; discriminate E).
  all: try (apply (IHD HT _ _ _ E)).
  all: try (destruct (IHD I _ _ _ E); split; assumption).
  all: try (injection E as <- <-; lia).
  - destruct (IHD ltac:(lia) _ _ _ E) as [A [-> B]]. lia.
  - destruct (IHD ltac:(lia) _ _ _ E) as [A [-> B]]. lia.
Qed.
Lemma copy_order : forall m ds, ixd m ds -> (match m with MCopy T d => d <= T | _ => True end) -> forall k d t k' d' t', nth_error ds k = Some (Doing (Copying d t)) ->
  (k <= k')%nat -> nth_error ds k' = Some (Doing (Copying d' t')) -> d <= d' /\ t = t'.
Proof.
  intros m ds D. induction D; intros HT k a tt0 k' a' tt0' E L E';
    repeat match type of E with nth_error (_ :: _) ?k = _ => is_var k; destruct k as [|k]; cbn [nth_error] in E; try discriminate E end.
  all: try (destruct k; discriminate E).
  all: repeat match type of E' with nth_error (_ :: _) ?k' = _ => is_var k'; destruct k' as [|k']; cbn [nth_error] in E'; try discriminate E'; try lia end.
  all: try (destruct k'; discriminate E').
  all: try (injection E as <- <-; injection E' as <- <-; lia).
  all: try (eapply IHD; [first [exact HT|exact I|lia]|exact E| |exact E']; lia).
  all: injection E as <- <-; destruct (copy_range _ _ D ltac:(cbn; lia) _ _ _ E') as [A [-> _]]; cbn in A; lia.
Qed.
(** when the index is finalized, the copying is over *)
Lemma copy_end : forall m ds, ixd m ds -> forall k, nth_error ds k = Some (Doing Finalizing) ->
  exists d T, end_ok d T /\ (m = MCopy T d \/ exists k', (k' < k)%nat /\ nth_error ds k' = Some (Doing (Copying d T))).
Proof.
  intros m ds D. induction D; intros k E;
    repeat match type of E with nth_error (_ :: _) ?k = _ => is_var k; destruct k as [|k]; cbn [nth_error] in E; try discriminate E end.
  all: try (destruct k; discriminate E).
  all: try (destruct (IHD _ E) as (d1 & T1 & EO & [X|(k' & L & X)]); [try discriminate X|]; (exists d1, T1; split; [exact EO|])).
  - right. exists (S k'). split; [lia|exact X].
  - right. exists (S (S (S (S k')))). split; [lia|exact X].
  - right. exists (S k'). split; [lia|exact X].
  - right. exists (S (S (S k'))). split; [lia|exact X].
  - injection X as <- <-. right. exists 3%nat. split; [lia|reflexivity].
  - right. exists (S (S (S (S k')))). split; [lia|exact X].
  - left. exact X.
  - right. exists (S k'). split; [lia|exact X].
  - injection X as <- <-. right. exists 1%nat. split; [lia|reflexivity].
  - right. exists (S (S k')). split; [lia|exact X].
  - exists d, T. split; [assumption|left; reflexivity].
Qed.
Lemma copy_size : forall m ds, ixd m ds -> forall k d T, nth_error ds k = Some (Doing (Copying d T)) ->
  (exists d0, m = MCopy T d0) \/ exists t, total_ok t T.
Proof.
  intros m ds D. induction D; intros k d' T' E;
    repeat match type of E with nth_error (_ :: _) ?k = _ => is_var k; destruct k as [|k]; cbn [nth_error] in E; try discriminate E end.
  all: try (destruct k; discriminate E).
  all: try (injection E as <- <-; eauto).
  all: destruct (IHD _ _ _ E) as [[d1 X]|X]; [first [discriminate X|injection X as <- <-; eauto]|eauto].
Qed.
End grammar.

(** ** the writers' deeds are of this grammar *)
Definition end_of (o : os) (d T : Z) : Prop := never_cancelled o -> reads_progress o -> d = T.
Section deeds.
Context (o : os) (total_ok : Z -> Z -> Prop).
Notation ixd := (ixd total_ok (end_of o)).
Lemma copy_inv : forall T d r, ixd (MCopy T d) (Doing (Copying d T) :: r) -> ixd (MCopy T d) r.
Proof. intros T d r H. inversion H; subst. assumption. Qed.
Lemma copy_told_head : forall fuel k fd fs size d, exists r, fst (copy_told (S fuel) o k fd fs size d) = Doing (Copying d (zlen (f_data fs))) :: r.
Proof.
  intros fuel k fd fs size d. cbn [copy_told]. destruct (os_cancelled o k); [eexists; reflexivity|]. destruct (FCopy o (S k) fd fs size) as [[[k1 fd1] fs1] r1].
  destruct r1 as [n|p|]; try (eexists; reflexivity). destruct (n =? 0); eexists; reflexivity.
Qed.
Lemma copy_ixd : forall fuel k fd fs rest, 0 <= f_pos fs <= zlen (f_data fs) -> (Z.to_nat (zlen (f_data fs) - f_pos fs) < fuel)%nat ->
  let r := copy_told fuel o k fd fs copyBufferSize (f_pos fs) in
  (match snd (snd r) with Ok _ => forall d, end_of o d (zlen (f_data fs)) -> ixd (MCopy (zlen (f_data fs)) d) rest | _ => rest = [] end) ->
  ixd (MCopy (zlen (f_data fs)) (f_pos fs)) (fst r ++ rest).
Proof.
  induction fuel as [|fuel IH]; intros k fd fs rest Hp Hl r HR; [lia|]. subst r. cbn [copy_told] in *.
  destruct (os_cancelled o k) eqn:Ec.
  { cbn [fst snd app] in *. apply d_copy_same, HR. intros N. specialize (N k). congruence. }
  unfold FCopy in *. destruct (FRead_spec o (S k) fs copyBufferSize ltac:(unfold copyBufferSize; lia) Hp) as (k1 & fs1 & r1 & E1 & Ds & Ps & R1). rewrite E1 in *. clear E1.
  destruct r1 as [buf|p|]; [|cbn [fst snd app] in *; subst rest; apply d_copy_same, d_copy_stop|contradiction].
  destruct R1 as (_ & Lb & Z0). destruct (FWrite o k1 fd buf) as [[k2 fd2] r2]. destruct r2 as [u|p|]; [|cbn [fst snd app] in *; subst rest; apply d_copy_same, d_copy_stop..].
  destruct (Z.eqb_spec (zlen buf) 0) as [E0|E0].
  - cbn [fst snd app] in *. apply d_copy_same, HR. intros _ W. apply Z0; [exact W|]. destruct buf; [reflexivity|unfold zlen in E0; cbn in E0; lia].
  - replace (f_pos fs + zlen buf) with (f_pos fs1) in * by lia. specialize (IH k2 fd2 fs1 rest ltac:(rewrite Ds; lia) ltac:(rewrite Ds; pose proof (zlen_nonneg buf); lia)).
    destruct fuel as [|fuel]; [pose proof (zlen_nonneg buf); lia|]. destruct (copy_told_head fuel k2 fd2 fs1 copyBufferSize (f_pos fs1)) as [r R].
    destruct (copy_told (S fuel) o k2 fd2 fs1 copyBufferSize (f_pos fs1)) as [d' x]. cbn [fst snd] in *. subst d'. cbn [app] in *. rewrite Ds in *. specialize (IH HR).
    apply d_copy_same. replace (f_pos fs1) with (f_pos fs + zlen buf) by lia. pose proof (zlen_nonneg buf). apply d_copy_more; [lia|lia|]. replace (f_pos fs + zlen buf) with (f_pos fs1) by lia.
    apply copy_inv, IH.
Qed.
(** what is done after the last message *)
Definition ix_end (t : Z) (fin : tio wstate unit) : tio wstate unit :=
  _ <== say (SetStateCopyLocations t) ;;
  _ <== say_copying ;;
  _ <== act (loc_rewind o) ;;
  _ <== io_copy_told o ;;
  _ <== act (io_call o) ;;
  _ <== act (io_call o) ;;
  _ <== say (SetCurrentState iFinalizing ++ [Doing Finalizing]) ;;
  fin.
Lemma tio_fst : forall (S A B : Type) (m : tio S A) (k : A -> tio S B) s,
  fst (tio_bind m k s) = fst (m s) ++ match snd (snd (m s)) with Ok a => fst (k a (fst (snd (m s)))) | _ => [] end.
Proof. intros S A B m k s. unfold tio_bind. destruct (m s) as [d [s1 [a|p|]]]; cbn [fst snd]; rewrite ?app_nil_r; reflexivity. Qed.
Lemma end_ixd : forall t fin w, (forall w, fst (fin w) = []) -> total_ok t (zlen (f_data (w_loc w))) -> ixd MWait (Doing Waiting :: fst (ix_end t fin w)).
Proof.
  intros t fin w F T. unfold ix_end. rewrite !tio_fst. cbn [say say_copying act fst snd SetStateCopyLocations app]. apply d_copy; [exact T|apply zlen_nonneg|].
  unfold loc_rewind. destruct (os_fail o (w_k w)); [apply d_copy_stop|]. cbn [fst snd]. unfold io_copy_told. cbn [w_k w_idx w_loc f_data].
  pose proof (copy_ixd (S (List.length (f_data (w_loc w)))) (S (w_k w)) (w_idx w) (mkFile (f_data (w_loc w)) 0)) as C. cbn [f_data f_pos] in C. cbv zeta in C.
  match type of C with context[copy_told ?n o ?k ?d ?s ?z 0] => destruct (copy_told n o k d s z 0) as [dd [[[k' fd'] fs'] r']] end. cbn [fst snd] in *.
  apply C; [split; [lia|apply zlen_nonneg]|unfold zlen; lia|]. destruct r' as [u|p|]; [|reflexivity..]. intros d E.
  rewrite ?tio_fst. unfold io_call. cbn [act fst snd app w_k]. destruct (os_fail o k'); [apply d_copy_stop|]. cbn [fst snd app w_k].
  rewrite ?tio_fst. cbn [act fst snd app w_k]. destruct (os_fail o (S k')); [apply d_copy_stop|]. cbn [fst snd app w_k]. rewrite ?tio_fst. cbn [say fst snd SetCurrentState app]. rewrite F. apply d_final, E.
Qed.
Lemma bind_ok : forall (S A B : Type) (m : tio S A) (k : A -> tio S B) s d s1 a, m s = (d, (s1, Ok a)) -> tio_bind m k s = (d ++ fst (k a s1), snd (k a s1)).
Proof. intros S A B m k s d s1 a E. unfold tio_bind. rewrite E. reflexivity. Qed.
Definition failed {A B : Type} (r : res A) : res B := match r with Panic p => Panic p | _ => Diverge end.
Lemma bind_bad : forall (S A B : Type) (m : tio S A) (k : A -> tio S B) s d s1 r, m s = (d, (s1, r)) -> (forall a, r <> Ok a) -> tio_bind m k s = (d, (s1, failed r)).
Proof. intros S A B m k s d s1 r E N. unfold tio_bind. rewrite E. destruct r as [a|p|]; [exfalso; exact (N a eq_refl)|reflexivity|reflexivity]. Qed.
Lemma ni_batches_ixd : forall msgs w L c rest, let r := ni_batches_told o msgs L c w in
  (match snd (snd r) with Ok _ => ixd MWait (Doing Waiting :: rest) | _ => rest = [] end) -> ixd MWait (fst r ++ rest).
Proof.
  induction msgs as [|m msgs IH]; intros w L c rest r; subst r; cbn [ni_batches_told].
  - rewrite (bind_ok _ _ _ _ _ w _ w tt eq_refl). cbn [give fst snd app]. auto.
  - rewrite (bind_ok _ _ _ _ _ w _ w tt eq_refl). cbn [fst snd app]. destruct (negb (seqb (nm_Type m) tIndexData)); [intros H; apply d_skip, IH, H|].
    destruct (nm_Batch m) as [[ranges locations]|]; [|cbn [give fst snd app]; intros ->; apply d_stop].
    rewrite (bind_ok _ _ _ _ _ w _ w tt eq_refl). cbn [fst snd app SetStateWritingIndex]. unfold iWritingIndex. intros H. apply d_block. revert H.
    destruct (ni_ranges ranges [] L c) as [x|p|] eqn:X;
      [rewrite (bind_ok _ _ _ _ _ w [] w x) by reflexivity|rewrite (bind_bad _ _ _ _ _ w [] w (Panic p)) by (reflexivity || discriminate); cbn [fst snd failed app]; intros ->; apply d_index_stop|
       rewrite (bind_bad _ _ _ _ _ w [] w Diverge) by (reflexivity || discriminate); cbn [fst snd failed app]; intros ->; apply d_index_stop].
    cbn [fst snd app]. destruct (idx_WriteSlice o (fst (fst x)) w) as [w1 r1] eqn:W1. destruct r1 as [[]|p|];
      [rewrite (bind_ok _ _ _ _ _ w [] w1 tt) by (unfold act; rewrite W1; reflexivity)|rewrite (bind_bad _ _ _ _ _ w [] w1 (Panic p)) by (unfold act; rewrite ?W1; (reflexivity || discriminate)); cbn [fst snd failed app]; intros ->; apply d_index_stop|
       rewrite (bind_bad _ _ _ _ _ w [] w1 Diverge) by (unfold act; rewrite ?W1; (reflexivity || discriminate)); cbn [fst snd failed app]; intros ->; apply d_index_stop].
    cbn [fst snd app]. rewrite (bind_ok _ _ _ _ _ w1 _ w1 tt eq_refl). cbn [fst snd app SetCurrentState]. unfold iWritingLocations.
    destruct (loc_WriteSlice o locations w1) as [w2 r2] eqn:W2. destruct r2 as [[]|p|];
      [rewrite (bind_ok _ _ _ _ _ w1 [] w2 tt) by (unfold act; rewrite W2; reflexivity)|rewrite (bind_bad _ _ _ _ _ w1 [] w2 (Panic p)) by (unfold act; rewrite ?W2; (reflexivity || discriminate)); cbn [fst snd failed app]; intros ->; apply d_loc_stop|
       rewrite (bind_bad _ _ _ _ _ w1 [] w2 Diverge) by (unfold act; rewrite ?W2; (reflexivity || discriminate)); cbn [fst snd failed app]; intros ->; apply d_loc_stop].
    cbn [fst snd app]. rewrite (bind_ok _ _ _ _ _ w2 _ w2 tt eq_refl). cbn [fst snd app SetCurrentState]. unfold iReading. intros H. apply d_loc_next, IH, H.
Qed.
Lemma wi_batches_ixd : forall shift msgs w L c rest, let r := wi_batches_told o shift msgs L c w in
  (match snd (snd r) with Ok _ => ixd MWait (Doing Waiting :: rest) | _ => rest = [] end) -> ixd MWait (fst r ++ rest).
Proof.
  intros shift. induction msgs as [|m msgs IH]; intros w L c rest r; subst r; cbn [wi_batches_told].
  - rewrite (bind_ok _ _ _ _ _ w _ w tt eq_refl). cbn [give fst snd app]. auto.
  - rewrite (bind_ok _ _ _ _ _ w _ w tt eq_refl). cbn [fst snd app]. destruct (negb (seqb (wm_Type m) tWayIndexData)); [intros H; apply d_skip, IH, H|].
    destruct (wm_Batch m) as [[blocks locations]|]; [|cbn [give fst snd app]; intros ->; apply d_stop].
    rewrite (bind_ok _ _ _ _ _ w _ w tt eq_refl). cbn [fst snd app SetStateWritingIndex]. unfold iWritingIndex. intros H. apply d_block. revert H.
    destruct (wi_rebase blocks L) as [x|p|] eqn:X;
      [rewrite (bind_ok _ _ _ _ _ w [] w x) by reflexivity|rewrite (bind_bad _ _ _ _ _ w [] w (Panic p)) by (reflexivity || discriminate); cbn [fst snd failed app]; intros ->; apply d_index_stop|
       rewrite (bind_bad _ _ _ _ _ w [] w Diverge) by (reflexivity || discriminate); cbn [fst snd failed app]; intros ->; apply d_index_stop].
    cbn [fst snd app]. destruct (idx_WriteSlice o x w) as [w1 r1] eqn:W1. destruct r1 as [[]|p|];
      [rewrite (bind_ok _ _ _ _ _ w [] w1 tt) by (unfold act; rewrite W1; reflexivity)|rewrite (bind_bad _ _ _ _ _ w [] w1 (Panic p)) by (unfold act; rewrite ?W1; (reflexivity || discriminate)); cbn [fst snd failed app]; intros ->; apply d_index_stop|
       rewrite (bind_bad _ _ _ _ _ w [] w1 Diverge) by (unfold act; rewrite ?W1; (reflexivity || discriminate)); cbn [fst snd failed app]; intros ->; apply d_index_stop].
    cbn [fst snd app]. destruct (loc_Write o locations w1) as [w2 r2] eqn:W2. destruct r2 as [[]|p|];
      [rewrite (bind_ok _ _ _ _ _ w1 [] w2 tt) by (unfold act; rewrite W2; reflexivity)|rewrite (bind_bad _ _ _ _ _ w1 [] w2 (Panic p)) by (unfold act; rewrite ?W2; (reflexivity || discriminate)); cbn [fst snd failed app]; intros ->; apply d_index_stop|
       rewrite (bind_bad _ _ _ _ _ w1 [] w2 Diverge) by (unfold act; rewrite ?W2; (reflexivity || discriminate)); cbn [fst snd failed app]; intros ->; apply d_index_stop].
    cbn [fst snd app]. destruct (shift <? 0);
      [rewrite (bind_bad _ _ _ _ _ w2 [] w2 (Panic NegativeShift)) by (reflexivity || discriminate); cbn [fst snd failed app]; intros ->; apply d_index_stop|].
    rewrite (bind_ok _ _ _ _ _ w2 [] w2 tt) by reflexivity. cbn [fst snd app]. rewrite (bind_ok _ _ _ _ _ w2 _ w2 tt eq_refl). cbn [fst snd app SetCurrentState]. unfold iReading.
    intros H. apply d_index_next, IH, H.
Qed.
End deeds.

(** ** the size of the temporary file *)
Section total.
Context (o : os).
Lemma snd_bind_inv : forall (S A B : Type) (m : tio S A) (k : A -> tio S B) s s2 b, snd (tio_bind m k s) = (s2, Ok b) ->
  exists s1 a, snd (m s) = (s1, Ok a) /\ snd (k a s1) = (s2, Ok b).
Proof. intros S A B m k s s2 b E. unfold tio_bind in E. destruct (m s) as [d [s1 [a|p|]]]; cbn [snd] in *; [|discriminate E..]. do 2 eexists. split; [reflexivity|exact E]. Qed.
Lemma ranges_total : forall ranges out L c x, ni_ranges ranges out (u64 L) c = Ok x -> snd (fst x) = u64 (L + ids_in ranges).
Proof.
  induction ranges as [|[a b] r IH]; intros out L c x E; cbn [ni_ranges] in E.
  - injection E as <-. cbn. f_equal. lia.
  - cbv zeta in E. destruct (NewCountOffset _ _) as [co|p|]; cbn [bind] in E; try discriminate E. rewrite u64_sum in E. 
    replace (u64 (L + (u64 (b - a) + 1))) with (u64 (L + (b - a + 1))) in E.
    + rewrite (IH _ _ _ _ E). cbn [ids_in fold_right fst snd]. change (fold_right _ 0 r) with (ids_in r). f_equal. lia.
    + rewrite <- (u64_sum L (u64 (b - a) + 1)). replace (u64 (u64 (b - a) + 1)) with (u64 (b - a + 1)) by (rewrite <- (u64_sum (b - a) 1); reflexivity).
      symmetry. apply u64_sum.
Qed.
Lemma idx_keeps_loc : forall data w w1 r, idx_WriteSlice o data w = (w1, r) -> w_loc w1 = w_loc w.
Proof. intros data w w1 r E. unfold idx_WriteSlice in E. destruct (FWriteSlice _ _ _ _) as [[k f] x]. injection E as <- _. reflexivity. Qed.
Lemma ni_total : forall msgs w L c w' n, ni_accounted msgs -> at_end (w_loc w) -> zlen (f_data (w_loc w)) = 8 * L ->
  snd (ni_batches_told o msgs (u64 L) c w) = (w', Ok n) -> exists L', fst n = u64 L' /\ zlen (f_data (w_loc w')) = 8 * L'.
Proof.
  induction msgs as [|m msgs IH]; intros w L c w' n HA HE HL E; cbn [ni_batches_told] in E; apply snd_bind_inv in E; destruct E as (w1 & u & E1 & E); cbn [say snd] in E1; injection E1 as <- _.
  - cbn [give snd] in E. injection E as <- <-. exists L. split; [reflexivity|exact HL].
  - inversion HA as [|? ? HM HR]; subst. destruct (seqb (nm_Type m) tIndexData) eqn:T; cbn [negb] in E; [|exact (IH _ _ _ _ _ HR HE HL E)].
    destruct (nm_Batch m) as [[ranges locations]|] eqn:B; [|cbn [give snd] in E; discriminate E].
    assert (T' : nm_Type m = bytes_of "IndexData") by (unfold seqb in T; destruct (list_eq_dec _ _ _) as [Q|]; [exact Q|discriminate T]).
    specialize (HM T' ranges locations eq_refl).
    apply snd_bind_inv in E. destruct E as (w1 & u1 & E1 & E). cbn [say snd] in E1. injection E1 as <- _.
    apply snd_bind_inv in E. destruct E as (w1 & x & E1 & E). cbn [give snd] in E1. injection E1 as <- X. pose proof (ranges_total _ _ _ _ _ X) as RT.
    apply snd_bind_inv in E. destruct E as (w2 & u2 & E1 & E). cbn [act snd] in E1. apply idx_keeps_loc in E1.
    apply snd_bind_inv in E. destruct E as (w3 & u3 & E2 & E). cbn [say snd] in E2. injection E2 as <- _.
    apply snd_bind_inv in E. destruct E as (w3 & u4 & E2 & E). cbn [act snd] in E2. unfold loc_WriteSlice in E2.
    destruct (pC68_write_words o (w_k w2) (w_loc w2) locations ltac:(rewrite E1; exact HE)) as (k' & f' & r & W & A & _ & _ & D & _). rewrite W in E2. injection E2 as <- ->. destruct u4. specialize (D eq_refl).
    apply snd_bind_inv in E. destruct E as (w4 & u5 & E2 & E). cbn [say snd] in E2. injection E2 as <- _.
    rewrite RT in E. rewrite <- (u64_sum L), HM, u64_sum in E. apply (IH _ _ _ _ _ HR) in E; [exact E|exact A|]. cbn [w_loc]. rewrite D, E1, zlen_app, HL. destruct (pC70_words_to_bytes locations) as (_ & -> & _). lia.
Qed.
Lemma wi_total : forall shift, 0 <= shift -> forall msgs w L c w' n, wi_accounted shift msgs -> at_end (w_loc w) -> zlen (f_data (w_loc w)) = L * 2 ^ shift ->
  snd (wi_batches_told o shift msgs (s64 L) c w) = (w', Ok n) -> exists L', fst n = s64 L' /\ zlen (f_data (w_loc w')) = L' * 2 ^ shift.
Proof.
  intros shift HS. induction msgs as [|m msgs IH]; intros w L c w' n HA HE HL E; cbn [wi_batches_told] in E; apply snd_bind_inv in E; destruct E as (w1 & u & E1 & E); cbn [say snd] in E1; injection E1 as <- _.
  - cbn [give snd] in E. injection E as <- <-. exists L. split; [reflexivity|exact HL].
  - inversion HA as [|? ? HM HR]; subst. destruct (seqb (wm_Type m) tWayIndexData) eqn:T; cbn [negb] in E; [|exact (IH _ _ _ _ _ HR HE HL E)].
    destruct (wm_Batch m) as [[blocks locations]|] eqn:B; [|cbn [give snd] in E; discriminate E].
    assert (T' : wm_Type m = bytes_of "IndexData") by (unfold seqb in T; destruct (list_eq_dec _ _ _) as [Q|]; [exact Q|discriminate T]).
    specialize (HM T' blocks locations eq_refl).
    apply snd_bind_inv in E. destruct E as (w1 & u1 & E1 & E). cbn [say snd] in E1. injection E1 as <- _.
    apply snd_bind_inv in E. destruct E as (w1 & x & E1 & E). cbn [give snd] in E1. injection E1 as <- X.
    apply snd_bind_inv in E. destruct E as (w2 & u2 & E1 & E). cbn [act snd] in E1. apply idx_keeps_loc in E1.
    apply snd_bind_inv in E. destruct E as (w3 & u4 & E2 & E). cbn [act snd] in E2. unfold loc_Write in E2.
    destruct (pC68_write o (w_k w2) (w_loc w2) locations ltac:(rewrite E1; exact HE)) as (k' & f' & r & W & A & _ & _ & D & _). rewrite W in E2. injection E2 as <- ->. destruct u4. specialize (D eq_refl).
    apply snd_bind_inv in E. destruct E as (w4 & u5 & E2 & E). cbn [give snd] in E2. injection E2 as <- _.
    apply snd_bind_inv in E. destruct E as (w4 & u6 & E2 & E). cbn [say snd] in E2. injection E2 as <- _.
    destruct HM as [q HM]. rewrite HM, Z.shiftr_div_pow2, Z.div_mul in E by lia.
    rewrite s64_add_l in E.
    apply (IH _ _ _ _ _ HR) in E; [exact E|exact A|]. cbn [w_loc]. rewrite D, E1, zlen_app, HL, HM. lia.
Qed.
End total.
