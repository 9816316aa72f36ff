(** * SlThms: C102, the status lines of the workers. *)
From Verif Require Import Base PbModel TModel HLModel FrModel ZlModel IoModel NiModel WiModel RiModel RwModel TfModel TrModel TmModel PgModel SlModel SlSpec NiThms.
From Verif Require Import SlProofs.

Definition on_always (s : status) : bool := true.
Definition on_state (s : status) : bool := negb (s CState =? 0).
Definition v_block (s : status) : Z := s CBlock.

Ltac split_all := repeat match goal with |- _ /\ _ => split end.

(** ** the decompressor *)
Definition dc_phase (s : status) : string :=
  let s := s CState in
  if s =? 0 then waiting_word else if s =? 1 then dc_word (Decoding 0) else if s =? 2 then dc_word (Decompressing 0)
  else if s =? 3 then dc_word (Encoding 0) else if s =? 4 then dc_word (Sending 0) else ""%string.

(** after the phase word [v] was shown by the record and begun *)
Definition at_phase (k : Z) (v : string) : pre := fun begun s last => s CState = k /\ last = Some v.
Definition at_block (k b : Z) : pre := fun begun s last => s CState = k /\ s CBlock = b /\ last = Some b.
Definition idle_phase : pre (B := string) := fun begun s last => s CState = 0.
Definition idle_block : pre := fun begun s last => s CState = 0 /\ (begun = true -> last = Some (s CBlock)).

Ltac tells H K := apply keeps_tell; intros begun s last rest H K;
  unfold sendBlock, SetDecodingBlob, SetStateDecodeBlock, rwSetStateDecoding, tfSetStateDecoding, SetCurrentState, SetStateWorking, NextWay, AddKept, AddDropped in *;
  cbn [app tracks told_of first_some next_last number f_word];
  unfold at_phase, at_block, idle_phase, idle_block in *.
Ltac phase_leaf ph H :=
  first [ exact I
        | let w := fresh "w" in let v := fresh "v" in let E := fresh "E" in let F := fresh "F" in
          intros w v E F; first [discriminate E | injection E as <-; injection F as <-; unfold ph; cbn [perform cell_eqb]; first [reflexivity | rewrite (proj1 H); reflexivity | rewrite H; reflexivity]]
        | let X := fresh "X" in intros X; first
            [ right; unfold ph; cbn [perform cell_eqb]; first [reflexivity | rewrite (proj1 H); reflexivity | rewrite H; reflexivity]
            | left; unfold ph; cbn [perform cell_eqb]; first [reflexivity | rewrite (proj1 H), (proj2 H); reflexivity | rewrite (proj2 H); reflexivity] ] ].


(** one [tell], after which the word shown is [v] *)
Ltac p_tell ph k v :=
  refine (keeps_bind _ _ _ _ _ _ (fun _ => at_phase k v) _ _ _ _ _);
  [ let H := fresh "H" in let K := fresh "K" in tells H K; split_all; try (phase_leaf ph H); apply K; cbn [perform cell_eqb]; split; reflexivity
  | intros _ _ ].
Ltac p_silent ph k v x :=
  refine (keeps_bind _ _ _ _ _ _ (fun _ => at_phase k v) _ _ _ _ _);
  [ apply keeps_silent; [let H := fresh "H" in let L := fresh "L" in intros ? ? ? [H L] _; unfold ph; rewrite H, L; reflexivity | auto]
  | intros x _ ].
Ltac p_last ph :=
  refine (keeps_bind _ _ _ _ _ _ (fun _ => idle_phase) _ _ _ _ _);
  [ let H := fresh "H" in let K := fresh "K" in tells H K; split_all; try (phase_leaf ph H); apply K; cbn [perform cell_eqb]; reflexivity
  | intros _ _; apply keeps_ok; auto ].

(** the same for numbers *)
Ltac num_leaf H :=
  first [ exact I
        | let w := fresh "w" in let v := fresh "v" in let E := fresh "E" in let F := fresh "F" in
          intros w v E F; first [discriminate E | injection E as <-; first [discriminate F | injection F as <-; unfold v_block; cbn [perform cell_eqb]; first [reflexivity | apply H]]]
        | let X := fresh "X" in intros X; unfold v_block; cbn [perform cell_eqb] in *; first
            [ right; first [reflexivity | destruct H as (_ & -> & _); reflexivity]
            | left; first [reflexivity | destruct H as (_ & -> & H); first [exact H | reflexivity]] 
            | unfold on_state in X; rewrite (proj1 H) in X; cbn in X; rewrite ?orb_false_r in X; left; exact (proj2 H X) ] ].
Ltac n_tell k b :=
  refine (keeps_bind _ _ _ _ _ _ (fun _ => at_block k b) _ _ _ _ _);
  [ let H := fresh "H" in let K := fresh "K" in tells H K; split_all; try (num_leaf H); apply K; cbn [perform cell_eqb];
    (split; [reflexivity|split; [first [reflexivity | apply H]|first [reflexivity | apply H]]])
  | intros _ _ ].
Ltac n_silent k b x :=
  refine (keeps_bind _ _ _ _ _ _ (fun _ => at_block k b) _ _ _ _ _);
  [ apply keeps_silent; [let H := fresh "H" in let L := fresh "L" in intros ? ? ? (_ & H & L) _; unfold v_block; rewrite H, L; reflexivity | auto]
  | intros x _ ].
Ltac n_last :=
  refine (keeps_bind _ _ _ _ _ _ (fun _ => idle_block) _ _ _ _ _);
  [ let H := fresh "H" in let K := fresh "K" in tells H K; split_all; try (num_leaf H); apply K; cbn [perform cell_eqb]; split; [reflexivity|intros _; destruct H as (_ & -> & H); first [exact H|reflexivity]]
  | intros _ _; apply keeps_ok; auto ].

Lemma dc_phases : forall env obh, keeps (f_word dc_word) dc_phase on_always (at_phase 0 waiting_word) (dc_told env obh) (fun _ => idle_phase).
Proof.
  intros env obh. unfold dc_told. cbv zeta.
  p_tell dc_phase 1 (dc_word (Decoding 0)). p_silent dc_phase 1 (dc_word (Decoding 0)) b.
  p_tell dc_phase 2 (dc_word (Decompressing 0)). p_silent dc_phase 2 (dc_word (Decompressing 0)) r.
  p_tell dc_phase 3 (dc_word (Encoding 0)). p_silent dc_phase 3 (dc_word (Encoding 0)) bb. p_silent dc_phase 3 (dc_word (Encoding 0)) out.
  p_last dc_phase.
Qed.
Lemma dc_numbers : forall env obh, keeps number v_block on_state idle_block (dc_told env obh) (fun _ => idle_block).
Proof.
  intros env obh. unfold dc_told. cbv zeta.
  n_tell 1 (blk_Index obh). n_silent 1 (blk_Index obh) b.
  n_tell 2 (blk_Index obh). n_silent 2 (blk_Index obh) r.
  n_tell 3 (blk_Index obh). n_silent 3 (blk_Index obh) bb. n_silent 3 (blk_Index obh) out.
  n_last.
Qed.

Lemma wait_phase : forall word ph, word Waiting = waiting_word -> (forall s, s CState = 0 -> ph s = waiting_word) ->
  keeps (f_word word) ph on_always idle_phase (tell [Doing Waiting]) (fun _ => at_phase 0 waiting_word).
Proof.
  intros word ph W Z. tells H K. rewrite W. split_all; [intros _; right; f_equal; symmetry; apply Z, H| |apply K; split; [exact H|reflexivity]].
  intros w v E F. injection E as <-. injection F as <-. rewrite W. apply Z, H.
Qed.
Lemma wait_number : keeps number v_block on_state idle_block (tell [Doing Waiting]) (fun _ => idle_block).
Proof.
  tells H K. split_all; try (num_leaf H). apply K. cbn [perform]. split; [exact (proj1 H)|]. intros X. unfold on_state in X. rewrite (proj1 H) in X. cbn in X.
  rewrite orb_false_r in X. exact (proj2 H X).
Qed.
Lemma idle_settled : settled v_block on_state idle_block.
Proof. intros b s l [H K] X. unfold on_state in X. rewrite H in X. cbn in X. rewrite orb_false_r in X. exact (K X). Qed.
Lemma waiting_settled : forall ph, (forall s, s CState = 0 -> ph s = waiting_word) -> settled ph on_always (at_phase 0 waiting_word).
Proof. intros ph Z b s l [H ->] _. rewrite (Z s H). reflexivity. Qed.

Lemma worker_phase : forall X Y word ph (g : X -> told Y) l, word Waiting = waiting_word -> (forall s, s CState = 0 -> ph s = waiting_word) ->
  (forall x, keeps (f_word word) ph on_always (at_phase 0 waiting_word) (g x) (fun _ => idle_phase)) ->
  tracks (f_word word) ph on_always false status0 None (fst (serve g l)).
Proof.
  intros X Y word ph g l W Z G. apply (keeps_tracks _ _ _ _ idle_phase (at_phase 0 waiting_word)).
  - apply (keeps_serve _ _ _ X Y g idle_phase (at_phase 0 waiting_word) l); [apply wait_phase; assumption|]. intros x _. apply G.
  - reflexivity.
  - apply waiting_settled, Z.
Qed.
Lemma worker_number : forall X Y (g : X -> told Y) l, (forall x, keeps number v_block on_state idle_block (g x) (fun _ => idle_block)) ->
  tracks number v_block on_state false status0 None (fst (serve g l)).
Proof.
  intros X Y g l G. apply (keeps_tracks _ _ _ _ idle_block idle_block).
  - apply (keeps_serve _ _ _ X Y g idle_block idle_block l); [apply wait_number|]. intros x _. apply G.
  - split; [reflexivity|discriminate].
  - apply idle_settled.
Qed.

(** ** the index tools *)
Definition ix_phase (s : status) : string :=
  let s := s CState in
  if s =? 0 then waiting_word else if s =? 1 then ix_word (Decoding 0) else if s =? 2 then ix_word (Processing 0)
  else if s =? 3 then ix_word (Sending 0) else ""%string.
Ltac p_pass ph :=
  refine (keeps_bind _ _ _ _ _ _ (fun _ => idle_phase) _ _ _ _ _);
  [ let H := fresh "H" in let K := fresh "K" in tells H K; split_all; try (phase_leaf ph H); apply K; cbn [perform cell_eqb]; first [apply H | reflexivity]
  | intros _ _; apply keeps_ok; auto ].
Ltac n_pass :=
  refine (keeps_bind _ _ _ _ _ _ (fun _ => idle_block) _ _ _ _ _);
  [ let H := fresh "H" in let K := fresh "K" in tells H K; split_all; try (num_leaf H); apply K; cbn [perform cell_eqb]; split; [first [reflexivity | apply H]|];
    let X := fresh "X" in intros X; unfold on_state in X; cbn [perform cell_eqb] in X; rewrite (proj1 H) in X; cbn in X; rewrite ?orb_false_r in X; exact (proj2 H X)
  | intros _ _; apply keeps_ok; auto ].
Lemma ix_phases : forall X M reader (process : PrimitiveBlock -> res X) (msg : X -> M) pass env data,
  keeps (f_word ix_word) ix_phase on_always (at_phase 0 waiting_word) (ix_told reader process msg pass env data) (fun _ => idle_phase).
Proof.
  intros X M reader process msg pass env data. unfold ix_told. cbv zeta. destruct (negb (seqb (blk_Type data) tOSMData)).
  - p_pass ix_phase.
  - p_tell ix_phase 1 (ix_word (Decoding 0)). p_silent ix_phase 1 (ix_word (Decoding 0)) b. p_silent ix_phase 1 (ix_word (Decoding 0)) raw.
    p_silent ix_phase 1 (ix_word (Decoding 0)) pb. p_tell ix_phase 2 (ix_word (Processing 0)). p_silent ix_phase 2 (ix_word (Processing 0)) x.
    p_last ix_phase.
Qed.
Lemma ix_numbers : forall X M reader (process : PrimitiveBlock -> res X) (msg : X -> M) pass env data,
  keeps number v_block on_state idle_block (ix_told reader process msg pass env data) (fun _ => idle_block).
Proof.
  intros X M reader process msg pass env data. unfold ix_told. cbv zeta. destruct (negb (seqb (blk_Type data) tOSMData)).
  - n_pass.
  - n_tell 1 (blk_Index data). n_silent 1 (blk_Index data) b. n_silent 1 (blk_Index data) raw. n_silent 1 (blk_Index data) pb.
    n_tell 2 (blk_Index data). n_silent 2 (blk_Index data) x. n_last.
Qed.

(** ** the rewriter *)
Definition rw_phase (s : status) : string :=
  let s := s CState in
  if s =? 0 then waiting_word else if s =? 1 then rw_word (Decoding 0) else if s =? 2 then rw_word (Rewriting 0 0 0)
  else if s =? 3 then rw_word (Sending 0) else ""%string.
Lemma rw_ways_phases : forall ix fp b n ways hint i,
  keeps (f_word rw_word) rw_phase on_always (at_phase 2 (rw_word (Rewriting 0 0 0))) (rw_ways_told ix fp b n ways hint i) (fun _ => at_phase 2 (rw_word (Rewriting 0 0 0))).
Proof.
  intros ix fp b n ways. induction ways as [|w r IH]; intros hint i; cbn [rw_ways_told].
  - apply keeps_ok. auto.
  - refine (keeps_bind _ _ _ _ _ _ (fun _ => at_phase 2 (rw_word (Rewriting 0 0 0))) _ _ _ _ _).
    { tells H K. split_all; try (phase_leaf rw_phase H). apply K. cbn [perform cell_eqb]. split; [apply H|reflexivity]. }
    intros _ _. p_silent rw_phase 2 (rw_word (Rewriting 0 0 0)) x. destruct x as [refs h].
    refine (keeps_bind _ _ _ _ _ _ (fun _ => at_phase 2 (rw_word (Rewriting 0 0 0))) _ _ _ (IH _ _) _).
    intros [[o h'] i'] _. apply keeps_ok. auto.
Qed.
Lemma rw_groups_phases : forall ix fp b n gs hint i,
  keeps (f_word rw_word) rw_phase on_always (at_phase 2 (rw_word (Rewriting 0 0 0))) (rw_groups_told ix fp b n gs hint i) (fun _ => at_phase 2 (rw_word (Rewriting 0 0 0))).
Proof.
  intros ix fp b n gs. induction gs as [|g r IH]; intros hint i; cbn [rw_groups_told].
  - apply keeps_ok. auto.
  - refine (keeps_bind _ _ _ _ _ _ (fun _ => at_phase 2 (rw_word (Rewriting 0 0 0))) _ _ _ _ _).
    { destruct (pg_Ways g) as [ws|]; [|apply keeps_ok; auto].
      refine (keeps_bind _ _ _ _ _ _ (fun _ => at_phase 2 (rw_word (Rewriting 0 0 0))) _ _ _ (rw_ways_phases _ _ _ _ _ _ _) _). intros [[o h'] i'] _. apply keeps_ok. auto. }
    intros [[ws h] i1] _. refine (keeps_bind _ _ _ _ _ _ (fun _ => at_phase 2 (rw_word (Rewriting 0 0 0))) _ _ _ (IH _ _) _).
    intros [[o h'] i'] _. apply keeps_ok. auto.
Qed.
Lemma rw_phases : forall env ix fp data,
  keeps (f_word rw_word) rw_phase on_always (at_phase 0 waiting_word) (rw_told env ix fp data) (fun _ => idle_phase).
Proof.
  intros env ix fp data. unfold rw_told. cbv zeta. destruct (negb (seqb (blk_Type data) tOSMData)).
  - p_pass rw_phase.
  - p_tell rw_phase 1 (rw_word (Decoding 0)). p_silent rw_phase 1 (rw_word (Decoding 0)) b. p_silent rw_phase 1 (rw_word (Decoding 0)) raw.
    p_silent rw_phase 1 (rw_word (Decoding 0)) pb. destruct (count_ways (pblk_PrimitiveGroup pb) =? 0).
    + p_last rw_phase.
    + p_tell rw_phase 2 (rw_word (Rewriting 0 0 0)).
      refine (keeps_bind _ _ _ _ _ _ (fun _ => at_phase 2 (rw_word (Rewriting 0 0 0))) _ _ _ (rw_groups_phases _ _ _ _ _ _ _) _). intros [[gs h] i'] _.
      p_tell rw_phase 3 (rw_word (Sending 0)). p_silent rw_phase 3 (rw_word (Sending 0)) out. p_last rw_phase.
Qed.
Lemma rw_ways_numbers : forall ix fp b n ways hint i,
  keeps number v_block on_state (at_block 2 b) (rw_ways_told ix fp b n ways hint i) (fun _ => at_block 2 b).
Proof.
  intros ix fp b n ways. induction ways as [|w r IH]; intros hint i; cbn [rw_ways_told].
  - apply keeps_ok. auto.
  - refine (keeps_bind _ _ _ _ _ _ (fun _ => at_block 2 b) _ _ _ _ _).
    { tells H K. split_all; try (num_leaf H). apply K. cbn [perform cell_eqb]. split; [apply H|split; [apply H|reflexivity]]. }
    intros _ _. n_silent 2 b x. destruct x as [refs h].
    refine (keeps_bind _ _ _ _ _ _ (fun _ => at_block 2 b) _ _ _ (IH _ _) _).
    intros [[o h'] i'] _. apply keeps_ok. auto.
Qed.
Lemma rw_groups_numbers : forall ix fp b n gs hint i,
  keeps number v_block on_state (at_block 2 b) (rw_groups_told ix fp b n gs hint i) (fun _ => at_block 2 b).
Proof.
  intros ix fp b n gs. induction gs as [|g r IH]; intros hint i; cbn [rw_groups_told].
  - apply keeps_ok. auto.
  - refine (keeps_bind _ _ _ _ _ _ (fun _ => at_block 2 b) _ _ _ _ _).
    { destruct (pg_Ways g) as [ws|]; [|apply keeps_ok; auto].
      refine (keeps_bind _ _ _ _ _ _ (fun _ => at_block 2 b) _ _ _ (rw_ways_numbers _ _ _ _ _ _ _) _). intros [[o h'] i'] _. apply keeps_ok. auto. }
    intros [[ws h] i1] _. refine (keeps_bind _ _ _ _ _ _ (fun _ => at_block 2 b) _ _ _ (IH _ _) _).
    intros [[o h'] i'] _. apply keeps_ok. auto.
Qed.
Lemma rw_numbers : forall env ix fp data, keeps number v_block on_state idle_block (rw_told env ix fp data) (fun _ => idle_block).
Proof.
  intros env ix fp data. unfold rw_told. cbv zeta. destruct (negb (seqb (blk_Type data) tOSMData)).
  - n_pass.
  - n_tell 1 (blk_Index data). n_silent 1 (blk_Index data) b. n_silent 1 (blk_Index data) raw. n_silent 1 (blk_Index data) pb.
    destruct (count_ways (pblk_PrimitiveGroup pb) =? 0).
    + n_last.
    + n_tell 2 (blk_Index data).
      refine (keeps_bind _ _ _ _ _ _ (fun _ => at_block 2 (blk_Index data)) _ _ _ (rw_groups_numbers _ _ _ _ _ _ _) _). intros [[gs h] i'] _.
      n_tell 3 (blk_Index data). n_silent 3 (blk_Index data) out. n_last.
Qed.

(** ** the tag filter *)
Definition tf_phase (s : status) : string :=
  let s := s CState in
  if s =? 0 then waiting_word else if s =? 1 then tf_word (Decoding 0) else if s =? 2 then tf_word (Processing 0)
  else if s =? 3 then tf_word (Encoding 0) else if s =? 4 then tf_word (Sending 0) else ""%string.
Lemma tf_phases : forall env pending data,
  keeps (f_word tf_word) tf_phase on_always (at_phase 0 waiting_word) (tf_told env pending data) (fun _ => idle_phase).
Proof.
  intros env pending data. unfold tf_told. cbv zeta. destruct (negb (seqb (blk_Type data) tOSMData)).
  - p_last tf_phase.
  - p_tell tf_phase 1 (tf_word (Decoding 0)). p_silent tf_phase 1 (tf_word (Decoding 0)) b. p_silent tf_phase 1 (tf_word (Decoding 0)) raw.
    p_silent tf_phase 1 (tf_word (Decoding 0)) pb. p_tell tf_phase 2 (tf_word (Processing 0)).
    p_silent tf_phase 2 (tf_word (Processing 0)) nodes. p_silent tf_phase 2 (tf_word (Processing 0)) ws. p_silent tf_phase 2 (tf_word (Processing 0)) rs.
    refine (keeps_bind _ _ _ _ _ _ (fun _ => at_phase 2 (tf_word (Processing 0))) _ _ _ _ _).
    { tells H K. split_all; try (phase_leaf tf_phase H). apply K. cbn [perform cell_eqb]. split; apply H. }
    intros _ _. destruct (_ || _ || _).
    + p_silent tf_phase 2 (tf_word (Processing 0)) pbOut. p_tell tf_phase 3 (tf_word (Encoding 0)). p_silent tf_phase 3 (tf_word (Encoding 0)) out.
      p_last tf_phase.
    + p_last tf_phase.
Qed.
(** here a block may be sent on before any was begun: until then the number is 0 *)
Definition idle_tf : pre := fun begun s last => last = Some (s CBlock).
Lemma tf_numbers : forall env pending data, keeps number v_block on_always idle_tf (tf_told env pending data) (fun _ => idle_tf).
Proof.
  intros env pending data. unfold tf_told. cbv zeta. destruct (negb (seqb (blk_Type data) tOSMData)).
  - refine (keeps_bind _ _ _ _ _ _ (fun _ => idle_tf) _ _ _ _ _).
    { tells H K. unfold idle_tf in *. unfold v_block in *. cbn [perform cell_eqb]. split_all; try (intros _; left; exact H); try (intros w v E F; discriminate E || (injection E as <-; discriminate F)). apply K. exact H. }
    intros _ _. apply keeps_ok. auto.
  - refine (keeps_bind _ _ _ _ _ _ (fun _ => at_block 1 (blk_Index data)) _ _ _ _ _).
    { tells H K. unfold idle_tf in *. split_all; try (intros _; left; exact H); try (num_leaf H). apply K. cbn [perform cell_eqb]. split; [reflexivity|split; reflexivity]. }
    intros _ _. n_silent 1 (blk_Index data) b. n_silent 1 (blk_Index data) raw.
    n_silent 1 (blk_Index data) pb. n_tell 2 (blk_Index data).
    n_silent 2 (blk_Index data) nodes. n_silent 2 (blk_Index data) ws. n_silent 2 (blk_Index data) rs.
    refine (keeps_bind _ _ _ _ _ _ (fun _ => at_block 2 (blk_Index data)) _ _ _ _ _).
    { tells H K. split_all; try (num_leaf H). apply K. cbn [perform cell_eqb]. split; [apply H|split; apply H]. }
    intros _ _.
    destruct (_ || _ || _).
    + n_silent 2 (blk_Index data) pbOut. n_tell 3 (blk_Index data). n_silent 3 (blk_Index data) out.
      refine (keeps_bind _ _ _ _ _ _ (fun _ => idle_tf) _ _ _ _ _).
      { tells H K. split_all; try (num_leaf H). apply K. unfold idle_tf. cbn [perform cell_eqb]. destruct H as (_ & -> & _). reflexivity. }
      intros _ _. apply keeps_ok. auto.
    + refine (keeps_bind _ _ _ _ _ _ (fun _ => idle_tf) _ _ _ _ _).
      { tells H K. split_all; try (num_leaf H). apply K. unfold idle_tf. cbn [perform cell_eqb]. destruct H as (_ & -> & _). reflexivity. }
      intros _ _. apply keeps_ok. auto.
Qed.

(** ** lines of a word and a number *)
Lemma doing_le : forall ds n w, doing ds n w -> (n <= List.length ds)%nat.
Proof. intros ds n w (b & a & -> & ->). rewrite app_length. cbn. lia. Qed.
Lemma simple_lines_by : forall wait ds (word : work -> string) (ph : Z -> string) (k : Z -> update),
  tracks (f_word word) (fun s => ph (s CState)) on_always false status0 None ds ->
  tracks number v_block on_state false status0 None ds ->
  (forall s, (ph s = wait <-> s = 0) /\ (s = 0 -> k s = Show (Text (bytes_of wait))) /\
    (s <> 0 -> ph s <> ""%string -> k s = Load CBlock (fun b => Show (Text (bytes_of (ph s) ++ d_ b))))) ->
  (forall w, word w <> ""%string) -> (forall w, word w <> wait -> number w <> None) ->
  (forall n w l, doing ds n w -> (look ds n (Load CState k) n l <-> l = Text (said_by wait word w))) /\
  (forall m m' l, look ds m (Load CState k) m' l -> exists i j v, (m <= i <= j)%nat /\ (j <= m')%nat /\ about (f_word word) ds i v /\
    (v = wait /\ l = Text (bytes_of v) \/ exists b, v <> wait /\ about number ds j b /\ l = Text (bytes_of v ++ shown_number b))).
Proof.
  intros wait ds word ph k TP TN K NE NN. split.
  - intros n w l D.
    pose proof (tracks_doing _ _ _ ds n w (word w) TP D eq_refl) as P. cbv beta in P.
    destruct (K (status_at ds n CState)) as (K0 & K1 & K2). rewrite P in *.
    destruct (Z.eq_dec (status_at ds n CState) 0) as [E0|E0].
    + assert (Q : look ds n (k (status_at ds n CState)) n (Text (said_by wait word w))).
      { rewrite (K1 E0). unfold said_by. rewrite (proj2 K0 E0). rewrite String.eqb_refl, app_nil_r. apply look_show. }
      split.
      * intros L. apply look_load_inv in L. destruct L as (n' & Ln & L). assert (n' = n) as -> by (pose proof (look_le _ _ _ _ _ L); lia).
        rewrite (K1 E0) in L, Q. apply look_show_inv in L. apply look_show_inv in Q. destruct L as [_ ->]. destruct Q as [_ Q]. rewrite Q. reflexivity.
      * intros ->. apply (look_load ds n n n CState k); [pose proof (doing_le _ _ _ D); lia|exact Q].
    + specialize (K2 E0 (NE w)). assert (W : word w <> wait) by (intros X; apply E0, K0, X).
      destruct (number w) as [b|] eqn:B; [|exfalso; exact (NN w W B)].
      pose proof (tracks_doing _ _ _ ds n w b TN D B) as PB. unfold v_block in PB.
      assert (S : said_by wait word w = bytes_of (word w) ++ d_ b).
      { unfold said_by. destruct (String.eqb_spec (word w) wait) as [X|_]; [contradiction|]. rewrite B. reflexivity. }
      split.
      * intros L. apply look_load_inv in L. destruct L as (n' & Ln & L). assert (n' = n) as -> by (pose proof (look_le _ _ _ _ _ L); lia).
        rewrite K2 in L. apply look_load_inv in L. destruct L as (n' & Ln' & L). apply look_show_inv in L. destruct L as [-> ->]. rewrite S, PB. reflexivity.
      * intros ->. apply (look_load ds n n n CState k); [pose proof (doing_le _ _ _ D); lia|]. rewrite K2.
        apply (look_load ds n n n CBlock); [pose proof (doing_le _ _ _ D); lia|]. rewrite PB, S. apply look_show.
  - intros m m' l L. apply look_load_inv in L. destruct L as (i & Li & L).
    assert (A : about (f_word word) ds i (ph (status_at ds i CState))).
    { apply (tracks_about _ _ _ ds i TP); [lia|]. exists i. split; [lia|reflexivity]. }
    destruct (K (status_at ds i CState)) as (K0 & K1 & K2).
    assert (N0 : ph (status_at ds i CState) <> ""%string).
    { assert (Z0 : forall l0, ~ In ""%string (told_of (f_word word) l0)).
      { induction l0 as [|d l0 IH]; cbn; [tauto|]. destruct d; cbn; try exact IH. intros [X|X]; [exact (NE _ X)|exact (IH X)]. }
      destruct A as [A|A]; intros E; rewrite E in A.
      - destruct (rev (told_of (f_word word) (firstn i ds))) as [|x r] eqn:R; cbn in A; [discriminate A|]. injection A as ->.
        apply (Z0 (firstn i ds)). apply in_rev. rewrite R. left; reflexivity.
      - destruct (told_of (f_word word) (skipn i ds)) as [|x r] eqn:R; cbn in A; [discriminate A|]. injection A as ->.
        apply (Z0 (skipn i ds)). rewrite R. left; reflexivity. }
    destruct (Z.eq_dec (status_at ds i CState) 0) as [E0|E0].
    + rewrite (K1 E0) in L. apply look_show_inv in L. destruct L as [-> ->].
      exists i, i, wait. split; [lia|]. split; [lia|]. rewrite (proj2 K0 E0) in A. split; [exact A|]. left. split; reflexivity.
    + rewrite (K2 E0 N0) in L. apply look_load_inv in L. destruct L as (j & Lj & L). apply look_show_inv in L. destruct L as [-> ->].
      exists i, j, (ph (status_at ds i CState)). split; [lia|]. split; [lia|]. split; [exact A|]. right. exists (status_at ds j CBlock).
      split; [intros X; apply E0, K0, X|]. split; [|reflexivity].
      apply (tracks_about _ v_block _ ds j TN); [lia|]. exists i. split; [lia|]. unfold on_state. rewrite (proj2 (Z.eqb_neq _ _) E0). reflexivity.
Qed.
Lemma simple_lines : forall ds (word : work -> string) (ph : Z -> string) (k : Z -> update),
  tracks (f_word word) (fun s => ph (s CState)) on_always false status0 None ds ->
  tracks number v_block on_state false status0 None ds ->
  (forall s, (ph s = waiting_word <-> s = 0) /\ (s = 0 -> k s = Show (Text (bytes_of waiting_word))) /\
    (s <> 0 -> ph s <> ""%string -> k s = Load CBlock (fun b => Show (Text (bytes_of (ph s) ++ d_ b))))) ->
  (forall w, word w <> ""%string) -> (forall w, word w <> waiting_word -> number w <> None) ->
  (forall n w l, doing ds n w -> (look ds n (Load CState k) n l <-> l = Text (said word w))) /\
  (forall m m' l, look ds m (Load CState k) m' l -> exists i j v, (m <= i <= j)%nat /\ (j <= m')%nat /\ about (f_word word) ds i v /\
    (v = waiting_word /\ l = Text (bytes_of v) \/ exists b, v <> waiting_word /\ about number ds j b /\ l = Text (bytes_of v ++ shown_number b))).
Proof. exact (simple_lines_by waiting_word). Qed.

Ltac widget_cases s :=
  repeat match goal with |- context [?a =? ?b] => destruct (Z.eqb_spec a b) end; try subst s; repeat split; intros; try congruence; try discriminate; try contradiction; reflexivity.
Definition dc_ph (s : Z) : string :=
  if s =? 0 then waiting_word else if s =? 1 then dc_word (Decoding 0) else if s =? 2 then dc_word (Decompressing 0)
  else if s =? 3 then dc_word (Encoding 0) else if s =? 4 then dc_word (Sending 0) else ""%string.
Definition ix_ph (s : Z) : string :=
  if s =? 0 then waiting_word else if s =? 1 then ix_word (Decoding 0) else if s =? 2 then ix_word (Processing 0)
  else if s =? 3 then ix_word (Sending 0) else ""%string.
Lemma dc_word_ok : forall w, dc_word w <> ""%string. Proof. destruct w; discriminate. Qed.
Lemma ix_word_ok : forall w, ix_word w <> ""%string. Proof. destruct w; discriminate. Qed.

(** C102.  The line about a worker of the decompressor, for all blocks it is given.  If it is made while the worker is doing something (and does not
    get on with it), it says what the worker is doing, and with which block.  In any case, the words are those for what the worker was doing
    or about to do when the line was begun, and the number that of the block that was at work, or about to be, at some later moment before the
    line was done. *)
Lemma pC102_decompress : forall inBlocks, let ds := fst (dc_worker_told inBlocks) in
  (forall n w l, doing ds n w -> (look ds n dc_worker_widget n l <-> l = Text (said dc_word w))) /\
  (forall m m' l, look ds m dc_worker_widget m' l -> exists i j v, (m <= i <= j)%nat /\ (j <= m')%nat /\ about (f_word dc_word) ds i v /\
    (v = waiting_word /\ l = Text (bytes_of v) \/ exists b, v <> waiting_word /\ about number ds j b /\ l = Text (bytes_of v ++ shown_number b))).
Proof.
  intros inBlocks ds. apply (simple_lines ds dc_word dc_ph).
  - apply (worker_phase _ _ dc_word dc_phase); [reflexivity|intros s H; unfold dc_phase; rewrite H; reflexivity|]. intros x. apply dc_phases.
  - apply worker_number. intros x. apply dc_numbers.
  - intros s. unfold dc_ph, dcReceivingBlock, dcDecodingBlob, dcDecompressingBlob, dcEncodingBlob, dcSendingBlock. widget_cases s.
  - apply dc_word_ok.
  - destruct w; cbn; discriminate || (intros X; exfalso; apply X; reflexivity).
Qed.

Lemma serve_head : forall X Y (g : X -> told Y) l, exists r, fst (serve g l) = Doing Waiting :: r.
Proof. intros X Y g [|x l]; cbn; eexists; reflexivity. Qed.
Lemma ix_worker_fst : forall M (round : zenv -> Block -> told M) l,
  fst (ix_worker_told round l) = Store CState 0 :: fst (serve (fun x => round (fst x) (snd x)) l).
Proof. intros M round l. unfold ix_worker_told. cbn [tbind tell fst snd SetCurrentState app]. reflexivity. Qed.
(** the record is not read differently after the first store *)
Lemma tracks_ext : forall B (f : work -> option B) view on ds begun s s' last,
  (forall t t', (forall c, t c = t' c) -> view t = view t' /\ on t = on t') -> (forall c, s c = s' c) ->
  tracks f view on begun s last ds -> tracks f view on begun s' last ds.
Proof.
  intros B f view on ds. induction ds as [|d ds IH]; intros begun s s' last V E T; cbn [tracks] in *; destruct (V s s' E) as [<- <-].
  - exact T.
  - destruct T as [T0 [T1 T2]]. split; [exact T0|]. split; [exact T1|]. apply (IH _ (perform s d) (perform s' d) _ V); [|exact T2].
    intros c. destruct d as [x v|x v|w]; cbn [perform]; [destruct (cell_eqb c x); [reflexivity|apply E]|rewrite (E x); destruct (cell_eqb c x); [reflexivity|apply E]|apply E].
Qed.
Lemma ix_worker_phase : forall M (round : zenv -> Block -> told M) l,
  (forall e b, keeps (f_word ix_word) ix_phase on_always (at_phase 0 waiting_word) (round e b) (fun _ => idle_phase)) ->
  tracks (f_word ix_word) ix_phase on_always false status0 None (fst (ix_worker_told round l)).
Proof.
  intros M round l G. rewrite ix_worker_fst. set (g := fun x : zenv * Block => round (fst x) (snd x)).
  assert (T : tracks (f_word ix_word) ix_phase on_always false status0 None (fst (serve g l))).
  { apply (worker_phase _ _ ix_word ix_phase); [reflexivity|intros s H; unfold ix_phase; rewrite H; reflexivity|]. intros x. apply G. }
  destruct (serve_head _ _ g l) as [r R]. rewrite R in *. cbn [tracks told_of first_some f_word] in *. split; [intros _; right; reflexivity|].
  split; [discriminate|]. split; [intros _; right; reflexivity|]. split; [intros w v X; injection X as <-; intros X; injection X as <-; reflexivity|].
  destruct T as (_ & _ & T). apply (tracks_ext _ _ _ _ r _ (perform status0 (Doing Waiting))); [|intros c; cbn; destruct c; reflexivity|exact T].
  intros t t' E. unfold ix_phase, on_always. rewrite (E CState). split; reflexivity.
Qed.
Lemma ix_worker_number : forall M (round : zenv -> Block -> told M) l,
  (forall e b, keeps number v_block on_state idle_block (round e b) (fun _ => idle_block)) ->
  tracks number v_block on_state false status0 None (fst (ix_worker_told round l)).
Proof.
  intros M round l G. rewrite ix_worker_fst. set (g := fun x : zenv * Block => round (fst x) (snd x)).
  assert (T : tracks number v_block on_state false status0 None (fst (serve g l))) by (apply worker_number; intros x; apply G).
  cbn [tracks]. split; [intros X; discriminate X|]. split; [discriminate|].
  apply (tracks_ext _ _ _ _ _ _ status0); [|intros c; cbn; destruct c; reflexivity|exact T].
  intros t t' E. unfold v_block, on_state. rewrite (E CState), (E CBlock). split; reflexivity.
Qed.

(** C102, partial.  The same for the workers of the node index, way index and relation index tools.  Missing: while a worker sends on a block that
    is not OSMData its line says that it is waiting (see C102_passing_refuted). *)
Lemma pC102_index_partial : forall inBlocks shift ds,
  ds = fst (ix_worker_told ni_told inBlocks) \/ ds = fst (ix_worker_told (wi_told shift) inBlocks) \/ ds = fst (ix_worker_told ri_told inBlocks) ->
  (forall n w l, doing ds n w -> (look ds n ix_worker_widget n l <-> l = Text (said ix_word w))) /\
  (forall m m' l, look ds m ix_worker_widget m' l -> exists i j v, (m <= i <= j)%nat /\ (j <= m')%nat /\ about (f_word ix_word) ds i v /\
    (v = waiting_word /\ l = Text (bytes_of v) \/ exists b, v <> waiting_word /\ about number ds j b /\ l = Text (bytes_of v ++ shown_number b))).
Proof.
  intros inBlocks shift ds D. apply (simple_lines ds ix_word ix_ph).
  - destruct D as [-> |[-> | ->]]; apply ix_worker_phase; intros e b; apply ix_phases.
  - destruct D as [-> |[-> | ->]]; apply ix_worker_number; intros e b; apply ix_numbers.
  - intros s. unfold ix_ph, ixReading, ixDecoding, ixProcessing, ixWriting. widget_cases s.
  - apply ix_word_ok.
  - destruct w; cbn; discriminate || (intros Y; exfalso; apply Y; reflexivity).
Qed.
(** C102 is false of the code for other blocks: a worker of the node index tool sends on the header (block 3) and its line says that it is waiting. *)
Lemma pC102_passing_refuted : let ds := fst (ix_worker_told ni_told [(mkZenv true [] [], mkBlk 3 (exact [1]) (bytes_of "OSMHeader"))]) in
  doing ds 3 (Passing 3) /\ look ds 3 ix_worker_widget 3 (Text (bytes_of "Worker: waiting for block")).
Proof.
  split.
  - exists [Store CState 0; Doing Waiting], [Doing Waiting]. split; vm_compute; reflexivity.
  - apply (look_load _ 3 3); [vm_compute; lia|]. apply look_show.
Qed.

(** ** the programs with their deeds are the programs modelled before *)
Lemma snd_tbind : forall A B (m : told A) (k : A -> told B), snd (tbind m k) = bind (snd m) (fun a => snd (k a)).
Proof. intros A B [d [a|p|]] k; reflexivity. Qed.
Lemma bind_ext : forall A B (m : res A) (k k' : A -> res B), (forall a, k a = k' a) -> bind m k = bind m k'.
Proof. intros A B [a|p|] k k' E; cbn; auto. Qed.
Lemma snd_serve : forall X Y (g : X -> told Y) l, snd (serve g l) = mapm (fun x => snd (g x)) l.
Proof.
  intros X Y g l. induction l as [|x l IH]; cbn [serve mapm]; rewrite snd_tbind; cbn [tell silent snd bind]; [reflexivity|].
  rewrite snd_tbind. apply bind_ext. intros y. rewrite snd_tbind, IH. reflexivity.
Qed.
Lemma mapm_ext : forall X Y (g h : X -> res Y) l, (forall x, g x = h x) -> mapm g l = mapm h l.
Proof. intros X Y g h l E. induction l as [|x l IH]; cbn [mapm]; [reflexivity|]. rewrite E, IH. reflexivity. Qed.
Ltac erase := repeat (rewrite snd_tbind; cbn [tell silent snd bind]; apply bind_ext; intros ?).
Lemma erase_ix : forall X M reader (process : PrimitiveBlock -> res X) (msg : X -> M) pass env data,
  snd (ix_told reader process msg pass env data) =
  (if negb (seqb (blk_Type data) tOSMData) then Ok pass
   else b <- ReadBlob (blk_Data data) Blob0 ;; raw <- GetRawData env b ;; pb <- ReadPrimitiveBlock reader raw PrimitiveBlock0 ;; x <- process pb ;; Ok (msg x)).
Proof.
  intros. unfold ix_told. cbv zeta. destruct (negb _); [reflexivity|].
  rewrite snd_tbind. cbn [tell snd bind]. rewrite snd_tbind. apply bind_ext. intros b. rewrite snd_tbind. apply bind_ext. intros raw.
  rewrite snd_tbind. apply bind_ext. intros pb. rewrite snd_tbind. cbn [tell snd bind]. rewrite snd_tbind. apply bind_ext. intros x. reflexivity.
Qed.
Lemma erase_dc : forall env obh, snd (dc_told env obh) = decompress_block env obh.
Proof.
  intros env obh. unfold dc_told, decompress_block. cbv zeta. rewrite snd_tbind. cbn [tell snd bind]. rewrite snd_tbind. apply bind_ext. intros b.
  rewrite snd_tbind. cbn [tell snd bind]. rewrite snd_tbind. apply bind_ext. intros d. rewrite snd_tbind. cbn [tell snd bind]. rewrite snd_tbind. apply bind_ext. intros bb.
  rewrite snd_tbind. cbn [silent snd]. destruct (write_frame zero4 (blk_Type obh) bb); reflexivity.
Qed.
Lemma erase_rw_ways : forall ix fp b n ways hint i,
  snd (rw_ways_told ix fp b n ways hint i) = ('(out, h) <- rw_ways ix fp ways hint ;; Ok (out, h, i + zlen ways)).
Proof.
  intros ix fp b n ways. induction ways as [|w r IH]; intros hint i; cbn [rw_ways_told rw_ways].
  - cbn [silent snd bind]. change (zlen (@nil Way)) with 0. rewrite Z.add_0_r. reflexivity.
  - rewrite snd_tbind. cbn [tell snd bind]. rewrite snd_tbind. cbn [silent snd]. destruct (rw_refs ix fp (way_Refs w) hint) as [[refs h]|p|]; cbn [bind]; [|reflexivity|reflexivity].
    rewrite snd_tbind, IH. destruct (rw_ways ix fp r h) as [[o h']|p|]; cbn [bind silent snd]; [|reflexivity|reflexivity].
    f_equal. f_equal. unfold zlen. cbn [List.length]. lia.
Qed.
Lemma erase_rw_groups : forall ix fp b n gs hint i, exists j,
  snd (rw_groups_told ix fp b n gs hint i) = ('(out, h) <- rw_groups ix fp gs hint ;; Ok (out, h, j)).
Proof.
  intros ix fp b n gs. induction gs as [|g r IH]; intros hint i; cbn [rw_groups_told rw_groups].
  - exists i. reflexivity.
  - rewrite snd_tbind. destruct (pg_Ways g) as [ws|]; cbn [silent snd bind].
    + rewrite snd_tbind, erase_rw_ways. destruct (rw_ways ix fp ws hint) as [[o h]|p|]; cbn [bind silent snd]; [|exists 0; reflexivity|exists 0; reflexivity].
      destruct (IH h (i + zlen ws)) as [j E]. exists j. rewrite snd_tbind, E. destruct (rw_groups ix fp r h) as [[o' h']|p|]; reflexivity.
    + destruct (IH hint i) as [j E]. exists j. rewrite snd_tbind, E. destruct (rw_groups ix fp r hint) as [[o' h']|p|]; reflexivity.
Qed.
Lemma erase_rw : forall env ix fp data, snd (rw_told env ix fp data) = rw_worker env ix fp data.
Proof.
  intros env ix fp data. unfold rw_told, rw_worker. cbv zeta. destruct (negb _); [reflexivity|].
  rewrite snd_tbind. cbn [tell snd bind]. rewrite snd_tbind. apply bind_ext. intros b. rewrite snd_tbind. apply bind_ext. intros raw.
  rewrite snd_tbind. apply bind_ext. intros pb. destruct (count_ways _ =? 0); [reflexivity|].
  rewrite snd_tbind. cbn [tell snd bind]. rewrite snd_tbind. destruct (erase_rw_groups ix fp (blk_Index data) (count_ways (pblk_PrimitiveGroup pb)) (pblk_PrimitiveGroup pb) 0 0) as [j E].
  rewrite E. destruct (rw_groups ix fp (pblk_PrimitiveGroup pb) 0) as [[gs h]|p|]; cbn [bind]; [|reflexivity|reflexivity].
  rewrite snd_tbind. cbn [tell snd bind]. rewrite snd_tbind. apply bind_ext. intros o. reflexivity.
Qed.
Lemma erase_tf_step : forall env pending data, snd (tf_told env pending data) = tf_step env pending data.
Proof.
  intros env pending data. unfold tf_told, tf_step. cbv zeta. destruct (negb _); [reflexivity|].
  rewrite snd_tbind. cbn [tell snd bind]. rewrite snd_tbind. apply bind_ext. intros b. rewrite snd_tbind. apply bind_ext. intros raw.
  rewrite snd_tbind. apply bind_ext. intros pb. rewrite snd_tbind. cbn [tell snd bind]. rewrite snd_tbind. apply bind_ext. intros nodes.
  rewrite snd_tbind. apply bind_ext. intros ws. rewrite snd_tbind. apply bind_ext. intros rs. rewrite snd_tbind. cbn [tell snd bind].
  destruct (_ || _ || _); [|reflexivity].
  rewrite snd_tbind. apply bind_ext. intros o. rewrite snd_tbind. cbn [tell snd bind]. rewrite snd_tbind. apply bind_ext. intros o'. reflexivity.
Qed.
Lemma erase_tf_loop : forall l pending sent, snd (tf_serve pending l sent) = tf_loop pending l sent.
Proof.
  induction l as [|[env data] l IH]; intros pending sent; cbn [tf_serve tf_loop]; rewrite snd_tbind; cbn [tell silent snd bind]; [reflexivity|].
  rewrite snd_tbind, erase_tf_step. apply bind_ext. intros [p msg]. apply IH.
Qed.
(** C102.  The workers with their status are the workers of the other properties: they send the same messages, and panic on the same blocks. *)
Lemma pC102_same_programs : forall inBlocks shift ix finalPass,
  snd (dc_worker_told inBlocks) = mapm (fun x => decompress_block (fst x) (snd x)) inBlocks /\
  snd (ix_worker_told ni_told inBlocks) = mapm (fun x => ni_worker (fst x) (snd x)) inBlocks /\
  snd (ix_worker_told (wi_told shift) inBlocks) = mapm (fun x => wi_worker shift (fst x) (snd x)) inBlocks /\
  snd (ix_worker_told ri_told inBlocks) = mapm (fun x => ri_worker (fst x) (snd x)) inBlocks /\
  snd (rw_worker_told ix finalPass inBlocks) = mapm (fun x => rw_worker (fst x) ix finalPass (snd x)) inBlocks /\
  snd (tf_worker_told inBlocks) = tf_worker inBlocks.
Proof.
  intros inBlocks shift ix fp. unfold ix_worker_told. rewrite !snd_tbind. cbn [tell snd bind]. unfold dc_worker_told, rw_worker_told. rewrite !snd_serve.
  split; [|split; [|split; [|split; [|split]]]].
  - apply mapm_ext. intros x. apply erase_dc.
  - apply mapm_ext. intros x. unfold ni_told. rewrite erase_ix. reflexivity.
  - apply mapm_ext. intros x. unfold wi_told. rewrite erase_ix. reflexivity.
  - apply mapm_ext. intros x. unfold ri_told. rewrite erase_ix. reflexivity.
  - apply mapm_ext. intros x. apply erase_rw.
  - unfold tf_worker_told, tf_worker. rewrite snd_tbind, erase_tf_loop. apply bind_ext. intros [p s]. reflexivity.
Qed.

Lemma doing_nth : forall ds n w, nth_error ds n = Some (Doing w) -> doing ds (S n) w.
Proof.
  intros ds n w H. apply nth_error_split in H. destruct H as (l1 & l2 & -> & L). exists l1, l2. split; [reflexivity|]. rewrite L. reflexivity.
Qed.
Lemma ex_ni_begin : exists rest, fst (ix_worker_told ni_told ex_ni_blocks) =
  [Store CState 0; Doing Waiting; Doing (Passing 0); Doing Waiting; Store CBlock 1; Store CState 1; Doing (Decoding 1); Store CState 2; Doing (Processing 1);
   Store CState 3; Doing (Sending 1); Store CState 0; Doing Waiting; Store CBlock 2; Store CState 1; Doing (Decoding 2)] ++ rest.
Proof. exists (skipn 16 (fst (ix_worker_told ni_told ex_ni_blocks))). vm_compute. reflexivity. Qed.
Lemma ex_dc_begin : exists rest, fst (dc_worker_told (tl ex_ni_blocks)) =
  [Doing Waiting; Store CBlock 1; Store CState 1; Doing (Decoding 1); Store CState 2; Doing (Decompressing 1)] ++ rest.
Proof. exists (skipn 6 (fst (dc_worker_told (tl ex_ni_blocks)))). vm_compute. reflexivity. Qed.
(** An example, with lines made while nothing happens and one made while the worker gets on: it had been sending block 1, and had begun with block 2 when
    the number was read. *)
Lemma pC102_ex : let ds := fst (ix_worker_told ni_told ex_ni_blocks) in
  doing ds 7 (Decoding 1) /\ look ds 7 ix_worker_widget 7 (Text (bytes_of "Worker: decoding block 1")) /\
  doing ds 11 (Sending 1) /\ look ds 11 ix_worker_widget 14 (Text (bytes_of "Worker: sending block 2")) /\
  doing (fst (dc_worker_told (tl ex_ni_blocks))) 6 (Decompressing 1).
Proof.
  cbv zeta. destruct ex_ni_begin as [rest E]. rewrite E. clear E. destruct ex_dc_begin as [rest' E]. rewrite E. clear E.
  split; [|split; [|split; [|split]]].
  - apply doing_nth. reflexivity.
  - apply (look_load _ 7 7); [split; [lia|rewrite app_length; cbn; lia]|]. apply (look_load _ 7 7); [split; [lia|rewrite app_length; cbn; lia]|]. apply look_show.
  - apply doing_nth. reflexivity.
  - apply (look_load _ 11 11); [split; [lia|rewrite app_length; cbn; lia]|]. apply (look_load _ 11 14); [split; [lia|rewrite app_length; cbn; lia]|]. apply look_show.
  - apply doing_nth. reflexivity.
Qed.
