(** * SrThms: C103, the status line of the workers of the rewriter. *)
From Verif Require Import Base PbModel TModel HLModel FrModel ZlModel IoModel NiModel NiSpec WiModel RiModel RwModel TfModel TrModel TmModel PgModel SlModel SlSpec RwThms.
From Verif Require Import BaseLemmas SlProofs SlThms SrProofs.

Definition on_ways (s : status) : bool := s CState =? 2.
Definition idle_way (c : cell) : pre := fun begun s last => s CState <> 2 /\ (begun = true -> last = Some (s c)).
Definition at_way (c : cell) (v : Z) : pre := fun begun s last => s CState = 2 /\ s c = v /\ last = Some v.
Ltac way_tells H K := apply keeps_tell; intros begun s last rest H K;
  unfold rwSetStateDecoding, SetCurrentState, SetStateWorking, NextWay in *;
  cbn [app tracks told_of first_some next_last way_at way_max]; unfold idle_way, at_way in *.
Ltac way_leaf H :=
  first [ exact I
        | let w := fresh "w" in let v := fresh "v" in let E := fresh "E" in let F := fresh "F" in
          intros w v E F; first [discriminate E | injection E as <-; first [discriminate F | injection F as <-; cbn [perform cell_eqb]; first [reflexivity | apply H]]]
        | let X := fresh "X" in intros X; cbn [perform cell_eqb] in *; first
            [ right; reflexivity
            | left; destruct H as (_ & -> & H); exact H
            | unfold on_ways in X; cbn [perform cell_eqb] in X; rewrite (proj2 (Z.eqb_neq _ _) (proj1 H)) in X; cbn in X; rewrite ?orb_false_r in X; left; exact (proj2 H X)
            | unfold on_ways in X; cbn [perform cell_eqb] in X; cbn in X; rewrite ?orb_false_r in X; left; exact (proj2 H X) ] ].
Ltac way_idle H X := unfold on_ways in X; cbn [perform cell_eqb] in X; try rewrite (proj2 (Z.eqb_neq _ _) (proj1 H)) in X; cbn in X; rewrite ?orb_false_r in X; exact (proj2 H X).
(** in idle states *)
Ltac w_step c :=
  refine (keeps_bind _ _ _ _ _ _ (fun _ => idle_way c) _ _ _ _ _);
  [ let H := fresh "H" in let K := fresh "K" in way_tells H K; split_all; try (way_leaf H); apply K; cbn [perform cell_eqb]; split;
    [first [discriminate | apply H] | let X := fresh "X" in intros X; way_idle H X]
  | intros _ _ ].
Ltac w_silent c x :=
  refine (keeps_bind _ _ _ _ _ _ (fun _ => idle_way c) _ _ _ _ _);
  [ apply keeps_silent; [let H := fresh "H" in let X := fresh "X" in intros ? ? ? H X; unfold on_ways in X; rewrite (proj2 (Z.eqb_neq _ _) (proj1 H)), orb_false_r in X; exact (proj2 H X) | auto]
  | intros x _ ].
Lemma u64_succ : forall i, u64 (u64 i + 1) = u64 (i + 1).
Proof. intros i. unfold u64. rewrite Zplus_mod_idemp_l. reflexivity. Qed.

(** *** the way *)
Lemma rw_ways_at : forall ix fp b n ways hint i,
  keeps way_at (fun s => s CWay) on_ways (at_way CWay (u64 i)) (rw_ways_told ix fp b n ways hint i) (fun x => at_way CWay (u64 (snd x))).
Proof.
  intros ix fp b n ways. induction ways as [|w r IH]; intros hint i; cbn [rw_ways_told].
  - apply keeps_ok. auto.
  - refine (keeps_bind _ _ _ _ _ _ (fun _ => at_way CWay (u64 (i + 1))) _ _ _ _ _).
    { way_tells H K. split_all; try (way_leaf H).
      - intros _. right. cbn [perform cell_eqb]. destruct H as (_ & -> & _). rewrite u64_succ. reflexivity.
      - intros w' v E F. injection E as <-. injection F as <-. cbn [perform cell_eqb]. destruct H as (_ & -> & _). apply u64_succ.
      - apply K. cbn [perform cell_eqb]. destruct H as (H1 & H2 & H3). rewrite H2, u64_succ. split; [exact H1|]. split; reflexivity. }
    intros _ _. refine (keeps_bind _ _ _ _ _ _ (fun _ => at_way CWay (u64 (i + 1))) _ _ _ _ _).
    { apply keeps_silent; [intros ? ? ? (_ & H & L) _; rewrite H; exact L|auto]. }
    intros [refs h] _. refine (keeps_bind _ _ _ _ _ _ _ _ _ _ (IH h (i + 1)) _).
    intros [[o h'] i'] _. apply keeps_ok. auto.
Qed.
Lemma rw_groups_at : forall ix fp b n gs hint i,
  keeps way_at (fun s => s CWay) on_ways (at_way CWay (u64 i)) (rw_groups_told ix fp b n gs hint i) (fun x => at_way CWay (u64 (snd x))).
Proof.
  intros ix fp b n gs. induction gs as [|g r IH]; intros hint i; cbn [rw_groups_told].
  - apply keeps_ok. auto.
  - refine (keeps_bind _ _ _ _ _ _ (fun x => at_way CWay (u64 (snd x))) _ _ _ _ _).
    { destruct (pg_Ways g) as [ws|]; [|apply keeps_ok; auto].
      refine (keeps_bind _ _ _ _ _ _ _ _ _ _ (rw_ways_at _ _ _ _ _ _ _) _). intros [[o h'] i'] _. apply keeps_ok. auto. }
    intros [[ws h] i1] _. refine (keeps_bind _ _ _ _ _ _ _ _ _ _ (IH h i1) _).
    intros [[o h'] i'] _. apply keeps_ok. auto.
Qed.
Lemma rw_at : forall env ix fp data, keeps way_at (fun s => s CWay) on_ways (idle_way CWay) (rw_told env ix fp data) (fun _ => idle_way CWay).
Proof.
  intros env ix fp data. unfold rw_told. cbv zeta. destruct (negb (seqb (blk_Type data) tOSMData)).
  - w_step CWay. apply keeps_ok. auto.
  - w_step CWay. w_silent CWay b. w_silent CWay raw. w_silent CWay pb.
    destruct (count_ways (pblk_PrimitiveGroup pb) =? 0).
    + w_step CWay. apply keeps_ok. auto.
    + refine (keeps_bind _ _ _ _ _ _ (fun _ => at_way CWay (u64 0)) _ _ _ _ _).
      { way_tells H K. split_all; try (way_leaf H). apply K. cbn [perform cell_eqb]. split; [reflexivity|split; reflexivity]. }
      intros _ _. refine (keeps_bind _ _ _ _ _ _ _ _ _ _ (rw_groups_at _ _ _ _ _ _ _) _). intros [[gs h] i'] _. cbn [snd].
      refine (keeps_bind _ _ _ _ _ _ (fun _ => idle_way CWay) _ _ _ _ _).
      { way_tells H K. split_all; try (way_leaf H). apply K. cbn [perform cell_eqb]. split; [discriminate|]. intros _. destruct H as (_ & -> & H). exact H. }
      intros _ _. w_silent CWay out. w_step CWay. apply keeps_ok. auto.
Qed.
(** *** the number of ways *)
Lemma rw_ways_max : forall ix fp b n ways hint i,
  keeps way_max (fun s => s CWays) on_ways (at_way CWays (u64 n)) (rw_ways_told ix fp b n ways hint i) (fun _ => at_way CWays (u64 n)).
Proof.
  intros ix fp b n ways. induction ways as [|w r IH]; intros hint i; cbn [rw_ways_told].
  - apply keeps_ok. auto.
  - refine (keeps_bind _ _ _ _ _ _ (fun _ => at_way CWays (u64 n)) _ _ _ _ _).
    { way_tells H K. split_all; try (way_leaf H). apply K. cbn [perform cell_eqb]. split; [apply H|]. split; [apply H|reflexivity]. }
    intros _ _. refine (keeps_bind _ _ _ _ _ _ (fun _ => at_way CWays (u64 n)) _ _ _ _ _).
    { apply keeps_silent; [intros ? ? ? (_ & H & L) _; rewrite H; exact L|auto]. }
    intros [refs h] _. refine (keeps_bind _ _ _ _ _ _ _ _ _ _ (IH h (i + 1)) _).
    intros [[o h'] i'] _. apply keeps_ok. auto.
Qed.
Lemma rw_groups_max : forall ix fp b n gs hint i,
  keeps way_max (fun s => s CWays) on_ways (at_way CWays (u64 n)) (rw_groups_told ix fp b n gs hint i) (fun _ => at_way CWays (u64 n)).
Proof.
  intros ix fp b n gs. induction gs as [|g r IH]; intros hint i; cbn [rw_groups_told].
  - apply keeps_ok. auto.
  - refine (keeps_bind _ _ _ _ _ _ (fun _ => at_way CWays (u64 n)) _ _ _ _ _).
    { destruct (pg_Ways g) as [ws|]; [|apply keeps_ok; auto].
      refine (keeps_bind _ _ _ _ _ _ _ _ _ _ (rw_ways_max _ _ _ _ _ _ _) _). intros [[o h'] i'] _. apply keeps_ok. auto. }
    intros [[ws h] i1] _. refine (keeps_bind _ _ _ _ _ _ _ _ _ _ (IH h i1) _).
    intros [[o h'] i'] _. apply keeps_ok. auto.
Qed.
Lemma rw_max : forall env ix fp data, keeps way_max (fun s => s CWays) on_ways (idle_way CWays) (rw_told env ix fp data) (fun _ => idle_way CWays).
Proof.
  intros env ix fp data. unfold rw_told. cbv zeta. destruct (negb (seqb (blk_Type data) tOSMData)).
  - w_step CWays. apply keeps_ok. auto.
  - w_step CWays. w_silent CWays b. w_silent CWays raw. w_silent CWays pb.
    destruct (count_ways (pblk_PrimitiveGroup pb) =? 0).
    + w_step CWays. apply keeps_ok. auto.
    + refine (keeps_bind _ _ _ _ _ _ (fun _ => at_way CWays (u64 (count_ways (pblk_PrimitiveGroup pb)))) _ _ _ _ _).
      { way_tells H K. split_all; try (way_leaf H). apply K. cbn [perform cell_eqb]. split; [reflexivity|split; reflexivity]. }
      intros _ _. refine (keeps_bind _ _ _ _ _ _ _ _ _ _ (rw_groups_max _ _ _ _ _ _ _) _). intros [[gs h] i'] _. cbn [snd].
      refine (keeps_bind _ _ _ _ _ _ (fun _ => idle_way CWays) _ _ _ _ _).
      { way_tells H K. split_all; try (way_leaf H). apply K. cbn [perform cell_eqb]. split; [discriminate|]. intros _. destruct H as (_ & -> & H). exact H. }
      intros _ _. w_silent CWays out. w_step CWays. apply keeps_ok. auto.
Qed.

(** *** all of them together *)
Definition r_fresh (st : rst) : Prop := r_live st = None /\ r_rec st CState <> 2.
Definition r_begun (b : Z) (st : rst) : Prop := r_fresh st /\ r_rec st CBlock = b.
Definition r_done (st : rst) : Prop := r_rec st CState <> 2 /\ r_good st [].
Definition r_at (b n i : Z) (st : rst) : Prop :=
  r_now st = Some (b, u64 n) /\ r_rec st CBlock = b /\ r_rec st CWays = u64 n /\ r_rec st CWay = u64 i /\ 0 <= i <= n /\ r_last st = Some (b, i, n).
Lemma fresh_now : forall st, r_fresh st -> r_now st = None.
Proof. intros st [L H]. unfold r_now. rewrite L, (proj2 (Z.eqb_neq _ _) H). reflexivity. Qed.
Lemma fresh_good : forall st ds, r_fresh st -> r_good st ds.
Proof. intros st ds F b x H. rewrite (fresh_now st F) in H. discriminate H. Qed.
Lemma fresh_next : forall st d, r_fresh st -> (forall v, d = Store CState v -> v <> 2) -> (forall v, d <> AddTo CState v) -> r_fresh (r_next st d).
Proof.
  intros st d F D1 D2. pose proof (fresh_now st F) as N. destruct F as [L H]. split.
  - unfold r_next. cbn [r_live]. destruct d as [c v|c v|w]; try exact N. destruct w; try exact N. reflexivity.
  - unfold r_next. cbn [r_rec]. destruct d as [c v|c v|w]; cbn [perform]; [|  |exact H].
    + destruct c; cbn [cell_eqb]; try exact H. exact (D1 v eq_refl).
    + destruct c; cbn [cell_eqb]; try exact H. exfalso. exact (D2 v eq_refl).
Qed.
Lemma good_more : forall st ds, r_good st [] -> r_good st ds.
Proof.
  intros st ds G b x H. destruct (G b x H) as (A & B & i & n & C1 & C2 & C3 & C4). split; [exact A|]. split; [exact B|]. exists i, n.
  split; [exact C1|]. split; [exact C2|]. split; [exact C3|]. destruct C4 as [C4|C4]; [left; exact C4|discriminate C4].
Qed.
Lemma fresh_done : forall st, r_fresh st -> r_done st.
Proof. intros st F. split; [exact (proj2 F)|apply fresh_good, F]. Qed.
Lemma at_good : forall b n i st ds, r_at b n i st -> r_good st ds.
Proof.
  intros b n i st ds (N & B & M & A & I & L) b' x H. rewrite N in H. injection H as <- <-. split; [exact B|]. split; [exact M|]. exists i, n.
  split; [exact I|]. split; [reflexivity|]. split; [exact A|]. left. exact L.
Qed.
(** a deed that changes neither the ways nor the block *)
Definition r_quiet (d : deed) : Prop :=
  match d with
  | Store c v => c = CState
  | AddTo _ _ => False
  | Doing w => w <> Waiting /\ rewriting w = None
  end.
Lemma at_next : forall b n i st d, r_at b n i st -> r_quiet d -> r_at b n i (r_next st d).
Proof.
  intros b n i st d (N & B & M & A & I & L) Q. destruct d as [c v|c v|w]; cbn in Q.
  - subst c. unfold r_at, r_next, r_now in *. cbn [r_live r_rec r_last perform cell_eqb next_last]. rewrite N. repeat (split; [first [reflexivity|assumption|exact I]|]). exact L.
  - contradiction.
  - destruct Q as [Q1 Q2]. unfold r_at. assert (X : r_now (r_next st (Doing w)) = Some (b, u64 n)).
    { unfold r_now at 1, r_next. cbn [r_live]. destruct w; try (rewrite N; reflexivity). contradiction. }
    split; [exact X|]. unfold r_next. cbn [r_rec r_last perform next_last]. rewrite Q2. auto 10.
Qed.
Lemma at_done : forall b n i st, r_at b n i st -> r_rec st CState <> 2 -> r_done st.
Proof. intros b n i st A H. split; [exact H|exact (at_good b n i st [] A)]. Qed.

Ltac o_tell := apply holds_tell; let st := fresh "st" in intros st rest H K;
  unfold rwSetStateDecoding, SetCurrentState, SetStateWorking, NextWay; cbn [app orderly].
Ltac o_fresh := apply fresh_next; [|let v := fresh "v" in let E := fresh "E" in intros v E; first [discriminate E | injection E as <-; discriminate] | discriminate].
Lemma o_silent_fresh : forall A (P : rst -> Prop) (r : res A), (forall st, P st -> r_good st []) -> holds_in orderly P (silent r) (fun _ => P).
Proof. intros A P r G. apply holds_silent. intros st H. split; [exact (G st H)|exact I]. Qed.
Lemma begun_good : forall b st, r_begun b st -> r_good st [].
Proof. intros b st H. apply fresh_good, H. Qed.
Lemma rw_ways_orderly : forall ix fp b n ways hint i, i + zlen ways <= n ->
  holds_in orderly (r_at b n i) (rw_ways_told ix fp b n ways hint i) (fun x st => r_at b n (snd x) st /\ snd x = i + zlen ways).
Proof.
  intros ix fp b n ways. induction ways as [|w r IH]; intros hint i B; cbn [rw_ways_told].
  - apply holds_ok. intros st H. cbn [snd]. change (zlen (@nil Way)) with 0. split; [exact H|lia].
  - pose proof (zlen_nonneg r) as Nr. assert (Lw : zlen (w :: r) = zlen r + 1) by (unfold zlen; cbn [List.length]; lia). rewrite Lw in B.
    refine (holds_bind _ _ _ _ (fun _ => r_at b n (i + 1)) _ _ _ _ _).
    { o_tell. split; [exact (at_good _ _ _ _ _ H)|]. destruct H as (N & Bl & M & A & I & L).
      assert (X : r_now (r_next st (AddTo CWay 1)) = Some (b, u64 n)) by (unfold r_now at 1, r_next; cbn [r_live]; rewrite N; reflexivity).
      split.
      - intros b' x E. rewrite X in E. injection E as <- <-. unfold r_next. cbn [r_rec perform cell_eqb r_last next_last told_of rewriting first_some].
        split; [exact Bl|]. split; [exact M|]. exists (i + 1), n. split; [lia|]. split; [reflexivity|]. split; [rewrite A; apply u64_succ|]. right. reflexivity.
      - apply K. split; [unfold r_now at 1, r_next at 1; cbn [r_live]; rewrite X; reflexivity|]. unfold r_next. cbn [r_rec perform cell_eqb r_last next_last rewriting].
        split; [exact Bl|]. split; [exact M|]. split; [rewrite A; apply u64_succ|]. split; [lia|reflexivity]. }
    intros _ _. refine (holds_bind _ _ _ _ (fun _ => r_at b n (i + 1)) _ _ _ _ _).
    { apply o_silent_fresh. intros st H. exact (at_good _ _ _ _ _ H). }
    intros [refs h] _. refine (holds_bind _ _ _ _ _ _ _ _ (IH h (i + 1) ltac:(lia)) _).
    intros [[o h'] i'] _. apply holds_ok. cbn [snd]. intros st [H E]. split; [exact H|lia].
Qed.
Definition ways_in (gs : list PrimitiveGroup) : Z := fold_right (fun g n => n + match pg_Ways g with Some ws => zlen ws | None => 0 end) 0 gs.
Lemma ways_in_fold : forall gs n, fold_left (fun n g => n + match pg_Ways g with Some ws => zlen ws | None => 0 end) gs n = n + ways_in gs.
Proof. induction gs as [|g gs IH]; intros n; cbn [fold_left ways_in fold_right]; [lia|]. rewrite IH. fold (ways_in gs). lia. Qed.
Lemma ways_in_nonneg : forall gs, 0 <= ways_in gs.
Proof. induction gs as [|g gs IH]; cbn [ways_in fold_right]; [lia|]. fold (ways_in gs). destruct (pg_Ways g) as [ws|]; [pose proof (zlen_nonneg ws)|]; lia. Qed.
Lemma rw_groups_orderly : forall ix fp b n gs hint i, i + ways_in gs <= n ->
  holds_in orderly (r_at b n i) (rw_groups_told ix fp b n gs hint i) (fun x => r_at b n (snd x)).
Proof.
  intros ix fp b n gs. induction gs as [|g r IH]; intros hint i B; cbn [rw_groups_told].
  - apply holds_ok. auto.
  - cbn [ways_in fold_right] in B. fold (ways_in r) in B.
    refine (holds_bind _ _ _ _ (fun x st => r_at b n (snd x) st /\ snd x = i + match pg_Ways g with Some ws => zlen ws | None => 0 end) _ _ _ _ _).
    { destruct (pg_Ways g) as [ws|]; [|apply holds_ok; cbn [snd]; intros st H; split; [exact H|lia]].
      refine (holds_bind _ _ _ _ _ _ _ _ (rw_ways_orderly _ _ _ _ _ _ _ _) _); [pose proof (ways_in_nonneg r); lia|]. intros [[o h'] i'] _. apply holds_ok. auto. }
    intros [[ws h] i1] _. cbn [snd]. intros st rest [H E] F.
    refine (holds_bind orderly _ _ (r_at b n i1) (fun x => r_at b n (snd x)) (fun x => r_at b n (snd x)) _ _ (IH h i1 ltac:(lia)) _ st rest H F).
    intros [[o h'] i'] _. apply holds_ok. auto.
Qed.
Lemma rw_orderly : forall env ix fp data, holds_in orderly r_fresh (rw_told env ix fp data) (fun _ => r_done).
Proof.
  intros env ix fp data. unfold rw_told. cbv zeta. destruct (negb (seqb (blk_Type data) tOSMData)).
  - refine (holds_bind _ _ _ _ (fun _ => r_done) _ _ _ _ _).
    { o_tell. split; [apply fresh_good, H|]. apply K, fresh_done. o_fresh. exact H. }
    intros _ _. apply holds_ok. auto.
  - refine (holds_bind _ _ _ _ (fun _ => r_begun (blk_Index data)) _ _ _ _ _).
    { o_tell. assert (H1 : r_fresh (r_next st (Store CBlock (blk_Index data)))) by (o_fresh; exact H).
      assert (H2 : r_fresh (r_next (r_next st (Store CBlock (blk_Index data))) (Store CState rwDecoding))) by (o_fresh; exact H1).
      split; [apply fresh_good, H|]. split; [apply fresh_good, H1|]. split; [apply fresh_good, H2|]. apply K. split; [o_fresh; exact H2|reflexivity]. }
    intros _ _. refine (holds_bind _ _ _ _ _ _ _ _ (o_silent_fresh _ _ _ (begun_good _)) _). intros b _.
    refine (holds_bind _ _ _ _ _ _ _ _ (o_silent_fresh _ _ _ (begun_good _)) _). intros raw _.
    refine (holds_bind _ _ _ _ _ _ _ _ (o_silent_fresh _ _ _ (begun_good _)) _). intros pb _.
    destruct (count_ways (pblk_PrimitiveGroup pb) =? 0) eqn:Z0.
    + refine (holds_bind _ _ _ _ (fun _ => r_done) _ _ _ _ _).
      { o_tell. apply proj1 in H. assert (H1 : r_fresh (r_next st (Store CState rwWriting))) by (o_fresh; exact H).
        assert (H2 : r_fresh (r_next (r_next st (Store CState rwWriting)) (Doing (Sending (blk_Index data))))) by (o_fresh; exact H1).
        split; [apply fresh_good, H|]. split; [apply fresh_good, H1|]. split; [apply fresh_good, H2|]. apply K, fresh_done. o_fresh. exact H2. }
      intros _ _. apply holds_ok. auto.
    + set (tot := count_ways (pblk_PrimitiveGroup pb)) in *. assert (Tot : tot = ways_in (pblk_PrimitiveGroup pb)) by (unfold tot, count_ways; rewrite ways_in_fold; lia).
      refine (holds_bind _ _ _ _ (fun _ => r_at (blk_Index data) tot 0) _ _ _ _ _).
      { o_tell. destruct H as [H Bl]. assert (H1 : r_fresh (r_next st (Store CWays (u64 tot)))) by (o_fresh; exact H).
        assert (H2 : r_fresh (r_next (r_next st (Store CWays (u64 tot))) (Store CWay 0))) by (o_fresh; exact H1).
        split; [apply fresh_good, H|]. split; [apply fresh_good, H1|]. split; [apply fresh_good, H2|].
        set (st2 := r_next (r_next st (Store CWays (u64 tot))) (Store CWay 0)) in *.
        assert (C2 : r_rec st2 CBlock = blk_Index data /\ r_rec st2 CWays = u64 tot /\ r_rec st2 CWay = 0) by (unfold st2, r_next; cbn [r_rec perform cell_eqb]; auto).
        clearbody st2. destruct C2 as (Cb & Cm & Ca). pose proof (ways_in_nonneg (pblk_PrimitiveGroup pb)).
        assert (N3 : r_now (r_next st2 (Store CState rwWorking)) = Some (blk_Index data, u64 tot)).
        { unfold r_now at 1, r_next. cbn [r_live r_rec perform cell_eqb]. rewrite (fresh_now st2 H2). unfold rwWorking. cbn. rewrite Cb, Cm. reflexivity. }
        split.
        - intros b' x E. rewrite N3 in E. injection E as <- <-. unfold r_next. cbn [r_rec perform cell_eqb r_last next_last told_of rewriting first_some].
          split; [exact Cb|]. split; [exact Cm|]. exists 0, tot. split; [lia|]. split; [reflexivity|]. split; [exact Ca|]. right. reflexivity.
        - apply K. split; [unfold r_now at 1, r_next at 1; cbn [r_live]; rewrite N3; reflexivity|]. unfold r_next. cbn [r_rec perform cell_eqb r_last next_last rewriting].
          split; [exact Cb|]. split; [exact Cm|]. split; [exact Ca|]. split; [lia|reflexivity]. }
      intros _ _. refine (holds_bind _ _ _ _ _ _ _ _ (rw_groups_orderly _ _ _ _ _ _ _ _) _); [lia|]. intros [[gs h] i'] _. cbn [snd].
      refine (holds_bind _ _ _ _ (fun _ => r_at (blk_Index data) tot i') _ _ _ _ _).
      { o_tell. split; [exact (at_good _ _ _ _ _ H)|]. assert (H1 : r_at (blk_Index data) tot i' (r_next st (Store CState rwWriting))) by (apply at_next; [exact H|reflexivity]).
        split; [exact (at_good _ _ _ _ _ H1)|]. apply K. apply at_next; [exact H1|]. cbn. split; [discriminate|reflexivity]. }
      intros _ _. refine (holds_bind _ _ _ _ (fun _ => r_at (blk_Index data) tot i') _ _ _ _ _).
      { apply o_silent_fresh. intros st H. exact (at_good _ _ _ _ _ H). }
      intros out _. refine (holds_bind _ _ _ _ (fun _ => r_done) _ _ _ _ _).
      { o_tell. split; [exact (at_good _ _ _ _ _ H)|]. apply K. apply (at_done (blk_Index data) tot i'); [|discriminate]. apply at_next; [exact H|reflexivity]. }
      intros _ _. apply holds_ok. auto.
Qed.
Lemma rw_worker_orderly : forall ix fp inBlocks, orderly (mkRst None status0 None) (fst (rw_worker_told ix fp inBlocks)).
Proof.
  intros ix fp inBlocks. unfold rw_worker_told. apply (holds_deeds orderly _ r_done r_fresh).
  - apply holds_serve; [|intros x _; apply rw_orderly]. o_tell. destruct H as [H G]. split; [apply good_more, G|]. apply K. split; [reflexivity|exact H].
  - split; [discriminate|]. intros b x H. discriminate H.
  - intros st H. split; [apply fresh_good, H|exact I].
Qed.

(** ** the lines *)
Lemma serve_tracks : forall B (f : work -> option B) view on X Y (g : X -> told Y) (P P' : pre) l,
  keeps f view on P (tell [Doing Waiting]) (fun _ => P') -> (forall x, keeps f view on P' (g x) (fun _ => P)) -> P false status0 None -> settled view on P' ->
  tracks f view on false status0 None (fst (serve g l)).
Proof.
  intros B f view on X Y g P P' l W G H S. apply (keeps_tracks f view on _ P P'); [|exact H|exact S]. apply keeps_serve; [exact W|]. intros x _. apply G.
Qed.
Lemma rw_ways_tracks : forall ix fp inBlocks, let ds := fst (rw_worker_told ix fp inBlocks) in
  tracks way_at (fun s => s CWay) on_ways false status0 None ds /\ tracks way_max (fun s => s CWays) on_ways false status0 None ds.
Proof.
  intros ix fp inBlocks ds. unfold ds, rw_worker_told.
  assert (S : forall c, settled (fun s => s c) on_ways (idle_way c)).
  { intros c b s l [H K] X. unfold on_ways in X. rewrite (proj2 (Z.eqb_neq _ _) H), orb_false_r in X. exact (K X). }
  split.
  - apply (serve_tracks _ _ _ _ _ _ _ (idle_way CWay) (idle_way CWay)); [|intros x; apply rw_at| |apply S].
    + way_tells H K. split_all; try (way_leaf H). apply K. cbn [perform]. split; [exact (proj1 H)|]. intros X. way_idle H X.
    + split; [discriminate|intros X; discriminate X].
  - apply (serve_tracks _ _ _ _ _ _ _ (idle_way CWays) (idle_way CWays)); [|intros x; apply rw_max| |apply S].
    + way_tells H K. split_all; try (way_leaf H). apply K. cbn [perform]. split; [exact (proj1 H)|]. intros X. way_idle H X.
    + split; [discriminate|intros X; discriminate X].
Qed.
Lemma rw_other_tracks : forall ix fp inBlocks, let ds := fst (rw_worker_told ix fp inBlocks) in
  tracks (f_word rw_word) rw_phase on_always false status0 None ds /\ tracks number v_block on_state false status0 None ds.
Proof.
  intros ix fp inBlocks ds. split.
  - apply (worker_phase _ _ rw_word rw_phase); [reflexivity|intros s H; unfold rw_phase; rewrite H; reflexivity|]. intros x. apply rw_phases.
  - apply worker_number. intros x. apply rw_numbers.
Qed.
Lemma widget_states : forall view s, rw_phase (fun _ => s) <> ""%string ->
  exists k, rw_worker_widget view = Load CState k /\
  (s = 0 /\ rw_phase (fun _ => s) = waiting_word /\ k s = Show (Text (bytes_of waiting_word)) \/
   s = 2 /\ rw_phase (fun _ => s) = working_word /\ k s = Load CWay (fun a => Load CWays (fun x => Load CBlock (fun b => Show (way_line view b a x)))) \/
   s <> 0 /\ s <> 2 /\ rw_phase (fun _ => s) <> waiting_word /\ rw_phase (fun _ => s) <> working_word /\
     k s = Load CBlock (fun b => Show (Text (bytes_of (rw_phase (fun _ => s)) ++ d_ b)))).
Proof.
  intros view s H. eexists. split; [reflexivity|]. cbv beta. unfold rw_phase, rwReading, rwDecoding, rwWorking, rwWriting in *.
  destruct (Z.eqb_spec s 0) as [E0|N0]; [left; repeat split; exact E0|]. destruct (Z.eqb_spec s 1) as [E1|N1].
  - right; right. split; [exact N0|]. split; [lia|]. split; [discriminate|]. split; [discriminate|reflexivity].
  - destruct (Z.eqb_spec s 2) as [E2|N2]; [right; left; split; [exact E2|split; [reflexivity|destruct view; reflexivity]]|].
    destruct (Z.eqb_spec s 3) as [E3|N3]; [right; right; split; [exact N0|]; split; [lia|]; split; [discriminate|]; split; [discriminate|reflexivity]|]. exfalso. apply H. reflexivity.
Qed.
Lemma about_word_ok : forall word ds i v, (forall w, word w <> ""%string) -> about (f_word word) ds i v -> v <> ""%string.
Proof.
  intros word ds i v NE A. assert (Z0 : forall l0, ~ In ""%string (told_of (f_word word) l0)).
  { induction l0 as [|d l0 IH]; cbn; [tauto|]. destruct d; cbn; try exact IH. intros [X|X]; [exact (NE _ X)|exact (IH X)]. }
  destruct A as [A|A]; intros E; rewrite E in A.
  - destruct (rev (told_of (f_word word) (firstn i ds))) as [|x r] eqn:R; cbn in A; [discriminate A|]. injection A as ->.
    apply (Z0 (firstn i ds)). apply in_rev. rewrite R. left; reflexivity.
  - destruct (told_of (f_word word) (skipn i ds)) as [|x r] eqn:R; cbn in A; [discriminate A|]. injection A as ->.
    apply (Z0 (skipn i ds)). rewrite R. left; reflexivity.
Qed.
Lemma rw_word_ok : forall w, rw_word w <> ""%string. Proof. destruct w; discriminate. Qed.
Lemma phase_state : forall s : status, rw_phase (fun _ => s CState) = rw_phase s. Proof. reflexivity. Qed.
Lemma same_block_part : forall ds m m' i j, same_block ds m m' -> (m <= i <= j)%nat -> (j <= m')%nat -> same_block ds i j.
Proof.
  intros ds m m' i j S L1 L2 H. apply S. clear S.
  assert (E : skipn i ds = skipn (i - m) (skipn m ds)). { rewrite T2Proofs.skipn_skipn_. f_equal. lia. }
  rewrite E in H. set (l := skipn m ds) in *. clearbody l. rewrite (firstn_add _ l (i - m) (m' - m)) by lia. apply in_or_app. right.
  rewrite (firstn_add _ (skipn (i - m) l) (j - i) (m' - m - (i - m))) by lia. apply in_or_app. left. exact H.
Qed.

(** C103, partial.  The line about a worker of the rewriter, for all blocks, indexes and passes.  If it is made while the worker is doing something (and does not
    get on with it), it says what the worker is doing, and with which block; when it rewrites, also the number of the way at work and the number of ways of the
    block, with a bar of their quotient.  In any case the words are right for some moment while the line was made, and each of the numbers for
    some later moment.  Missing: a block that is not OSMData is sent on while the line says that the worker waits; the numbers may be about different blocks (see
    C103_race_refuted). *)
Lemma pC103_rewriter_partial : forall ix finalPass inBlocks view, let ds := fst (rw_worker_told ix finalPass inBlocks) in
  (forall n w l, doing ds n w -> (look ds n (rw_worker_widget view) n l <-> l = rw_line view w)) /\
  (forall m m' l, look ds m (rw_worker_widget view) m' l -> exists i v, (m <= i <= m')%nat /\ about (f_word rw_word) ds i v /\
    (v = waiting_word /\ l = Text (bytes_of v) \/
     (exists j b, (i <= j <= m')%nat /\ v <> waiting_word /\ v <> working_word /\ about number ds j b /\ l = Text (bytes_of v ++ shown_number b)) \/
     (exists ja jx jb a x b, (i <= ja <= jx)%nat /\ (jx <= jb <= m')%nat /\ about way_at ds ja a /\ about way_max ds jx x /\ about number ds jb b /\
        v = working_word /\ l = way_line view b a x))).
Proof.
  intros ix fp inBlocks view ds. destruct (rw_ways_tracks ix fp inBlocks) as [TA TM]. destruct (rw_other_tracks ix fp inBlocks) as [TP TN].
  change (fst (rw_worker_told ix fp inBlocks)) with ds in TA, TM, TP, TN. split.
  - intros n w l D. pose proof (doing_le _ _ _ D) as Ln.
    pose proof (tracks_doing _ _ _ ds n w (rw_word w) TP D eq_refl) as P. cbv beta in P.
    assert (Ok_ : rw_phase (fun _ => status_at ds n CState) <> ""%string) by (rewrite phase_state, P; apply rw_word_ok).
    destruct (widget_states view (status_at ds n CState) Ok_) as (k & K & C). rewrite K. rewrite phase_state, P in C.
    assert (One : forall u x, (forall x', look ds n u n x' -> x' = x) -> look ds n u n x -> (look ds n u n l <-> l = x)).
    { intros u x U1 U2. split; [apply U1|intros ->; exact U2]. }
    assert (Down : forall c (k' : Z -> update) x, (look ds n (k' (status_at ds n c)) n l <-> l = x) -> (look ds n (Load c k') n l <-> l = x)).
    { intros c k' x U. rewrite <- U. split.
      - intros L. apply look_load_inv in L. destruct L as (n' & Ln' & L). assert (n' = n) as -> by (pose proof (look_le _ _ _ _ _ L); lia). exact L.
      - intros L. apply (look_load ds n n n c k'); [lia|exact L]. }
    assert (Leaf : forall x, look ds n (Show x) n l <-> l = x).
    { intros x. split; [intros L; apply look_show_inv in L; exact (proj2 L)|intros ->; apply look_show]. }
    apply Down. destruct C as [(S0 & W & ->)|[(S2 & W & ->)|(N0 & N2 & W0 & W2 & ->)]].
    + rewrite Leaf. assert (Q : rw_line view w = Text (bytes_of waiting_word)).
      { destruct w; cbn in W; try discriminate W; unfold rw_line, said; cbn [rw_word]; change (String.eqb waiting_word waiting_word) with true; reflexivity. }
      rewrite Q. reflexivity.
    + destruct w; cbn in W; try discriminate W. apply Down, Down, Down. rewrite Leaf.
      rewrite (tracks_doing _ _ _ ds n _ (u64 i) TA D eq_refl), (tracks_doing _ _ _ ds n _ (u64 n0) TM D eq_refl).
      pose proof (tracks_doing _ _ _ ds n _ b TN D eq_refl) as B. unfold v_block in B. rewrite B. reflexivity.
    + apply Down. rewrite Leaf. destruct w; cbn in W0, W2; try (exfalso; apply W0; reflexivity); try (exfalso; apply W2; reflexivity);
        pose proof (tracks_doing _ _ _ ds n _ _ TN D eq_refl) as B; unfold v_block in B; rewrite B; reflexivity.
  - intros m m' l L. assert (exists k, rw_worker_widget view = Load CState k) as [k0 K0] by (eexists; reflexivity). rewrite K0 in L.
    apply look_load_inv in L. destruct L as (i & Li & L).
    assert (A : about (f_word rw_word) ds i (rw_phase (status_at ds i))).
    { apply (tracks_about _ _ _ ds i TP); [lia|]. exists i. split; [lia|reflexivity]. }
    pose proof (about_word_ok _ _ _ _ rw_word_ok A) as Ok_. destruct (widget_states view (status_at ds i CState) Ok_) as (k & K & C). rewrite K0 in K. injection K as <-.
    rewrite phase_state in C. pose proof (look_le _ _ _ _ _ L) as Le. exists i, (rw_phase (status_at ds i)). split; [lia|]. split; [exact A|].
    assert (Nm : forall j, (i <= j <= List.length ds)%nat -> status_at ds i CState <> 0 -> about number ds j (status_at ds j CBlock)).
    { intros j Lj N0. apply (tracks_about _ v_block _ ds j TN); [lia|]. exists i. split; [lia|]. unfold on_state. rewrite (proj2 (Z.eqb_neq _ _) N0). reflexivity. }
    destruct C as [(S0 & W & C)|[(S2 & W & C)|(N0 & N2 & W0 & W2 & C)]]; rewrite C in L.
    + left. apply look_show_inv in L. rewrite W. split; [reflexivity|exact (proj2 L)].
    + right; right. apply look_load_inv in L. destruct L as (ja & La & L). apply look_load_inv in L. destruct L as (jx & Lx & L). apply look_load_inv in L. destruct L as (jb & Lb & L).
      apply look_show_inv in L. destruct L as [-> ->]. exists ja, jx, jb. do 3 eexists. split; [lia|]. split; [lia|].
      split; [apply (tracks_about _ (fun s => s CWay) _ ds ja TA); [lia|]; exists i; split; [lia|]; unfold on_ways; rewrite S2; reflexivity|].
      split; [apply (tracks_about _ (fun s => s CWays) _ ds jx TM); [lia|]; exists i; split; [lia|]; unfold on_ways; rewrite S2; reflexivity|].
      split; [apply Nm; [lia|rewrite S2; discriminate]|]. split; [exact W|reflexivity].
    + right; left. apply look_load_inv in L. destruct L as (j & Lj & L). apply look_show_inv in L. destruct L as [-> ->]. exists j, (status_at ds j CBlock).
      split; [lia|]. split; [exact W0|]. split; [exact W2|]. split; [apply Nm; [lia|exact N0]|reflexivity].
Qed.
(** C103.  If the worker does not go on to another block while the line is made and the line is about ways, its numbers are those of one way that was at work (or
    about to be) at one moment while the line was made; the way's number is not larger than the number of ways. *)
Lemma pC103_same_block : forall ix finalPass inBlocks view m m' l, let ds := fst (rw_worker_told ix finalPass inBlocks) in
  look ds m (rw_worker_widget view) m' l -> same_block ds m m' ->
  (exists j b i n, (m <= j <= m')%nat /\ about rewriting ds j (b, i, n) /\ 0 <= i <= n /\ l = way_line view b (u64 i) (u64 n)) \/
  (exists j v b, (m <= j <= m')%nat /\ about (f_word rw_word) ds j v /\ v <> working_word /\ l = Text (bytes_of v ++ b)).
Proof.
  intros ix fp inBlocks view m m' l ds L SB. pose proof (rw_worker_orderly ix fp inBlocks) as OD. destruct (rw_other_tracks ix fp inBlocks) as [TP TN].
  change (fst (rw_worker_told ix fp inBlocks)) with ds in OD, TP, TN.
  assert (exists k, rw_worker_widget view = Load CState k) as [k0 K0] by (eexists; reflexivity). rewrite K0 in L.
  apply look_load_inv in L. destruct L as (i & Li & L).
  assert (A : about (f_word rw_word) ds i (rw_phase (status_at ds i))).
  { apply (tracks_about _ _ _ ds i TP); [lia|]. exists i. split; [lia|reflexivity]. }
  pose proof (about_word_ok _ _ _ _ rw_word_ok A) as Ok_. destruct (widget_states view (status_at ds i CState) Ok_) as (k & K & C). rewrite K0 in K. injection K as <-.
  rewrite phase_state in C. pose proof (look_le _ _ _ _ _ L) as Le.
  destruct C as [(S0 & W & C)|[(S2 & W & C)|(N0 & N2 & W0 & W2 & C)]]; rewrite C in L.
  - right. apply look_show_inv in L. exists i, (rw_phase (status_at ds i)), []. split; [lia|]. split; [exact A|]. rewrite W. split; [discriminate|]. rewrite app_nil_r. exact (proj2 L).
  - left. apply look_load_inv in L. destruct L as (ja & La & L). apply look_load_inv in L. destruct L as (jx & Lx & L). apply look_load_inv in L. destruct L as (jb & Lb & L).
    apply look_show_inv in L. destruct L as [-> ->].
    destruct (orderly_same ds i ja OD ltac:(lia) (same_block_part ds m jb i ja SB ltac:(lia) ltac:(lia)) S2) as (B1 & X1 & q & n & I & X & Wy & Ab).
    destruct (orderly_same ds i jx OD ltac:(lia) (same_block_part ds m jb i jx SB ltac:(lia) ltac:(lia)) S2) as (_ & X2 & _).
    destruct (orderly_same ds i jb OD ltac:(lia) (same_block_part ds m jb i jb SB ltac:(lia) ltac:(lia)) S2) as (B2 & _ & _).
    exists ja, (status_at ds ja CBlock), q, n. split; [lia|]. split; [exact Ab|]. split; [exact I|]. rewrite X2, B2, Wy, <- X, <- B1, <- X1. reflexivity.
  - right. apply look_load_inv in L. destruct L as (j & Lj & L). apply look_show_inv in L. destruct L as [-> ->]. exists i, (rw_phase (status_at ds i)), (d_ (status_at ds j CBlock)).
    split; [lia|]. split; [exact A|]. split; [exact W2|reflexivity].
Qed.

Definition ex_rw_blocks : list (zenv * Block) :=
  [(ex_env, mkBlk 0 (exact [1]) (bytes_of "OSMHeader")); (ex_env, mkBlk 1 (exact (ex_blob [mkWay 5 [] [] [-7]; mkWay 6 [] [] [-8; -9]])) (bytes_of "OSMData"));
   (ex_env, mkBlk 2 (exact (ex_blob [mkWay 7 [] [] [-7]])) (bytes_of "OSMData"))].
Lemma ex_rw_deeds : fst (rw_worker_told (sub_index_of [] [] 0) false ex_rw_blocks) =
  [Doing Waiting; Doing (Passing 0); Doing Waiting; Store CBlock 1; Store CState 1; Doing (Decoding 1); Store CWays 2; Store CWay 0; Store CState 2; Doing (Rewriting 1 0 2);
   AddTo CWay 1; Doing (Rewriting 1 1 2); AddTo CWay 1; Doing (Rewriting 1 2 2); Store CState 3; Doing (Sending 1); Store CState 0; Doing Waiting;
   Store CBlock 2; Store CState 1; Doing (Decoding 2); Store CWays 1; Store CWay 0; Store CState 2; Doing (Rewriting 2 0 1);
   AddTo CWay 1; Doing (Rewriting 2 1 1); Store CState 3; Doing (Sending 2); Store CState 0; Doing Waiting].
Proof. vm_compute. reflexivity. Qed.
Ltac at_load m n := apply (look_load _ m n); [cbn; lia|].
(** C103 is false of the code without "at the same moment": a line begun at the last way of block 1, which has two, and done in block 2, which has one. *)
Lemma pC103_race_refuted : exists m m', let ds := fst (rw_worker_told (sub_index_of [] [] 0) false ex_rw_blocks) in
  look ds m (rw_worker_widget false) m' (Text (bytes_of "Worker: working on block 2, way 2/1")) /\
  doing ds 2 (Passing 0) /\ look ds 2 (rw_worker_widget false) 2 (Text (bytes_of "Worker: waiting for block")).
Proof.
  exists 14%nat, 22%nat. cbv zeta. rewrite ex_rw_deeds. split; [|split].
  - at_load 14%nat 14%nat. at_load 14%nat 14%nat. at_load 14%nat 22%nat. at_load 22%nat 22%nat. apply look_show.
  - apply doing_nth. reflexivity.
  - at_load 2%nat 2%nat. apply look_show.
Qed.
(** An example: the second of two ways. *)
Lemma pC103_ex : let ds := fst (rw_worker_told (sub_index_of [] [] 0) false ex_rw_blocks) in
  doing ds 14 (Rewriting 1 2 2) /\ look ds 14 (rw_worker_widget false) 14 (Text (bytes_of "Worker: working on block 1, way 2/2")) /\
  same_block ds 10 14 /\ look ds 10 (rw_worker_widget false) 14 (Text (bytes_of "Worker: working on block 1, way 1/2")).
Proof.
  cbv zeta. rewrite ex_rw_deeds. split; [|split; [|split]].
  - apply doing_nth. reflexivity.
  - do 4 at_load 14%nat 14%nat. apply look_show.
  - unfold same_block. cbn. intros H. repeat destruct H as [H|H]; discriminate H || exact H.
  - at_load 10%nat 11%nat. at_load 11%nat 12%nat. at_load 12%nat 13%nat. at_load 13%nat 14%nat. apply look_show.
Qed.
