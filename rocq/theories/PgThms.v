(** * PgThms: progress (C97). *)
From Verif Require Import Base PbSpec TModel FrModel FrSpec TrModel TmModel PgModel PgSpec.
From Verif Require Import BaseLemmas FrProofs FrThms.

(** ** the record *)
Lemma sslice_bounds b i j out : sslice b i j = Ok out -> 0 <= i <= j /\ j <= scap b.
Proof. unfold sslice. destruct (_ && _) eqn:E; [|discriminate]. intros _. lia. Qed.
Lemma sslice_vis_len file i out : sslice (exact file) i (zlen file) = Ok out -> zlen (vis out) = zlen file - i.
Proof.
  intros H. pose proof (sslice_bounds _ _ _ _ H) as B. unfold sslice in H. destruct (_ && _); [|discriminate]. injection H as <-. cbn [vis exact ext]. rewrite app_nil_r.
  unfold zlen in *. rewrite firstn_length, skipn_length. lia.
Qed.
Lemma be32_len l n : be32_get l = Ok n -> 4 <= zlen l.
Proof. unfold be32_get. destruct l as [|a [|b [|c [|d r]]]]; try discriminate. intros _. rewrite !zlen_cons. pose proof (zlen_nonneg r). lia. Qed.

Definition pinv (file : list Z) (s : ppc * pfs * Z) : Prop :=
  let '(pc, p, _) := s in
  0 <= p_at p <= zlen file /\
  match pc with PStart => p_state p = 0 /\ p_at p = 0 | PMax => p_state p = 0 | _ => p_max p = zlen file end /\
  match pc with PSend ds => p_at p <= u64 (p_at p + ds) <= zlen file | _ => True end.
Lemma scap_exact file : scap (exact file) = zlen file.
Proof. unfold scap, slen, exact, zlen. cbn [vis ext List.length]. lia. Qed.
Lemma pinv_step file c s s' : zlen file < 2^63 -> pinv file s -> pstep file c s = Ok s' -> pinv file s' /\ p_at (snd (fst s)) <= p_at (snd (fst s')).
Proof.
  intros L. destruct s as ((pc & p) & sent). intros (I1 & I2 & I3) E. unfold pstep in E. destruct pc; cbn [fst snd].
  - injection E as <-. cbn [pinv fst snd p_at p_state p_max]. destruct I2 as (I2 & I4). repeat split; try assumption; lia.
  - injection E as <-. cbn [pinv fst snd p_at p_state p_max]. repeat split; lia.
  - destruct (p_at p <? p_max p); injection E as <-; cbn [pinv fst snd p_at p_state p_max]; repeat split; lia.
  - destruct (sslice _ _ _) as [h| |] eqn:E1; try discriminate. cbn [bind] in E. destruct (be32_get _) as [n| |] eqn:E2; try discriminate. cbn [bind] in E. injection E as <-.
    pose proof (sslice_vis_len _ _ _ E1). pose proof (be32_len _ _ E2). cbn [pinv fst snd p_at p_state p_max]. rewrite u64_id by (unfold is_u64; lia). repeat split; lia.
  - destruct (sslice _ _ _) as [h| |] eqn:E1; try discriminate. cbn [bind] in E. destruct (ReadBlobHeader _) as [n| |] eqn:E2; try discriminate. cbn [bind] in E. injection E as <-.
    apply sslice_bounds in E1. rewrite scap_exact in E1. cbn [pinv fst snd p_at p_state p_max]. repeat split; lia.
  - destruct (_ && _); [discriminate|]. destruct (sslice _ _ _) as [h| |] eqn:E1; try discriminate. cbn [bind] in E. injection E as <-.
    apply sslice_bounds in E1. rewrite scap_exact in E1. cbn [pinv fst snd p_at p_state p_max]. repeat split; lia.
  - destruct c; injection E as <-; cbn [pinv fst snd p_at p_state p_max]; repeat split; lia.
  - injection E as <-. cbn [pinv fst snd p_at p_state p_max]. repeat split; lia.
  - injection E as <-. cbn [pinv fst snd]. repeat split; lia.
Qed.
Lemma prun_inv file (P : ppc * pfs * Z -> Prop) : (forall c s s', P s -> pstep file c s = Ok s' -> P s') ->
  forall cs s i x, P s -> nth_error (prun file cs s) i = Some x -> P x.
Proof.
  intros St. induction cs as [|c cs IH]; intros s i x Hs E; destruct i as [|i]; cbn [prun nth_error] in E; try (injection E as <-; exact Hs).
  - destruct i; discriminate.
  - destruct (pstep file c s) as [s'| |] eqn:E1; [|destruct i; discriminate|destruct i; discriminate]. eapply IH; [|exact E]. eapply St; eassumption.
Qed.
Lemma start_inv file : pinv file (PStart, mkPfs Initializing 0 0, 0).
Proof. cbn. pose proof (zlen_nonneg file). repeat split; lia. Qed.
Lemma run_inv file cs i x : zlen file < 2^63 -> nth_error (file_run file cs) i = Some x -> pinv file x.
Proof. intros L E. eapply prun_inv; [|exact (start_inv file)|exact E]. intros c s s' Hs E1. apply (pinv_step file c s s' L Hs E1). Qed.
(** later records of a run are those of a run from the earlier one *)
Lemma prun_later file (R : ppc * pfs * Z -> ppc * pfs * Z -> Prop) : (forall x, R x x) -> (forall x y z, R x y -> R y z -> R x z) ->
  (forall c s s', pinv file s -> pstep file c s = Ok s' -> R s s') -> zlen file < 2^63 ->
  forall cs s i j x y, pinv file s -> (i <= j)%nat -> nth_error (prun file cs s) i = Some x -> nth_error (prun file cs s) j = Some y -> R x y.
Proof.
  intros Rr Rt St L. induction cs as [|c cs IH]; intros s i j x y Hs Hij Ei Ej.
  - destruct j as [|j]; cbn [prun nth_error] in Ej; [|destruct j; discriminate]. destruct i; [|lia]. cbn [prun nth_error] in Ei. injection Ei as <-. injection Ej as <-. apply Rr.
  - assert (G : R s y).
    { clear Ei Hij. destruct j as [|j]; cbn [prun nth_error] in Ej; [injection Ej as <-; apply Rr|]. destruct (pstep file c s) as [s'| |] eqn:E1; [|destruct j; discriminate|destruct j; discriminate].
      pose proof (pinv_step file c s s' L Hs E1) as (Hs' & _).
      apply (Rt s s' y); [apply (St c); assumption|]. apply (IH s' 0%nat j); [exact Hs'|lia| |exact Ej]. destruct cs; reflexivity. }
    destruct i as [|i]; cbn [prun nth_error] in Ei; [injection Ei as <-; exact G|].
    destruct j as [|j]; [lia|]. cbn [prun nth_error] in Ej. destruct (pstep file c s) as [s'| |] eqn:E1; [|destruct i; discriminate|destruct i; discriminate].
    pose proof (pinv_step file c s s' L Hs E1) as (Hs' & _). apply (IH s' i j); auto. lia.
Qed.
Lemma run_mono file cs i j x y : zlen file < 2^63 -> (i <= j)%nat -> nth_error (file_run file cs) i = Some x -> nth_error (file_run file cs) j = Some y ->
  p_at (snd (fst x)) <= p_at (snd (fst y)).
Proof.
  intros L. apply (prun_later file (fun x y => p_at (snd (fst x)) <= p_at (snd (fst y)))); [intros; lia|intros; lia| |exact L|apply start_inv].
  intros c s s' H E. apply (pinv_step file c s s' L H E).
Qed.
(** once the state is not Initializing, max is the size of the file *)
Lemma run_max file cs i j x y : zlen file < 2^63 -> (i <= j)%nat -> nth_error (file_run file cs) i = Some x -> nth_error (file_run file cs) j = Some y ->
  p_state (snd (fst x)) <> 0 -> p_max (snd (fst y)) = zlen file.
Proof.
  intros L Hij Ex Ey Hs. assert (Px : p_max (snd (fst x)) = zlen file).
  { pose proof (run_inv _ _ _ _ L Ex) as I. destruct x as ((pc & p) & n). cbn [fst snd] in *. destruct I as (_ & I & _). destruct pc; try exact I; [destruct I as (I & _); congruence|congruence]. }
  apply (prun_later file (fun x y => (p_max (snd (fst x)) = zlen file -> p_max (snd (fst y)) = zlen file))) with (cs := cs) (s := (PStart, mkPfs Initializing 0 0, 0)) (i := i) (j := j) (x := x).
  - intros; assumption.
  - intros a b c H1 H2 H3. apply H2, H1, H3.
  - clear. intros c s s' Hs E Hm. destruct s as ((pc & p) & n). cbn [fst snd] in *. unfold pstep in E.
    destruct pc; repeat match type of E with context [if ?b then _ else _] => destruct b; try discriminate
      | bind ?r _ = _ => destruct r; try discriminate; cbn [bind] in E end; injection E as <-; cbn; exact Hm || reflexivity.
  - exact L.
  - apply start_inv.
  - exact Hij.
  - exact Ex.
  - exact Ey.
  - exact Px.
Qed.

(** C97.  Whatever the file's bytes are, at every moment at which the position in the file is shown ("loading block 123/456"), the size shown
    is that of the file and the position is not beyond it; and it is never less than one shown before. *)
Lemma pC97_numbers : forall file choices i j k state at_ max, bytes file -> zlen file < 2^63 ->
  glance (file_run file choices) i j k state at_ max -> state = LoadingBlock \/ state = SendingBlock ->
  max = zlen file /\ 0 <= at_ <= max.
Proof.
  intros file cs i j k st a m _ L (Hi & (pc1 & p1 & n1 & E1 & <-) & (pc2 & p2 & n2 & E2 & <-) & (pc3 & p3 & n3 & E3 & <-)) Hs.
  assert (M : p_max p3 = zlen file). { apply (run_max file cs i k _ _ L ltac:(lia) E1 E3). cbn. unfold LoadingBlock, SendingBlock in Hs. lia. }
  split; [exact M|]. rewrite M. exact (proj1 (run_inv _ _ _ _ L E2)).
Qed.
Lemma pC97_never_back : forall file choices i j k state at_ max i' j' k' state' at_' max', bytes file -> zlen file < 2^63 ->
  glance (file_run file choices) i j k state at_ max -> glance (file_run file choices) i' j' k' state' at_' max' -> (k <= i')%nat -> at_ <= at_'.
Proof.
  intros file cs i j k st a m i' j' k' st' a' m' _ L (Hi & _ & (pc2 & p2 & n2 & E2 & <-) & _) (Hi' & _ & (pc3 & p3 & n3 & E3 & <-) & _) Hk.
  apply (run_mono file cs j j' _ _ L ltac:(lia) E2 E3).
Qed.

(** ** files of frames *)
Definition cut (fb : list Z) (sz hdr data ty : list Z) : Prop :=
  fb = sz ++ hdr ++ data /\ big_endian4 sz (zlen hdr) /\ (forall e, bytes e -> ReadBlobHeader (mkslice hdr e) = Ok (mkBlobHeader ty (zlen data))) /\ known_type ty.
Definition total (l : list (list Z)) : Z := zlen (concat l).
Definition pos (fbs : list (list Z)) (s : ppc * pfs * Z) : Prop :=
  let '(pc, p, sent) := s in
  exists done_ rest, fbs = done_ ++ rest /\ sent = zlen done_ /\
  match pc with PStart => True | PMax => True | _ => p_max p = total fbs end /\
  match pc with
  | PStart | PMax => done_ = [] /\ p_at p = 0
  | PLoop => p_at p = total done_
  | PLoading => p_at p = total done_ /\ rest <> []
  | PHeader n => exists sz hdr data ty r, rest = (sz ++ hdr ++ data) :: r /\ cut (sz ++ hdr ++ data) sz hdr data ty /\ p_at p = total done_ + 4 /\ n = zlen hdr
  | PType bh => exists sz hdr data ty r, rest = (sz ++ hdr ++ data) :: r /\ cut (sz ++ hdr ++ data) sz hdr data ty /\ p_at p = total done_ + 4 + zlen hdr /\ bh = mkBlobHeader ty (zlen data)
  | PSend ds => exists sz hdr data ty r, rest = (sz ++ hdr ++ data) :: r /\ cut (sz ++ hdr ++ data) sz hdr data ty /\ p_at p = total done_ + 4 + zlen hdr /\ ds = zlen data
  | PDown | PEnd => total done_ <= p_at p <= total (done_ ++ firstn 1 rest)
  end.
(** steps left if nothing is cancelled *)
Definition left_ (fbs : list (list Z)) (s : ppc * pfs * Z) : Z :=
  let '(pc, p, sent) := s in
  let n := zlen fbs - sent in
  match pc with PStart => 5 * n + 4 | PMax => 5 * n + 3 | PLoop => 5 * n + 2 | PLoading => 5 * n + 1 | PHeader _ => 5 * n | PType _ => 5 * n - 1 | PSend _ => 5 * n - 2 | PDown => 1 | PEnd => 0 end.
Definition whole (fbs : list (list Z)) (s : ppc * pfs * Z) : Prop :=
  let '(pc, p, sent) := s in match pc with PDown | PEnd => sent = zlen fbs /\ p_at p = total fbs /\ (pc = PEnd -> p_state p = ShuttingDown) | _ => True end.
Lemma total_app a b : total (a ++ b) = total a + total b. Proof. unfold total. rewrite concat_app, zlen_app. reflexivity. Qed.
Lemma total_cons a b : total (a :: b) = zlen a + total b. Proof. unfold total. cbn [concat]. rewrite zlen_app. reflexivity. Qed.
Lemma total_nonneg a : 0 <= total a. Proof. apply zlen_nonneg. Qed.

Lemma pos_step file fbs c s : bytes file -> zlen file < 2^63 -> frames file fbs -> pos fbs s -> exists s', pstep file c s = Ok s' /\ pos fbs s' /\
  (c = false -> whole fbs s -> whole fbs s' /\ left_ fbs s' = Z.max 0 (left_ fbs s - 1)).
Proof.
  intros Hb L (Ef & Hf). assert (Lf : zlen file = total fbs) by (rewrite Ef; reflexivity).
  destruct s as ((pc & p) & sent). intros (dn & rest & E & Es & M & P). unfold pstep.
  pose proof (total_nonneg dn) as T0. pose proof (total_nonneg rest) as T1.
  assert (Te : total fbs = total dn + total rest) by (rewrite E; apply total_app).
  assert (Ze : zlen fbs = zlen dn + zlen rest) by (rewrite E; apply zlen_app).
  pose proof (zlen_nonneg rest) as Zr. pose proof (zlen_nonneg dn) as Zd.
  destruct pc.
  - destruct P as (-> & P). eexists. split; [reflexivity|]. split; [|intros _ _; split; [exact I|cbn [left_]; lia]].
    exists [], rest. repeat split; auto.
  - destruct P as (-> & P). eexists. split; [reflexivity|]. split; [|intros _ _; split; [exact I|cbn [left_]; lia]].
    exists [], rest. repeat split; auto.
  - destruct (p_at p <? p_max p) eqn:Lt.
    + eexists. split; [reflexivity|]. split; [|intros _ _; split; [exact I|cbn [left_]; lia]].
      exists dn, rest. repeat split; auto. intros ->. change (total []) with 0 in *. lia.
    + assert (rest = []).
      { destruct rest as [|fb r]; [reflexivity|]. exfalso. rewrite E in Hf. apply Forall_app in Hf. destruct Hf as (_ & Hf). apply Forall_inv in Hf.
        destruct Hf as (ty & data & (sz & hdr & -> & Hz & _) & _). rewrite total_cons in Te. rewrite !zlen_app, (big_endian4_len _ _ Hz) in Te. pose proof (zlen_nonneg hdr). pose proof (zlen_nonneg data). pose proof (total_nonneg r). lia. }
      subst rest. rewrite app_nil_r in E. subst dn. change (total []) with 0 in *.
      eexists. split; [reflexivity|]. split.
      * exists fbs, []. split; [symmetry; apply app_nil_r|]. split; [exact Es|]. split; [exact M|]. cbn [firstn]. rewrite app_nil_r. lia.
      * intros _ _. cbn [whole left_]. change (zlen (@nil (list Z))) with 0 in *. split; [|lia]. repeat split; [lia|lia|discriminate].
  - destruct P as (Pa & Pn). destruct rest as [|fb r]; [congruence|]. rewrite E in Hf. apply Forall_app in Hf. destruct Hf as (_ & Hf). apply Forall_inv in Hf.
    destruct Hf as (ty & data & (sz & hdr & -> & Hz & Hh) & Hk). pose proof (big_endian4_len _ _ Hz) as Ls.
    assert (F : file = concat dn ++ sz ++ hdr ++ data ++ concat r) by (rewrite Ef, E, concat_app; cbn [concat]; rewrite <- !app_assoc; reflexivity).
    assert (E1 : sslice (exact file) (p_at p) (zlen file) = Ok (mkslice (sz ++ hdr ++ data ++ concat r) [])).
    { rewrite Pa. replace (zlen file) with (total dn + zlen (sz ++ hdr ++ data ++ concat r)) by (rewrite F, (zlen_app (concat dn)); reflexivity).
      pose proof (exact_slice (concat dn) (sz ++ hdr ++ data ++ concat r) []) as X. rewrite app_nil_r in X. rewrite F. exact X. }
    rewrite E1. cbn [bind vis]. rewrite (big_endian4_get _ _ _ Hz). cbn [bind]. eexists. split; [reflexivity|]. split; [|intros _ _; split; [exact I|cbn [left_]; lia]].
    exists dn, ((sz ++ hdr ++ data) :: r). repeat split; auto. exists sz, hdr, data, ty, r. cbn [p_at]. repeat split; auto. rewrite Pa, u64_id; [reflexivity|].
    assert (4 <= total ((sz ++ hdr ++ data) :: r)) by (rewrite total_cons, !zlen_app, Ls; pose proof (zlen_nonneg hdr); pose proof (zlen_nonneg data); pose proof (total_nonneg r); lia). unfold is_u64. lia.
  - destruct P as (sz & hdr & data & ty & r & -> & (_ & Hz & Hh & Hk) & Pa & ->). pose proof (big_endian4_len _ _ Hz) as Ls.
    assert (F : file = (concat dn ++ sz) ++ hdr ++ data ++ concat r) by (rewrite Ef, E, concat_app; cbn [concat]; rewrite <- !app_assoc; reflexivity).
    rewrite total_cons, !zlen_app, Ls in Te. rewrite zlen_cons in Ze, Zr. pose proof (zlen_nonneg r). pose proof (zlen_nonneg hdr). pose proof (zlen_nonneg data). pose proof (total_nonneg r).
    assert (U : u64 (p_at p + zlen hdr) = total dn + 4 + zlen hdr) by (rewrite u64_id; [lia|unfold is_u64; lia]).
    assert (E1 : sslice (exact file) (p_at p) (u64 (p_at p + zlen hdr)) = Ok (mkslice hdr (data ++ concat r))).
    { rewrite U, Pa. pose proof (exact_slice (concat dn ++ sz) hdr (data ++ concat r)) as X. rewrite zlen_app, Ls, <- F in X. exact X. }
    rewrite E1. cbn [bind]. rewrite Hh by (rewrite F in Hb; apply Forall_app in Hb; destruct Hb as (_ & Hb); apply Forall_app in Hb; exact (proj2 Hb)). cbn [bind].
    eexists. split; [reflexivity|]. split; [|intros _ _; split; [exact I|cbn [left_]; lia]].
    exists dn, ((sz ++ hdr ++ data) :: r). repeat split; auto. exists sz, hdr, data, ty, r. cbn [p_at]. repeat split; auto.
  - destruct P as (sz & hdr & data & ty & r & -> & (_ & Hz & Hh & Hk) & Pa & ->). pose proof (big_endian4_len _ _ Hz) as Ls. cbn [bh_Type bh_DataSize]. rewrite (known_seqb _ Hk).
    assert (F : file = (concat dn ++ sz ++ hdr) ++ data ++ concat r) by (rewrite Ef, E, concat_app; cbn [concat]; rewrite <- !app_assoc; reflexivity).
    rewrite total_cons, !zlen_app, Ls in Te. rewrite zlen_cons in Ze, Zr. pose proof (zlen_nonneg r). pose proof (zlen_nonneg hdr). pose proof (zlen_nonneg data). pose proof (total_nonneg r).
    assert (U0 : u64 (zlen data) = zlen data) by (apply u64_id; unfold is_u64; lia).
    assert (U : u64 (p_at p + u64 (zlen data)) = total dn + 4 + zlen hdr + zlen data) by (rewrite U0, u64_id; [lia|unfold is_u64; lia]).
    assert (E1 : sslice (exact file) (p_at p) (u64 (p_at p + u64 (zlen data))) = Ok (mkslice data (concat r))).
    { rewrite U, Pa. pose proof (exact_slice (concat dn ++ sz ++ hdr) data (concat r)) as X. rewrite !zlen_app, Ls, <- F in X. rewrite <- X. f_equal; unfold total; lia. }
    rewrite E1. cbn [bind]. eexists. split; [reflexivity|]. split; [|intros _ _; split; [exact I|cbn [left_]; lia]].
    exists dn, ((sz ++ hdr ++ data) :: r). repeat split; auto. exists sz, hdr, data, ty, r. cbn [p_at]. repeat split; auto.
  - destruct P as (sz & hdr & data & ty & r & -> & (_ & Hz & Hh & Hk) & Pa & ->). pose proof (big_endian4_len _ _ Hz) as Ls.
    rewrite total_cons, !zlen_app, Ls in Te. rewrite zlen_cons in Ze, Zr. pose proof (zlen_nonneg r). pose proof (zlen_nonneg hdr). pose proof (zlen_nonneg data). pose proof (total_nonneg r). destruct c.
    + eexists. split; [reflexivity|]. split; [|discriminate]. exists dn, ((sz ++ hdr ++ data) :: r). split; [exact E|]. split; [exact Es|]. split; [exact M|]. cbn [firstn]. rewrite total_app, total_cons, !zlen_app, Ls. change (total []) with 0. lia.
    + eexists. split; [reflexivity|]. split.
      * exists (dn ++ [sz ++ hdr ++ data]), r. split; [rewrite <- app_assoc; exact E|]. split; [rewrite zlen_app, Es; reflexivity|]. split; [exact M|]. cbn [p_at]. rewrite total_app, total_cons, !zlen_app, Ls. change (total []) with 0. rewrite u64_id by (unfold is_u64; lia). lia.
      * intros _ _. split; [exact I|]. cbn [left_]. lia.
  - eexists. split; [reflexivity|]. split.
    + exists dn, rest. repeat split; auto; cbn [p_at]; lia.
    + intros _ W. cbn [whole] in W. destruct W as (W1 & W2 & _). split; [|cbn [left_]; lia]. cbn [whole p_at p_state]. auto.
  - eexists. split; [reflexivity|]. split; [exists dn, rest; auto|]. intros _ W. split; [exact W|cbn [left_]; lia].
Qed.
Lemma pos_start fbs : pos fbs (PStart, mkPfs Initializing 0 0, 0).
Proof. exists [], fbs. repeat split. Qed.

(** C97.  For a file of frames: the position shown is always in the frame after those of the blocks sent so far (at its start or end included). *)
Lemma pC97_position : forall file fbs choices i pc p sent, bytes file -> zlen file < 2^63 -> frames file fbs ->
  nth_error (file_run file choices) i = Some (pc, p, sent) ->
  0 <= sent <= zlen fbs /\
  zlen (concat (firstn (Z.to_nat sent) fbs)) <= p_at p <= zlen (concat (firstn (Z.to_nat (sent + 1)) fbs)).
Proof.
  intros file fbs cs i pc p sent Hb L Hf E.
  assert (P : pos fbs (pc, p, sent)).
  { eapply prun_inv; [|exact (pos_start fbs)|exact E]. intros c s s' Hs E1. destruct (pos_step file fbs c s Hb L Hf Hs) as (s2 & E2 & Hs2 & _). congruence. }
  destruct P as (dn & rest & Ed & Es & _ & P). pose proof (zlen_nonneg dn). pose proof (zlen_nonneg rest).
  assert (Z1 : zlen fbs = zlen dn + zlen rest) by (rewrite Ed; apply zlen_app). split; [lia|].
  assert (F1 : firstn (Z.to_nat sent) fbs = dn).
  { rewrite Ed, firstn_app. replace (Z.to_nat sent - List.length dn)%nat with 0%nat by (unfold zlen in *; lia). rewrite firstn_O, app_nil_r. apply firstn_all2. unfold zlen in *. lia. }
  assert (F2 : firstn (Z.to_nat (sent + 1)) fbs = dn ++ firstn 1 rest).
  { rewrite Ed, firstn_app. replace (Z.to_nat (sent + 1) - List.length dn)%nat with 1%nat by (unfold zlen in *; lia). f_equal. apply firstn_all2. unfold zlen in *. lia. }
  rewrite F1, F2. change (zlen (concat dn)) with (total dn). change (zlen (concat (dn ++ firstn 1 rest))) with (total (dn ++ firstn 1 rest)). rewrite total_app. pose proof (total_nonneg (firstn 1 rest)) as T.
  assert (X : forall sz hdr data ty r, cut (sz ++ hdr ++ data) sz hdr data ty -> rest = (sz ++ hdr ++ data) :: r -> total (firstn 1 rest) = 4 + zlen hdr + zlen data).
  { intros sz hdr data ty r (_ & Hz & _) ->. cbn [firstn]. rewrite total_cons, !zlen_app, (big_endian4_len _ _ Hz). change (total []) with 0. lia. }
  destruct pc; cbn [p_at] in *.
  - destruct P as (-> & P). change (total []) with 0 in *. lia.
  - destruct P as (-> & P). change (total []) with 0 in *. lia.
  - lia.
  - lia.
  - destruct P as (sz & hdr & data & ty & r & Er & Hc & Pa & ->). rewrite (X _ _ _ _ _ Hc Er). pose proof (zlen_nonneg hdr). pose proof (zlen_nonneg data). lia.
  - destruct P as (sz & hdr & data & ty & r & Er & Hc & Pa & ->). rewrite (X _ _ _ _ _ Hc Er). pose proof (zlen_nonneg hdr). pose proof (zlen_nonneg data). lia.
  - destruct P as (sz & hdr & data & ty & r & Er & Hc & Pa & ->). rewrite (X _ _ _ _ _ Hc Er). pose proof (zlen_nonneg hdr). pose proof (zlen_nonneg data). lia.
  - rewrite total_app in P. lia.
  - rewrite total_app in P. lia.
Qed.
(** C97.  If it is not cancelled, the run over a file of frames ends, with all blocks sent and the position at the end of the file. *)
Lemma pC97_end : forall file fbs steps, bytes file -> zlen file < 2^63 -> frames file fbs -> (5 * List.length fbs + 4 <= steps)%nat ->
  last (file_run file (repeat false steps)) (PStart, mkPfs 0 0 0, 0) = (PEnd, mkPfs ShuttingDown (zlen file) (zlen file), zlen fbs).
Proof.
  intros file fbs steps Hb L Hf Hs.
  assert (G : forall n s, pos fbs s -> whole fbs s -> left_ fbs s <= Z.of_nat n -> last (prun file (repeat false n) s) (PStart, mkPfs 0 0 0, 0) = (PEnd, mkPfs ShuttingDown (zlen file) (zlen file), zlen fbs)).
  { induction n as [|n IH]; intros s P W Hl.
    - cbn [repeat prun last]. destruct s as ((pc & p) & sent). pose proof P as (dn & rest & Ed & Es & M & P').
      pose proof (zlen_nonneg dn). pose proof (zlen_nonneg rest). assert (Z1 : zlen fbs = zlen dn + zlen rest) by (rewrite Ed; apply zlen_app).
      assert (Zr : forall fb r, rest = fb :: r -> 1 <= zlen rest) by (intros fb r ->; rewrite zlen_cons; pose proof (zlen_nonneg r); lia).
      destruct pc; cbn [left_] in Hl; try lia.
      + destruct P' as (sz & hdr & data & ty & r & Er & _). specialize (Zr _ _ Er). lia.
      + destruct P' as (sz & hdr & data & ty & r & Er & _). specialize (Zr _ _ Er). lia.
      + destruct P' as (sz & hdr & data & ty & r & Er & _). specialize (Zr _ _ Er). lia.
      + destruct W as (W1 & W2 & W3). specialize (W3 eq_refl). destruct Hf as (Ef & _). rewrite W1. f_equal. f_equal. destruct p as [st a m]. cbn [p_state p_at p_max] in *. rewrite W2, W3, M, Ef. reflexivity.
    - cbn [repeat prun]. destruct (pos_step file fbs false s Hb L Hf P) as (s' & E & P2 & W2). rewrite E. specialize (W2 eq_refl W). destruct W2 as (W2 & Hl2).
      assert (N : forall x d, prun file (repeat false n) s' = x -> last (s :: x) d = last x d) by (intros x d <-; destruct n; reflexivity).
      rewrite (N _ _ eq_refl). apply IH; [exact P2|exact W2|lia]. }
  unfold file_run. apply G; [apply pos_start|exact I|]. cbn [left_]. unfold zlen. lia.
Qed.
(** a file of one block of two bytes; a widget reads the state while the header is read and the position after it *)
Definition ex_pg_file : list Z := [0; 0; 0; 13; 10; 9] ++ bytes_of "OSMHeader" ++ [24; 2; 7; 8].
Lemma pC97_ex : bytes ex_pg_file /\ frames ex_pg_file [ex_pg_file] /\ zlen ex_pg_file = 19 /\
  glance (file_run ex_pg_file [false; false; false; false; false]) 3 5 5 LoadingBlock 17 19 /\
  last (file_run ex_pg_file (repeat false 9)) (PStart, mkPfs 0 0 0, 0) = (PEnd, mkPfs ShuttingDown 19 19, 1) /\
  last (file_run ex_pg_file (repeat true 9)) (PStart, mkPfs 0 0 0, 0) = (PEnd, mkPfs ShuttingDown 17 19, 0).
Proof.
  assert (Hb : bytes ex_pg_file) by (repeat constructor; vm_compute; discriminate).
  split; [exact Hb|]. split.
  { split; [vm_compute; reflexivity|]. apply Forall_cons; [|apply Forall_nil]. destruct (proj1 (proj2 pC35_ex)) as (fb & rest & E & Hf & Hr). cbn in Hr. subst rest. rewrite app_nil_r in E. exists (bytes_of "OSMHeader"), [7; 8]. split; [|left; reflexivity].
    change ([0; 0; 0; 13; 10; 9] ++ bytes_of "OSMHeader" ++ [24; 2; 7; 8]) with ex_pg_file in E. rewrite E. exact Hf. }
  split; [reflexivity|]. split.
  { split; [lia|]. split; [|split]; (do 3 eexists; split; [vm_compute; reflexivity|reflexivity]). }
  split; vm_compute; reflexivity.
Qed.
