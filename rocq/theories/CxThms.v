(** * CxThms: what cancelled runs leave behind (C79). *)
From Verif Require Import Base HLThms ZlThms TfThms NiThms RwThms PbSpec TModel TSpec HLModel FrModel FrSpec ZlModel ZlSpec IoModel IoSpec TfModel TfSpec NiModel NiSpec NiThms RwModel RwSpec WiModel WiSpec RiModel RiSpec PlModel PlSpec PlThms CxModel CxSpec.
From Verif Require Import BaseLemmas PbModel PbProofs TProofs TMsg TMsg2 TThms TTyped HLProofs HLThms FrProofs FrThms ZlThms TfThms NiProofs NiProofs2 NiThms RwThms PlProofs2 PlThms.
From Verif Require Import NiSpec RwSpec PlSpec CxModel CxSpec.

(** ** One pass *)
Lemma start_reach {A B} (c : cfg A B) cn inp n k s : steps c k (pl_start c cn inp n) s -> reachable c inp n s.
Proof.
  assert (RS : forall k s s', steps c k s s' -> reachable c inp n s -> reachable c inp n s') by (clear; intros k s s' H; induction H as [|k s s' s'' ST _ IH]; intros R; [exact R|apply IH; eapply reach_step; eassumption]).
  intros H. apply (RS _ _ _ H). destruct cn; [|apply reach_init]. eapply reach_step; [apply reach_init|]. apply step_cancel.
Qed.
Lemma steps_cancelled {A B} (c : cfg A B) k s s' : steps c k s s' -> s_cancelled s = true -> s_cancelled s' = true.
Proof.
  assert (X : forall s s', PlModel.step c s s' -> s_cancelled s = true -> s_cancelled s' = true) by (intros ? ? ST; inversion ST; subst; cbn; auto).
  intros H. induction H as [|k s s' s'' ST _ IH]; intros P; [exact P|]. apply IH. eapply X; eassumption.
Qed.
Lemma conf_keeps envs ix fin bs : keeps_index (rw_conf envs ix fin) blk_Index bs.
Proof.
  pose proof (proj1 (pC37_keeps envs ix fin 0 (fun _ => false) (fun _ => false) (fun _ => false) (fun _ => false) (fun _ => false) false bs)) as K.
  intros a b Ha E. exact (K a b Ha E).
Qed.
(** What one pass wrote: the results for the first [m] blobs; all of them if it was not cancelled. *)
Lemma pass_part envs rs locs top fin workers file l cn cn' out : good_index rs locs top -> bytes file -> zlen file < 2^63 -> is_file file (map fst l) ->
  ready_all envs 0 l -> rw_pass_runs envs (sub_index_of rs locs top) fin workers file cn cn' out ->
  file <> [] /\ zlen out < 2^63 /\ (cn = true -> cn' = true) /\
  exists m bl, (m <= List.length l)%nat /\ mapm (RwThms.step (new_ref rs locs)) (firstn m l) = Ok bl /\ enc_file bl = Ok out /\ (cn' = false -> m = List.length l).
Proof.
  intros G Bf Lf F R [m bs k s Em Eb ST D C Eo Lo].
  assert (N : file <> []) by (intros ->; discriminate Em).
  assert (m = file) by (destruct file; [contradiction|cbn in Em; congruence]). subst m. clear Em.
  assert (Kn : Forall (fun b => known_type (fst b)) (map fst l)).
  { apply Forall_map, Forall_forall. intros x Hx. apply In_nth_error in Hx. destruct Hx as (i & Hx). specialize (R i x Hx). destruct x as [[ty data] q]. apply R. }
  destruct (pC34_split file (map fst l) Bf Lf F Kn) as (bs' & Eb' & Es). rewrite Eb in Eb'. injection Eb' as <-.
  pose proof (pC37_file_indexed file bs Bf Lf Eb) as IX.
  pose proof (start_reach _ _ _ _ _ _ ST) as RE.
  set (c := rw_conf envs (sub_index_of rs locs top) fin) in *.
  destruct (pC39_prefix _ _ c blk_Index bs workers s eq_refl IX (conf_keeps _ _ _ _) RE D) as (m & Hm & Ht).
  assert (LB : List.length bs = List.length l).
  { apply (f_equal (@List.length _)) in Es. rewrite map_length, numbered_length, map_length in Es. exact Es. }
  split; [exact N|]. split; [exact Lo|]. split.
  { intros ->. rewrite <- C. eapply steps_cancelled; [exact ST|]. reflexivity. }
  assert (Q : forall m', (m' <= List.length l)%nat -> mapm (c_work c) (firstn m' bs) = Ok (s_got s) ->
     mapm (RwThms.step (new_ref rs locs)) (firstn m' l) = Ok (map (fun b => (blk_Type b, vis (blk_Data b))) (s_got s))).
  { intros m' Hle H. pose proof (pass_map envs rs locs top fin G (firstn m' l) 0 (firstn m' bs)) as M.
    change (fun b => rw_worker (envs (blk_Index b)) (sub_index_of rs locs top) fin b) with (c_work c) in M. rewrite H in M. apply M.
    - intros i x Hx. apply R. rewrite <- (firstn_skipn m' l). rewrite nth_error_app1; [exact Hx|]. apply nth_error_Some. rewrite Hx. discriminate.
    - rewrite <- firstn_map, Es. unfold numbered. rewrite combine_firstn, map_length, firstn_map, firstn_length, (Nat.min_l _ _ Hle), firstn_map.
      f_equal. f_equal. clear - Hle. revert Hle. generalize 0%nat, (List.length l). intros a b. revert a b. induction m' as [|m' IH]; intros a [|b] H; cbn [seq firstn]; try reflexivity; [lia|]. rewrite IH by lia. reflexivity. }
  exists (Nat.min m (List.length l)), (map (fun b => (blk_Type b, vis (blk_Data b))) (s_got s)). split; [lia|]. split; [|split].
  - apply Q; [lia|]. rewrite <- LB. rewrite <- Hm. f_equal. destruct (Nat.min_spec m (List.length bs)) as [(L & ->)|(L & ->)]; [reflexivity|]. rewrite firstn_all, firstn_all2 by lia. reflexivity.
  - unfold enc_file, rewriter_writer in *. rewrite <- write_seen. exact Eo.
  - intros CF. assert (NP : s_cancelled s = false) by congruence.
    pose proof (the_inv c blk_Index bs workers IX (conf_keeps _ _ _ _) s RE) as I. destruct D as (D & _).
    destruct (i_read _ _ _ _ I ltac:(rewrite D; discriminate)) as [X|X]; [congruence|]. rewrite X in Ht. symmetry in Ht. apply (f_equal (@List.length _)) in Ht. rewrite skipn_length in Ht. cbn in Ht. lia.
Qed.

(** ** All passes *)
Lemma combine_map_fst {A B} (a : list A) : forall (b : list B), List.length a = List.length b -> map fst (combine a b) = a.
Proof. induction a as [|x a IH]; intros [|y b] H; cbn in *; try discriminate; [reflexivity|]. rewrite IH; [reflexivity|congruence]. Qed.
Lemma mapm_length {A B} (f : A -> res B) l out : mapm f l = Ok out -> List.length out = List.length l.
Proof. intros E. apply mapm_Forall2 in E. induction E; cbn; congruence. Qed.
Lemma mapm_firstn {A B} (f : A -> res B) l out j : mapm f l = Ok out -> mapm f (firstn j l) = Ok (firstn j out).
Proof.
  intros E. apply mapm_Forall2 in E. apply mapm_Forall2. revert j. induction E; intros [|j]; cbn [firstn]; constructor; auto.
Qed.
(** The file before pass [k]: a rewriting, by the passes so far, of the first blobs. *)
Definition stage (envs : Z -> Z -> zenv) rs locs n (l : list ((list Z * list Z) * PrimitiveBlock)) (k : nat) (cn : bool) (f : list Z) : Prop :=
  exists l', is_file f (map fst l') /\ bytes f /\ zlen f < 2^63 /\ (forall pass, ready_all (envs pass) 0 l') /\
    (List.length l' <= List.length l)%nat /\ (cn = false -> List.length l' = List.length l) /\
    forall j g r, (j <= List.length l')%nat -> mapm (RwThms.step g) (firstn j l') = Ok r ->
      mapm (RwThms.step (fun x => g (new_ref (firstn (cut (slice_size locs n * Z.of_nat k) 0 rs) rs) locs x))) (firstn j l) = Ok r.
Lemma stage_0 envs rs locs n l f : is_file f (map fst l) -> bytes f -> zlen f < 2^63 -> (forall pass, ready_all (envs pass) 0 l) -> stage envs rs locs n l 0 false f.
Proof.
  intros F B L R. exists l. split; [exact F|]. split; [exact B|]. split; [exact L|]. split; [exact R|]. split; [lia|]. split; [reflexivity|]. intros j g r _ E. rewrite <- E. apply step_ext. intros x. rewrite Z.mul_0_r. f_equal.
  destruct rs as [|a rs']; cbn [cut firstn]; unfold new_ref; cbn [linear_search]; destruct (x <? 0); reflexivity.
Qed.
(** One pass: the blobs written are the first [m] blobs rewritten by this pass and those before;
    the file written is again at such a stage. *)
Lemma stage_pass envs rs locs n l k cn f sub workers cn' out : index_ok rs locs -> Forall (fun x => is_s64 x /\ x <= 0) locs -> 1 <= n -> Z.of_nat k < n ->
  stage envs rs locs n l k cn f -> SubIndex (index_of rs locs) (Z.of_nat k) n = Ok sub ->
  rw_pass_runs (envs (Z.of_nat k)) sub (Z.of_nat k =? n - 1) workers f cn cn' out ->
  stage envs rs locs n l (S k) cn' out /\
  exists m bl, (m <= List.length l)%nat /\ (cn' = false -> m = List.length l) /\ enc_file bl = Ok out /\
    mapm (RwThms.step (new_ref (firstn (cut (slice_size locs n * Z.of_nat (S k)) 0 rs) rs) locs)) (firstn m l) = Ok bl.
Proof.
  intros Hi Hl Hn Hk (l' & F' & B' & L' & R' & Le & Lc & C') Es P. pose proof Hi as (Hok & Ha & Ht & _).
  assert (Hs64 : Forall is_s64 locs) by (revert Hl; apply Forall_impl; tauto). assert (Hneg : Forall (fun x => x <= 0) locs) by (revert Hl; apply Forall_impl; tauto).
  destruct (sub_good rs locs n (Z.of_nat k) sub Hi Hn ltac:(lia) Es) as (top & -> & G).
  destruct (pass_part _ _ _ _ _ _ _ _ _ _ _ G B' L' F' (R' _) P) as (_ & Lo & Cc & m & bl & Hm & Em & Eo & Cf).
  set (S_ := new_ref (pass_ranges rs locs (Z.of_nat k) n) locs) in *. set (l1 := firstn m l') in *.
  assert (L1 : List.length l1 = m) by (unfold l1; rewrite firstn_length; lia).
  assert (X : forall (g : Z -> Z) x, g (S_ (new_ref (firstn (cut (slice_size locs n * Z.of_nat k) 0 rs) rs) locs x)) = g (new_ref (firstn (cut (slice_size locs n * Z.of_nat (S k)) 0 rs) rs) locs x)).
  { intros g x. f_equal. unfold S_. rewrite (firstn_pass rs locs n k Hi Hn ltac:(lia)). apply new_ref_comp; [|rewrite <- firstn_pass by (assumption || lia)|exact Hneg].
    + rewrite <- firstn_pass by (assumption || lia). apply asc_firstn. exact Ha.
    + apply Forall_forall. intros y Hy. apply (proj1 (Forall_forall _ _) Hok). rewrite <- (firstn_skipn (cut (slice_size locs n * Z.of_nat (S k)) 0 rs) rs). apply in_or_app. left. exact Hy. }
  assert (Full : cn' = false -> m = List.length l).
  { intros E. rewrite (Cf E). apply Lc. destruct cn; [|reflexivity]. rewrite (Cc eq_refl) in E. discriminate. }
  split.
  - destruct (step_all S_ l1 bl Em) as (M1 & M2 & M3). cbn zeta in M1, M2, M3.
    set (l2 := combine bl (map (fun x => block_with S_ (snd x)) l1)) in *. exists l2.
    assert (R2 : forall pass, ready_all (envs pass) 0 l2).
    { intros pass i x' Hx'. destruct (M3 i x' Hx') as (x & Hx & Hs & Hq). destruct x' as [y q']. cbn [fst snd] in Hs, Hq. subst q'. destruct x as [[ty d] q]. cbn [snd].
      assert (Hx2 : nth_error l' i = Some (ty, d, q)) by (rewrite <- (firstn_skipn m l'); rewrite nth_error_app1; [exact Hx|apply nth_error_Some; unfold l1 in Hx; rewrite Hx; discriminate]).
      pose proof (R' pass i _ Hx2) as Rx. eapply step_ready; [apply new_ref_s64; exact Hs64|exact Rx| |exact Hs]. intros T. destruct Rx as (_ & _ & _ & Rx). apply Rx. exact T. }
    rewrite M1. destruct (enc_file_is bl out Eo) as (F2 & B2).
    { rewrite <- M1. apply Forall_map, Forall_forall. intros x Hx. apply In_nth_error in Hx. destruct Hx as (i & Hx). specialize (R2 0 i x Hx). destruct x as [[ty d] q].
      destruct R2 as (K1 & K2 & K3 & _). cbn. auto. }
    split; [exact F2|]. split; [exact B2|]. split; [exact Lo|]. split; [exact R2|]. split; [lia|]. split; [intros E; rewrite M2, L1; apply Full; exact E|].
    intros j g r Hj Eg. unfold l2 in Eg. rewrite combine_firstn, firstn_map in Eg.
    apply (step_comp_all S_ g (firstn j l1) (firstn j bl) r (mapm_firstn _ _ _ j Em)) in Eg.
    rewrite M2, L1 in Hj. unfold l1 in Eg. rewrite firstn_firstn, Nat.min_l in Eg by lia. apply C' in Eg; [|lia]. rewrite <- Eg. apply step_ext. intros x. symmetry. apply X.
  - exists m, bl. split; [lia|]. split; [exact Full|]. split; [exact Eo|]. apply C' in Em; [|exact Hm]. rewrite <- Em. apply step_ext. intros x. symmetry. apply (X (fun y => y)).
Qed.
(** The loop. *)
Lemma loop_stages envs rs locs input output passes workers l : index_ok rs locs -> Forall (fun x => is_s64 x /\ x <= 0) locs -> 1 <= passes < 2^63 ->
  input <> output -> ~ is_pass output passes input ->
  forall n i cn fs cn' fs', 0 <= i -> i + Z.of_nat n = passes ->
  (i = 0 -> exists f, fs input = Some f /\ stage envs rs locs passes l 0 cn f) ->
  (0 < i < passes -> exists f, fs (makePassFilename output i passes) = Some f /\ stage envs rs locs passes l (Z.to_nat i) cn f) ->
  (i = passes -> exists out m bl, fs output = Some out /\ (m <= List.length l)%nat /\ (cn = false -> m = List.length l) /\ enc_file bl = Ok out /\
    mapm (RwThms.step (new_ref (firstn (cut (slice_size locs passes * Z.of_nat (Z.to_nat passes)) 0 rs) rs) locs)) (firstn m l) = Ok bl) ->
  (forall j, 1 <= j < i - 1 -> fs (makePassFilename output j passes) = None) ->
  rw_loop_runs envs (index_of rs locs) input output passes workers n i cn fs cn' fs' ->
  (exists out m bl, fs' output = Some out /\ (m <= List.length l)%nat /\ (cn' = false -> m = List.length l) /\ enc_file bl = Ok out /\
    mapm (RwThms.step (new_ref (firstn (cut (slice_size locs passes * Z.of_nat (Z.to_nat passes)) 0 rs) rs) locs)) (firstn m l) = Ok bl) /\
  (forall j, 1 <= j < passes - 1 -> fs' (makePassFilename output j passes) = None) /\
  (forall name, name <> output -> ~ is_pass output passes name -> fs' name = fs name).
Proof.
  intros Hi Hl Hp Hio Hip. induction n as [|n IH]; intros i cn fs cn' fs' Hi0 En0 H0 H1 H2 H3 E; [assert (En : i - passes = 0) by lia|assert (En : i + Z.of_nat (S n) - passes = 0) by lia]; clear En0; inversion E as [|n' i' cn0 fs0 ix file cn1 out cn2 fs2 fs1 inputFile outputFile Es Ef P E' Q1 Q2 Q3 Q4 Q5]; subst.
  - split; [apply H2; lia|]. split; [|reflexivity]. intros j Hj. apply H3. lia.
  - assert (F1 : forall name, name <> makePassFilename output (i - 1) passes -> fs1 name = fs name).
    { intros name Hn. unfold fs1. destruct (1 <? i); [apply fs_set_other; exact Hn|reflexivity]. }
    assert (F2 : 1 < i -> fs1 (makePassFilename output (i - 1) passes) = None).
    { intros L. unfold fs1. replace (1 <? i) with true by lia. apply fs_set_same. }
    assert (St : stage envs rs locs passes l (Z.to_nat i) cn file).
    { unfold inputFile in Ef. destruct (Z.ltb_spec 0 i) as [L|L].
      - destruct (H1 ltac:(lia)) as (f & A & B). rewrite F1 in Ef by (intros X; apply pass_inj in X; lia). rewrite A in Ef. injection Ef as <-. exact B.
      - assert (i = 0) by lia. subst i. destruct (H0 eq_refl) as (f & A & B). unfold fs1 in Ef. change (1 <? 0) with false in Ef. cbn iota in Ef. rewrite A in Ef. injection Ef as <-. exact B. }
    assert (Zi : Z.of_nat (Z.to_nat i) = i) by lia.
    destruct (stage_pass envs rs locs passes l (Z.to_nat i) cn file ix workers cn1 out Hi Hl ltac:(lia) ltac:(lia) St) as (St' & m & bl & Fin); [rewrite Zi; exact Es|rewrite Zi; exact P|].
    assert (Ho : outputFile = output \/ is_pass output passes outputFile).
    { unfold outputFile. destruct (Z.ltb_spec (i + 1) passes); [right; exists (i + 1); split; [lia|reflexivity]|left; reflexivity]. }
    apply IH in E'; [| lia | lia | lia | | | ].
    + destruct E' as (E1 & E2 & E3). split; [exact E1|]. split; [exact E2|]. intros name N1 N2. rewrite E3 by assumption.
      rewrite fs_set_other. 2:{ intros ->. destruct Ho; contradiction. }
      unfold fs1. destruct (Z.ltb_spec 1 i) as [L|L]; [|reflexivity]. apply fs_set_other. intros ->. apply N2. exists (i - 1). split; [lia|reflexivity].
    + intros L. exists out. split; [unfold outputFile; replace (i + 1 <? passes) with true by lia; apply fs_set_same|]. replace (Z.to_nat (i + 1)) with (S (Z.to_nat i)) by lia. exact St'.
    + intros L. exists out, m, bl. split; [unfold outputFile; replace (i + 1 <? passes) with false by lia; apply fs_set_same|].
      replace (Z.to_nat passes) with (S (Z.to_nat i)) by lia. exact Fin.
    + intros j Hj. rewrite fs_set_other.
      2:{ unfold outputFile. destruct (Z.ltb_spec (i + 1) passes); [|apply pass_output]. intros X. apply pass_inj in X; lia. }
      destruct (Z.eq_dec j (i - 1)) as [->|Ne]; [apply F2; lia|]. rewrite F1; [apply H3; lia|]. intros X. apply pass_inj in X; lia.
Qed.
Lemma is_file_cut : forall blobs file m, is_file file blobs -> exists part rest, file = part ++ rest /\ is_file part (firstn m blobs).
Proof.
  induction blobs as [|[ty data] blobs IH]; intros file m F.
  - exists [], file. split; [reflexivity|]. destruct m; reflexivity.
  - destruct m as [|m]; [exists [], file; split; reflexivity|]. destruct F as (fb & rest & -> & Fr & F). destruct (IH rest m F) as (part & r & -> & F2).
    exists (fb ++ part), r. split; [rewrite app_assoc; reflexivity|]. cbn [firstn is_file]. exists fb, part. auto.
Qed.
(** C79, the files for which it holds (as C53).  A run that was cancelled at any moment, or not at all, by
    any schedule of any number of workers and in any number of passes, if it ends normally, leaves an output
    file that is the result of one whole pass with the whole index over the file cut after
    some blob; if it was not cancelled, over the whole file.  So no block in it is
    missing refs that only a later pass would have replaced.  The pass files are gone and no
    other file was changed. *)
Lemma pC79_prefix_partial : forall envs input output memory workers file blobs rs locs fs cancelled fs',
  input <> output -> (forall pass count, input <> makePassFilename output pass count) -> fs input = Some file ->
  bytes file -> zlen file < 2^63 -> is_file file blobs -> Forall (fun b => known_type (fst b)) blobs ->
  (forall i data, nth_error blobs i = Some (bytes_of "OSMData", data) -> exists p, forall pass, holds_alone (envs pass (Z.of_nat i)) data p) ->
  (forall pass i, env_ok (envs pass i)) ->
  index_ok rs locs -> Forall (fun loc => is_s64 loc /\ loc <= 0) locs ->
  (forall n, rw_count (LocationCount (index_of rs locs)) memory = Ok n ->
     exists subs, passes (index_of rs locs) n = Ok subs /\ concat (map si_element subs) = map elem_of rs) ->
  rw_main_runs envs (index_of rs locs) input output memory workers fs cancelled fs' ->
  exists m part out n, cut_after file blobs m part /\ fs' output = Some out /\
    (m = 0%nat /\ out = [] \/ after_passes envs (index_of rs locs) 1 1 part = Ok out) /\
    (cancelled = false -> part = file) /\
    rw_count (LocationCount (index_of rs locs)) memory = Ok n /\
    (forall i, 1 <= i < n -> fs' (makePassFilename output i n) = None) /\
    (forall name, name <> output -> (forall i, 1 <= i < n -> name <> makePassFilename output i n) -> fs' name = fs name).
Proof.
  intros envs input output memory workers file blobs rs locs fs cn fs' Hio Hip Hin Bf Lf Ff Kf Hd He Hi Hl Hc [n fs1 Ec El Er].
  pose proof (file_blobs blobs file Bf Ff) as Bd.
  destruct (choose_list (fun i tb p => forall pass, ready (envs pass) (Z.of_nat i) (tb, p)) blobs 0) as (l & Hl1 & Hl2).
  { intros i [ty data] Hx. cbn [Nat.add]. pose proof (nth_error_In _ _ Hx) as Hx'. pose proof (proj1 (Forall_forall _ _) Bd _ Hx') as (D1 & D2). pose proof (proj1 (Forall_forall _ _) Kf _ Hx') as K.
    cbn [fst snd] in *. destruct (seqb_spec ty tOSMData) as [T|T].
    - rewrite T in Hx. destruct (Hd i data Hx) as (p & Hp). exists p. intros pass. split; [exact K|]. split; [exact D1|]. split; [exact D2|]. intros _. split; [apply Hp|].
      pose proof (alone_holds _ _ [] _ (Hp pass)) as Hh. split.
      + eapply holds_typed; [|apply He|exact Hh]. split; [exact D1|]. split; [constructor|]. unfold scap, slen, zlen in *. cbn in *. lia.
      + destruct Hh as (bl & raw & _ & _ & E3). exact (ReadBlock_rw _ _ E3).
    - exists PrimitiveBlock0. intros pass. split; [exact K|]. split; [exact D1|]. split; [exact D2|]. intros; contradiction. }
  assert (R : forall pass, ready_all (envs pass) 0 l) by (intros pass i x Hx; specialize (Hl2 i x Hx pass); destruct x; exact Hl2).
  subst blobs. destruct (Hc n Ec) as (subs & Ep & Ecov).
  assert (Hp : 1 <= n < 2^63) by (eapply rw_count_range; [|exact Ec]; unfold LocationCount; apply u64_range || (apply zlen_nonneg)).
  pose proof (passes_sub rs locs n subs Hi ltac:(lia) Ep) as (M & P). rewrite M, concat_map_map, pass_concat in Ecov by lia.
  assert (All : firstn (cut (slice_size locs n * Z.of_nat (Z.to_nat n)) 0 rs) rs = rs).
  { apply (f_equal (@List.length _)) in Ecov. rewrite !map_length, firstn_length in Ecov. apply firstn_all2. lia. }
  assert (Nr : rs <> []) by (intros ->; destruct (P 0%nat ltac:(lia)) as (P0 & _); cbn in P0; lia).
  assert (Hpi : ~ is_pass output n input) by (intros (j & _ & X); exact (Hip _ _ X)).
  destruct (loop_stages envs rs locs input output n workers l Hi Hl Hp Hio Hpi (Z.to_nat n) 0 false fs cn fs1) as ((out & m & bl & O1 & Hm & Cf & Eo & Em) & P1 & P2);
    [lia|lia|intros _; exists file; split; [exact Hin|apply stage_0; assumption]|intros; lia|intros; lia|intros; lia|exact El|].
  rewrite All in Em. destruct (is_file_cut (map fst l) file m Ff) as (part & rest & -> & Fp).
  exists m, part, out, n. split; [split; [rewrite map_length; exact Hm|split; [exact Fp|exists rest; reflexivity]]|].
  assert (M2 : forall fs2, (if 1 <? n then fs2 = fs_set fs1 (makePassFilename output (n - 1) n) None else fs2 = fs1) ->
     fs2 output = Some out /\ (forall i, 1 <= i < n -> fs2 (makePassFilename output i n) = None) /\
     (forall name, name <> output -> (forall i, 1 <= i < n -> name <> makePassFilename output i n) -> fs2 name = fs name)).
  { intros fs2 H. destruct (Z.ltb_spec 1 n) as [L|L]; subst fs2.
    - split; [rewrite fs_set_other by (intros X; symmetry in X; exact (pass_output _ _ _ X)); exact O1|]. split.
      + intros i Hr. destruct (Z.eq_dec i (n - 1)) as [->|Ne]; [apply fs_set_same|]. rewrite fs_set_other; [apply P1; lia|]. intros X. apply pass_inj in X; lia.
      + intros name N1 N2. rewrite fs_set_other by (apply N2; lia). apply P2; [exact N1|]. intros (j & Hj & X). exact (N2 j Hj X).
    - split; [exact O1|]. split; [intros i Hr; lia|]. intros name N1 N2. apply P2; [exact N1|]. intros (j & Hj & X). exact (N2 j Hj X). }
  destruct (M2 fs') as (A1 & A2 & A3).
  { destruct (Z.ltb_spec 1 n) as [L|L]; [|congruence]. unfold fs_remove in Er. destruct (fs1 _); [|discriminate]. injection Er as <-. reflexivity. }
  split; [exact A1|]. split; [|split; [|split; [exact Ec|split; [exact A2|exact A3]]]].
  - destruct m as [|m]; [left; split; [reflexivity|]; cbn in Em; injection Em as <-; cbn in Eo; injection Eo as <-; reflexivity|]. right.
    cbn [after_passes bind]. destruct (pC48_single_pass rs locs Hi Nr) as (top1 & Es1 & Ht1). change (Z.of_nat 0) with 0. rewrite Es1. cbn [bind].
    apply bytes_app_inv in Bf as [B1 _].
    rewrite (rw_pass_is _ rs locs top1 _ part (firstn (S m) l) (conj (proj1 Hi) (conj (proj1 (proj2 Hi)) Ht1)) B1), Em; [exact Eo|..].
    + rewrite zlen_app in Lf. pose proof (zlen_nonneg rest). lia.
    + rewrite <- firstn_map. exact Fp.
    + intros i x Hx. apply (R 0 i x). rewrite <- (firstn_skipn (S m) l). rewrite nth_error_app1; [exact Hx|]. apply nth_error_Some. rewrite Hx. discriminate.
    + intros ->. destruct l as [|[[ty d] q] l]; [cbn in Hm; lia|]. cbn [map fst firstn is_file] in Fp. destruct Fp as (fb & r & E & (sz & hdr & E2 & (b0 & b1 & b2 & b3 & E3 & _) & _) & _). subst. discriminate E.
  - intros C. rewrite (Cf C) in Fp. clear - Fp Ff. rewrite <- (map_length fst), firstn_all in Fp. revert part rest Fp Ff.
    enough (G : forall bl part rest, is_file part bl -> is_file (part ++ rest) bl -> rest = []) by (intros part rest F1 F2; rewrite (G _ _ _ F1 F2), app_nil_r; reflexivity).
    induction bl as [|[ty d] bl IH]; intros part rest F1 F2; cbn [is_file] in *; [subst part; exact F2|].
    destruct F1 as (fb & r & -> & Fr & F1). destruct F2 as (fb2 & r2 & E & Fr2 & F2). rewrite <- app_assoc in E.
    assert (fb = fb2 /\ r ++ rest = r2) as [<- <-].
    { destruct Fr as (sz & hdr & -> & (a0 & a1 & a2 & a3 & -> & Ba & La) & _). destruct Fr2 as (sz2 & hdr2 & -> & (c0 & c1 & c2 & c3 & -> & Bc & Lc) & _).
      cbn [app] in E. injection E as -> -> -> -> E. rewrite <- La in Lc. rewrite <- !app_assoc in E.
      assert (hdr = hdr2 /\ d ++ r ++ rest = d ++ r2) as [<- E2].
      { clear - E Lc. revert hdr2 E Lc. induction hdr as [|h hdr IH]; intros [|h2 hdr2] E Lc; try (unfold zlen in Lc; cbn [List.length] in Lc; lia); [split; [reflexivity|exact E]|].
        cbn [app] in E. injection E as -> E. destruct (IH hdr2 E) as (-> & X); [unfold zlen in *; cbn [List.length] in *; lia|]. split; [reflexivity|exact X]. }
      apply app_inv_head in E2. split; [reflexivity|exact E2]. }
    exact (IH _ _ F1 F2).
Qed.

(** ** Examples *)
Lemma steps_app {A B} (c : cfg A B) j k s s1 s2 : steps c j s s1 -> steps c k s1 s2 -> steps c (j + k) s s2.
Proof. intros H1 H2. induction H1 as [|j s s0 s1 ST _ IH]; [exact H2|]. cbn [Nat.add]. econstructor; [exact ST|apply IH; exact H2]. Qed.
(** One block, from the reader to the writer, with one worker. *)
Lemma run_block {A B} (c : cfg A B) cn a td m nx gt b : c_writer c = true -> c_work c a = Ok b -> c_index c b = nx -> c_write_panics c (gt ++ [b]) = false ->
  steps c 7 (mkSt cn PRead (a :: td) [mkWk WRecv m] ORecv [] nx VRecv gt None)
            (mkSt cn PRead td [mkWk WRecv (m ++ [a])] ORecv [] (u64 (nx + 1)) VRecv (gt ++ [b]) None).
Proof.
  intros W E I P. econstructor; [apply (step_send c cn a td [] m [])|]. econstructor; [apply (step_work c cn PRead td [] m [] ORecv [] nx VRecv gt a b E)|]. rewrite W.
  econstructor; [apply (step_arrive c cn PRead td [] (m ++ [a]) [])|].
  econstructor; [apply (step_pop c cn PRead td _ _ nx VRecv gt b [])|].
  - unfold rb_put, rb_delete, rb_pop. cbn [filter find]. rewrite I, Z.eqb_refl. unfold rb_delete. cbn [filter]. rewrite I, Z.eqb_refl. reflexivity.
  - econstructor; [apply step_deliver|]. econstructor; [apply step_write; exact P|]. econstructor; [apply step_flushed; reflexivity|]. apply steps_0.
Qed.
(** The end, after the reader has stopped. *)
Lemma run_end {A B} (c : cfg A B) cn td m nx gt : c_writer c = true ->
  exists s, steps c 6 (mkSt cn PWaitWorkers td [mkWk WRecv m] ORecv [] nx VRecv gt None) s /\ completed s /\ s_cancelled s = cn /\ s_got s = gt.
Proof.
  intros W. eexists. split.
  - econstructor; [apply (step_work_end c cn PWaitWorkers td [] m []); discriminate|]. econstructor; [apply step_workers_done; constructor; [reflexivity|constructor]|]. rewrite W.
    econstructor; [apply step_reorder_end|]. econstructor; [apply step_reorder_done|]. econstructor; [apply step_write_end|]. econstructor; [apply step_writer_done|]. apply steps_0.
  - split; [split; reflexivity|]. split; reflexivity.
Qed.
Lemma run_all3 {A B} (c : cfg A B) a0 a1 a2 b0 b1 b2 : c_writer c = true -> c_read_panics c = false -> c_work c a0 = Ok b0 -> c_work c a1 = Ok b1 -> c_work c a2 = Ok b2 ->
  c_index c b0 = 0 -> c_index c b1 = 1 -> c_index c b2 = 2 -> c_write_panics c [b0] = false -> c_write_panics c [b0; b1] = false -> c_write_panics c [b0; b1; b2] = false ->
  exists k s, steps c k (pl_start c false [a0; a1; a2] 1) s /\ completed s /\ s_cancelled s = false /\ s_got s = [b0; b1; b2].
Proof.
  intros W RP E0 E1 E2 I0 I1 I2 P0 P1 P2. destruct (run_end c false [] [a0; a1; a2] 3 [b0; b1; b2] W) as (s & S & H). exists (7 + (7 + (7 + (1 + 6))))%nat, s. split; [|exact H].
  unfold pl_start. rewrite W. cbn [repeat]. eapply steps_app; [apply (run_block c false a0 [a1; a2] [] 0 [] b0 W E0 I0 P0)|].
  eapply steps_app; [apply (run_block c false a1 [a2] [a0] 1 [b0] b1 W E1 I1 P1)|]. eapply steps_app; [apply (run_block c false a2 [] [a0; a1] 2 [b0; b1] b2 W E2 I2 P2)|].
  eapply steps_app; [econstructor; [apply step_read_end; exact RP|apply steps_0]|exact S].
Qed.
(** The context is cancelled after two blocks. *)
Lemma run_cut2 {A B} (c : cfg A B) a0 a1 a2 b0 b1 : c_writer c = true -> c_work c a0 = Ok b0 -> c_work c a1 = Ok b1 ->
  c_index c b0 = 0 -> c_index c b1 = 1 -> c_write_panics c [b0] = false -> c_write_panics c [b0; b1] = false ->
  exists k s, steps c k (pl_start c false [a0; a1; a2] 1) s /\ completed s /\ s_cancelled s = true /\ s_got s = [b0; b1].
Proof.
  intros W E0 E1 I0 I1 P0 P1. destruct (run_end c true [a2] [a0; a1] 2 [b0; b1] W) as (s & S & H). exists (7 + (7 + (2 + 6)))%nat, s. split; [|exact H].
  unfold pl_start. rewrite W. cbn [repeat]. eapply steps_app; [apply (run_block c false a0 [a1; a2] [] 0 [] b0 W E0 I0 P0)|].
  eapply steps_app; [apply (run_block c false a1 [a2] [a0] 1 [b0] b1 W E1 I1 P1)|].
  eapply steps_app; [econstructor; [apply step_cancel|econstructor; [apply step_read_cancelled|apply steps_0]]|exact S].
Qed.
(** The context is cancelled before the first block. *)
Lemma run_cut0 {A B} (c : cfg A B) a0 inp : c_writer c = true ->
  exists k s, steps c k (pl_start c false (a0 :: inp) 1) s /\ completed s /\ s_cancelled s = true /\ s_got s = [].
Proof.
  intros W. destruct (run_end c true (a0 :: inp) [] 0 [] W) as (s & S & H). exists (2 + 6)%nat, s. split; [|exact H].
  unfold pl_start. rewrite W. cbn [repeat]. eapply steps_app; [econstructor; [apply step_cancel|econstructor; [apply step_read_cancelled|apply steps_0]]|exact S].
Qed.

(** Two passes over a file of three blobs with the index [ex_big] (locations -9); ref 10 is replaced by the first
    pass, ref 80001 by the second. *)
Definition cx_blobs (a b : list Z) : list (list Z * list Z) :=
  [(bytes_of "OSMHeader", [1; 2]); (bytes_of "OSMData", ex_blob [mkWay 5 [1] [2] a]); (bytes_of "OSMData", ex_blob [mkWay 7 [] [] b])].
Definition cx_file (bl : list (list Z * list Z)) : list Z := match enc_file bl with Ok f => f | _ => [] end.
Definition cx_rs : list range := [mkRange 10 70000 0; mkRange 80000 61076 70000].
Definition cx_locs : list Z := repeat (-9) (Z.to_nat 131076).
Definition cx_in : list Z := cx_file (cx_blobs [10; 80001] [80002; 20]).
Lemma cx_is : is_file cx_in (cx_blobs [10; 80001] [80002; 20]) /\ bytes cx_in.
Proof.
  apply enc_file_is; [vm_compute; reflexivity|]. unfold cx_blobs. apply Forall_cons; [|apply Forall_cons; [|apply Forall_cons; [|apply Forall_nil]]]; cbn [fst snd].
  - split; [left; reflexivity|]. split; [apply bytes_check|]; vm_compute; reflexivity.
  - split; [right; reflexivity|]. split; [apply bytes_check|]; vm_compute; reflexivity.
  - split; [right; reflexivity|]. split; [apply bytes_check|]; vm_compute; reflexivity.
Qed.
Lemma cx_ok : index_ok cx_rs cx_locs /\ Forall (fun loc => is_s64 loc /\ loc <= 0) cx_locs.
Proof.
  assert (L : zlen cx_locs = 131076) by (unfold cx_locs, zlen; rewrite repeat_length; lia).
  split.
  - split; [|split; [|split]].
    + unfold cx_rs. apply Forall_cons; [|apply Forall_cons; [|apply Forall_nil]]; unfold range_ok; rewrite L; cbn; lia.
    + intros i j a b Hij Ha Hb. destruct i as [|[|i]]; destruct j as [|[|j]]; try lia; cbn in Ha, Hb; try (destruct i; discriminate); try (destruct j; discriminate). injection Ha as <-. injection Hb as <-. cbn. lia.
    + rewrite L. reflexivity.
    + rewrite L. lia.
  - unfold cx_locs. apply Forall_forall. intros x Hx. apply repeat_spec in Hx. subst. unfold is_s64. lia.
Qed.
Definition cx_ix (i : Z) : NodeSubIndex := match SubIndex (index_of cx_rs cx_locs) i 2 with Ok ix => ix | _ => mkNSI [] [] 0 end.
Lemma cx_sub i : i = 0 \/ i = 1 -> SubIndex (index_of cx_rs cx_locs) i 2 = Ok (cx_ix i).
Proof.
  intros H. assert (E : match SubIndex (index_of cx_rs cx_locs) i 2 with Ok ix => true | _ => false end = true) by (destruct H as [-> | ->]; vm_compute; reflexivity).
  unfold cx_ix. destruct (SubIndex _ _ _); [reflexivity|discriminate E..].
Qed.
Lemma cx_cover : forall n, rw_count (LocationCount (index_of cx_rs cx_locs)) (Some 1) = Ok n ->
  exists subs, passes (index_of cx_rs cx_locs) n = Ok subs /\ concat (map si_element subs) = map elem_of cx_rs.
Proof.
  intros n E. assert (E2 : rw_count (LocationCount (index_of cx_rs cx_locs)) (Some 1) = Ok 2) by (vm_compute; reflexivity). rewrite E2 in E. injection E as <-.
  exists [cx_ix 0; cx_ix 1]. split; [|vm_compute; reflexivity]. unfold passes. change (map Z.of_nat (seq 0 (Z.to_nat 2))) with [0; 1]. cbn [mapm]. rewrite !cx_sub by (left; reflexivity || right; reflexivity). reflexivity.
Qed.
Lemma rw_pass_all3 envs ix fin file a0 a1 a2 b0 b1 b2 out : let c := rw_conf envs ix fin in
  match file with [] => false | _ => true end = true -> read_file file = Ok [a0; a1; a2] -> c_work c a0 = Ok b0 -> c_work c a1 = Ok b1 -> c_work c a2 = Ok b2 ->
  blk_Index b0 = 0 -> blk_Index b1 = 1 -> blk_Index b2 = 2 -> c_write_panics c [b0] = false -> c_write_panics c [b0; b1] = false ->
  rewriter_writer [b0; b1; b2] [] = Ok out -> zlen out < 2^63 -> rw_pass_runs envs ix fin 1 file false false out.
Proof.
  intros c N Ef E0 E1 E2 I0 I1 I2 P0 P1 Eo Lo. assert (P2 : c_write_panics c [b0; b1; b2] = false) by (unfold c, rw_conf; cbn [c_write_panics]; rewrite Eo; reflexivity).
  destruct (run_all3 c a0 a1 a2 b0 b1 b2 eq_refl eq_refl E0 E1 E2 I0 I1 I2 P0 P1 P2) as (k & s & S & D & C & G).
  eapply (rw_pass_runs_by envs ix fin 1 file false false out file [a0; a1; a2] k s); try assumption; [destruct file; [discriminate N|reflexivity]|]. rewrite G. exact Eo.
Qed.
Lemma rw_pass_cut2 envs ix fin file a0 a1 a2 b0 b1 out : let c := rw_conf envs ix fin in
  match file with [] => false | _ => true end = true -> read_file file = Ok [a0; a1; a2] -> c_work c a0 = Ok b0 -> c_work c a1 = Ok b1 ->
  blk_Index b0 = 0 -> blk_Index b1 = 1 -> c_write_panics c [b0] = false ->
  rewriter_writer [b0; b1] [] = Ok out -> zlen out < 2^63 -> rw_pass_runs envs ix fin 1 file false true out.
Proof.
  intros c N Ef E0 E1 I0 I1 P0 Eo Lo. assert (P1 : c_write_panics c [b0; b1] = false) by (unfold c, rw_conf; cbn [c_write_panics]; rewrite Eo; reflexivity).
  destruct (run_cut2 c a0 a1 a2 b0 b1 eq_refl E0 E1 I0 I1 P0 P1) as (k & s & S & D & C & G).
  eapply (rw_pass_runs_by envs ix fin 1 file false true out file [a0; a1; a2] k s); try assumption; [destruct file; [discriminate N|reflexivity]|]. rewrite G. exact Eo.
Qed.
Definition cx_fs : fsys := fs_set (fun _ => None) (bytes_of "in.pbf") (Some cx_in).
(** The conditions of C79 hold, and there is a run that is cancelled in its second pass and leaves the first two blobs, with both refs replaced. *)
Lemma pC79_ex : let envs := fun _ _ => ex_env in let blobs := cx_blobs [10; 80001] [80002; 20] in
  bytes_of "in.pbf" <> bytes_of "out" /\ (forall pass count, bytes_of "in.pbf" <> makePassFilename (bytes_of "out") pass count) /\
  cx_fs (bytes_of "in.pbf") = Some cx_in /\ bytes cx_in /\ zlen cx_in < 2^63 /\ is_file cx_in blobs /\ Forall (fun b => known_type (fst b)) blobs /\
  (forall i data, nth_error blobs i = Some (bytes_of "OSMData", data) -> exists p, forall pass, holds_alone (envs pass (Z.of_nat i)) data p) /\
  (forall pass i, env_ok (envs pass i)) /\ index_ok cx_rs cx_locs /\ Forall (fun loc => is_s64 loc /\ loc <= 0) cx_locs /\
  (forall n, rw_count (LocationCount (index_of cx_rs cx_locs)) (Some 1) = Ok n ->
     exists subs, passes (index_of cx_rs cx_locs) n = Ok subs /\ concat (map si_element subs) = map elem_of cx_rs) /\
  exists fs', rw_main_runs envs (index_of cx_rs cx_locs) (bytes_of "in.pbf") (bytes_of "out") (Some 1) 1 cx_fs true fs' /\
    fs' (bytes_of "out") = Some (cx_file (firstn 2 (cx_blobs [-9; -9] [-9; -9]))).
Proof.
  intros envs blobs. destruct cx_is as (F & B). destruct cx_ok as (I1 & I2). split; [discriminate|]. split; [intros pass count; discriminate|]. split; [reflexivity|]. split; [exact B|].
  split; [vm_compute; reflexivity|]. split; [exact F|]. split.
  { apply Forall_cons; [left; reflexivity|]. apply Forall_cons; [right; reflexivity|]. apply Forall_cons; [right; reflexivity|]. apply Forall_nil. }
  split.
  { intros [|[|[|i]]] data H; cbn [blobs cx_blobs nth_error] in H; [discriminate| | |destruct i; discriminate]; assert (Hd := f_equal (fun o => match o with Some x => snd x | None => [] end) H);
    cbn [snd] in Hd; subst data; eexists; intros pass; apply ex_way_alone; [vm_compute; reflexivity| |vm_compute; reflexivity|];
    (eexists; eexists; split; [vm_compute; reflexivity|]; split; vm_compute; reflexivity). }
  split; [intros pass i; vm_compute; repeat constructor|]. split; [exact I1|]. split; [exact I2|]. split; [exact cx_cover|].
  assert (P1 : rw_pass_runs (envs 0) (cx_ix 0) (0 =? 2 - 1) 1 cx_in false false (cx_file (cx_blobs [-9; 80001] [80002; -9]))).
  { eapply rw_pass_all3; [vm_compute; reflexivity|vm_compute; reflexivity|cbn [rw_conf c_work]; vm_compute; reflexivity..| | |vm_compute; reflexivity]; vm_compute; reflexivity. }
  assert (P2 : rw_pass_runs (envs 1) (cx_ix 1) (1 =? 2 - 1) 1 (cx_file (cx_blobs [-9; 80001] [80002; -9])) false true (cx_file (firstn 2 (cx_blobs [-9; -9] [-9; -9])))).
  { eapply rw_pass_cut2; [vm_compute; reflexivity|vm_compute; reflexivity|cbn [rw_conf c_work]; vm_compute; reflexivity..| |vm_compute; reflexivity]; vm_compute; reflexivity. }
  eexists. split.
  - eapply rw_main_by with (passes := 2); [vm_compute; reflexivity| |].
    + change (Z.to_nat 2) with 2%nat. eapply rw_loop_pass; [apply cx_sub; left; reflexivity|reflexivity|exact P1|].
      eapply rw_loop_pass; [apply cx_sub; right; reflexivity|reflexivity|exact P2|]. apply rw_loop_end.
    + reflexivity.
  - reflexivity.
Qed.
(** A cancelled run need not end normally: when the first of two passes was cancelled before its first block, it
    leaves an empty file, which the second pass cannot map. *)
Lemma pC79_ends_refuted : exists out, rw_pass_runs (fun _ => ex_env) (cx_ix 0) false 1 cx_in false true out /\ out = [] /\
  MMapMap out = Panic IOError /\ forall envs ix fin workers cn cn' out', ~ rw_pass_runs envs ix fin workers out cn cn' out'.
Proof.
  exists []. split; [|split; [reflexivity|split; [reflexivity|intros envs ix fin workers cn cn' out' [m bs k s E _ _ _ _ _ _]; discriminate E]]].
  set (c := rw_conf (fun _ => ex_env) (cx_ix 0) false). assert (E0 : match read_file cx_in with Ok (_ :: _) => true | _ => false end = true) by (vm_compute; reflexivity).
  assert (Ef : exists a0 inp, read_file cx_in = Ok (a0 :: inp)) by (destruct (read_file cx_in) as [[|a0 inp]| |]; try discriminate E0; exists a0, inp; reflexivity). destruct Ef as (a0 & inp & Ef).
  destruct (run_cut0 c a0 inp eq_refl) as (k & s & S & D & C & G).
  eapply (rw_pass_runs_by _ _ _ 1 cx_in false true [] cx_in (a0 :: inp) k s); try assumption; [|rewrite G; reflexivity|reflexivity].
  assert (E1 : match cx_in with [] => false | _ => true end = true) by (vm_compute; reflexivity). unfold MMapMap. destruct cx_in; [discriminate E1|reflexivity].
Qed.

(** ** C80: the other tools *)
(** The blocks of a file are proper slices with less than 2^31 bytes and of known types. *)
Lemma read_file_go file bs : bytes file -> zlen file < 2^63 -> read_file file = Ok bs ->
  Forall (fun b => go_slice (blk_Data b) /\ zlen (vis (blk_Data b)) < 2^31 /\ known_type (blk_Type b)) bs.
Proof.
  intros Hb Hl E.
  assert (X : Forall (fun b => go_slice (blk_Data b)) bs).
  { assert (R : forall a ty d a', read_frame file a = Ok (ty, d, a') -> go_slice d).
    { intros a ty d a' H. unfold read_frame in H. destruct (sslice (exact file) a (zlen file)); cbn [bind] in H; try discriminate H. destruct (be32_get _); cbn [bind] in H; try discriminate H.
      destruct (sslice (exact file) _ _) as [hb| |]; cbn [bind] in H; try discriminate H. destruct (ReadBlobHeader hb); cbn [bind] in H; try discriminate H. destruct (_ && _); [discriminate H|].
      destruct (sslice (exact file) _ _) as [d0| |] eqn:E3; cbn [bind] in H; try discriminate H. injection H as _ <- _.
      apply sslice_all in E3 as (p & E3). cbn in E3. rewrite app_nil_r in E3. rewrite E3 in Hb, Hl.
      apply bytes_app_inv in Hb as [_ Hb]. apply bytes_app_inv in Hb as [Hb1 Hb2]. rewrite zlen_app in Hl. pose proof (zlen_nonneg p).
      split; [exact Hb1|]. split; [exact Hb2|]. unfold scap, slen. rewrite zlen_app in Hl. unfold zlen in Hl. lia. }
    unfold read_file in E. destruct (loop _ _ _ _) as [[[a i] sent]| |] eqn:EL; cbn [bind] in E; try discriminate E. injection E as <-.
    assert (G : forall fuel st st', Forall (fun b => go_slice (blk_Data b)) (snd st) -> loop fuel (file_cond file) (file_body file) st = Ok st' -> Forall (fun b => go_slice (blk_Data b)) (snd st')).
    { induction fuel as [|fuel IH]; intros st st' H L; cbn [loop] in L.
      - destruct (file_cond file st); [discriminate L|injection L as <-; exact H].
      - destruct (file_cond file st); [|injection L as <-; exact H]. destruct (file_body file st) as [st1| |] eqn:EB; cbn [bind] in L; try discriminate L. refine (IH st1 st' _ L).
        destruct st as [[a0 i0] l0]. unfold file_body in EB. destruct (read_frame file a0) as [[[ty d] a']| |] eqn:EF; cbn [bind] in EB; try discriminate EB. injection EB as <-. cbn [snd] in *.
        apply Forall_app. split; [exact H|]. constructor; [cbn; eapply R; exact EF|constructor]. }
    exact (G _ (0, 0, []) _ (Forall_nil _) EL). }
  destruct (pC35_total_and_exact file Hb Hl) as (_ & C). destruct (C bs E) as (blobs & Cv & Es).
  assert (Y : Forall (fun b => zlen (snd b) < 2^31 /\ known_type (fst b)) blobs).
  { clear - Cv. revert file Cv. induction blobs as [|[ty d] blobs IH]; intros file Cv; [constructor|]. cbn [covers] in Cv. destruct Cv as (sz & hdr & rest & -> & _ & H & K & Cv).
    constructor; [|exact (IH _ Cv)]. cbn [fst snd]. split; [|exact K]. apply ReadBlobHeader_size in H. unfold is_s32 in H. cbn in H. lia. }
  apply (f_equal (map snd)) in Es. rewrite map_map in Es. unfold seen in Es. cbn [snd] in Es. unfold numbered in Es.
  assert (S2 : forall (l : list (list Z * list Z)) (s : list Z), List.length s = List.length l -> map snd (combine s l) = l).
  { clear. intros l. induction l as [|a l IH]; intros [|x s] H; cbn in *; try discriminate; [reflexivity|]. f_equal. apply IH. lia. }
  rewrite S2 in Es by (rewrite map_length, seq_length; reflexivity). rewrite <- Es, Forall_map in Y. cbn [fst snd] in Y.
  apply Forall_forall. intros b Hin. apply (proj1 (Forall_forall _ _) X) in Hin as A. apply (proj1 (Forall_forall _ _) Y) in Hin as B. tauto.
Qed.
(** What the writer has received at the end of any run: the sequential results for the first
    blocks, and for all of them when the run was not cancelled. *)
Lemma end_prefix {A B} (c : cfg A B) idx inp n s : c_writer c = true -> indexed idx inp -> keeps_index c idx inp -> reachable c inp n s -> completed s ->
  exists m, (m <= List.length inp)%nat /\ (s_cancelled s = false -> m = List.length inp) /\ mapm (c_work c) (firstn m inp) = Ok (s_got s).
Proof.
  intros W IX KI R D. destruct (pC39_prefix _ _ c idx inp n s W IX KI R D) as (m & Hm & _). destruct (s_cancelled s) eqn:C.
  - exists (Nat.min m (List.length inp)). split; [lia|]. split; [discriminate|]. rewrite <- Hm. f_equal. destruct (Nat.min_spec m (List.length inp)) as [(L & ->)|(L & ->)]; [reflexivity|]. rewrite firstn_all, firstn_all2 by lia. reflexivity.
  - exists (List.length inp). split; [lia|]. split; [reflexivity|]. rewrite firstn_all. eapply pC37_complete; eassumption.
Qed.
Lemma Forall2_impl {A B} (P Q : A -> B -> Prop) : (forall a b, P a b -> Q a b) -> forall l l', Forall2 P l l' -> Forall2 Q l l'.
Proof. intros H l l' F. induction F; constructor; auto. Qed.
Lemma Forall2_firstn {A B} (P : A -> B -> Prop) m : forall a b, Forall2 P a b -> Forall2 P (firstn m a) (firstn m b).
Proof. induction m as [|m IH]; intros a b H; [constructor|]. inversion H; subst; cbn [firstn]; constructor; auto. Qed.
Lemma Forall_firstn {A} (P : A -> Prop) m l : Forall P l -> Forall P (firstn m l).
Proof. intros H. rewrite <- (firstn_skipn m l) in H. apply Forall_app in H. tauto. Qed.
(** C80, decompression, for the files of C66.  Whenever and however often it was cancelled, whatever
    the schedule and the number of workers: what a run that has ended has written is a file with the
    same types and payloads as the first [m] blobs of the input; all of them if it was not cancelled. *)
Lemma pC80_decompress_partial : forall envs file pl bs workers wp rp s,
  bytes file -> zlen file < 2^63 -> contents envs file pl ->
  Forall (fun p => snd p <> [] /\ bytes (snd p) /\ zlen (snd p) < 2^31 - 20) pl ->
  read_file file = Ok bs -> reachable (dc_cfg envs wp rp) bs workers s -> completed s ->
  exists m, (m <= List.length pl)%nat /\ (s_cancelled s = false -> m = List.length pl) /\
    (let out := concat (map snd (s_got s)) in zlen out < 2^63 -> forall envs', contents envs' out (firstn m pl)).
Proof.
  intros envs file pl bs n wp rp s Hb Hl (bs' & E' & F2) F E R D. rewrite E in E'. injection E' as <-.
  pose proof (pC37_file_indexed file bs Hb Hl E) as IX.
  destruct (pC37_keeps envs (mkNSI [] [] 0) false 0 (fun _ => false) (fun _ => false) (fun _ => false) (fun _ => false) wp rp bs) as (_ & _ & _ & _ & _ & K).
  destruct (end_prefix (dc_cfg envs wp rp) blk_Index bs n s eq_refl IX K R D) as (m & Hm & Hc & G). pose proof (Forall2_length' _ _ _ F2) as Len.
  exists m. split; [lia|]. split; [intros C; rewrite <- Len; auto|]. cbn zeta. intros Lo envs'.
  assert (Kn : Forall (fun p => known_type (fst p)) pl).
  { pose proof (read_file_known file bs Hb Hl E) as Kb. clear -F2 Kb. induction F2 as [|b p bs pl (T & _) F2 IH]; [constructor|].
    apply Forall_cons_iff in Kb as [K1 Kb]. constructor; [rewrite <- T; exact K1|auto]. }
  apply (Forall2_firstn _ m) in F2. apply (Forall_firstn _ m) in F. apply (Forall_firstn _ m) in Kn.
  destruct (frames_file (firstn m pl) F Kn) as (outs & Eo & I & B).
  assert (EQ : map snd (s_got s) = outs).
  { rewrite <- (mapm_frames envs (firstn m bs) (firstn m pl) F2 F) in Eo. revert G Eo. cbn [dc_cfg c_work]. generalize (s_got s), (firstn m bs). clear. intros got l. revert got outs.
    induction l as [|b l IH]; intros got outs G Eo; cbn [mapm] in *; [injection G as <-; injection Eo as <-; reflexivity|]. destruct (decompress_block _ b); cbn [bind] in *; try discriminate G.
    destruct (mapm _ l) as [r1| |]; cbn [bind] in G; try discriminate G. destruct (mapm _ l) as [r2| |]; cbn [bind] in Eo; try discriminate Eo. injection G as <-. injection Eo as <-. cbn [map snd]. f_equal. eapply IH; reflexivity. }
  rewrite EQ in *. apply file_contents; assumption.
Qed.
(** C80, the relation index.  A run whose first step (the only one that can be cancelled) was
    cancelled goes on with the relations of the first [m] blocks: it does what it would do for
    an input of these blocks only (see C61-C63). *)
Lemma pC80_relindex : forall envs file bs workers wp rp s, bytes file -> zlen file < 2^63 ->
  read_file file = Ok bs -> reachable (ri_cfg envs wp rp) bs workers s -> completed s ->
  exists m, (m <= List.length bs)%nat /\ (s_cancelled s = false -> m = List.length bs) /\
    ri_init (with_env envs (firstn m bs)) = ri_write (s_got s) [].
Proof.
  intros envs file bs n wp rp s Hb Hl E R D. pose proof (pC37_file_indexed file bs Hb Hl E) as IX.
  destruct (pC37_keeps envs (mkNSI [] [] 0) false 0 (fun _ => false) (fun _ => false) (fun _ => false) wp (fun _ => false) rp bs) as (_ & _ & _ & K & _).
  destruct (end_prefix (ri_cfg envs wp rp) blk_Index bs n s eq_refl IX K R D) as (m & Hm & Hc & G). exists m. split; [exact Hm|]. split; [exact Hc|].
  unfold ri_init, with_env. rewrite mapm_map. cbn [fst snd]. cbn [ri_cfg c_work] in G. rewrite G. reflexivity.
Qed.

(** ** C81: the tag filter *)
Lemma tf_message env b m : go_slice (blk_Data b) -> zlen (vis (blk_Data b)) < 2^31 -> known_type (blk_Type b) -> env_ok env -> tf_step env [] b = Ok ([], m) ->
  (known_type (blk_Type m) \/ blk_Type m = bytes_of "Filler") /\ bytes (vis (blk_Data m)) /\ zlen (vis (blk_Data m)) < 2^31.
Proof.
  intros Gs Ls K He E. destruct (seqb_spec (blk_Type b) tOSMData) as [T|T].
  2:{ unfold tf_step in E. destruct (seqb_spec (blk_Type b) tOSMData); [contradiction|]. cbn [negb] in E. injection E as <-. split; [left; exact K|]. split; [apply Gs|exact Ls]. }
  assert (H : exists ns ws rs, entities env b ns ws rs).
  { unfold tf_step in E. rewrite T, seqb_refl in E. cbn [negb] in E. destruct (ReadBlob _ _) as [bl| |] eqn:E1; cbn [bind] in E; try discriminate E. destruct (GetRawData _ _) as [raw| |] eqn:E2; cbn [bind] in E; try discriminate E.
    destruct (ReadPrimitiveBlock _ _ _) as [p| |] eqn:E3; cbn [bind] in E; try discriminate E. destruct (ToNodes p) as [ns| |] eqn:E4; cbn [bind] in E; try discriminate E.
    destruct (ToWays p) as [ws| |] eqn:E5; cbn [bind] in E; try discriminate E. destruct (ToRelations p) as [rs| |] eqn:E6; cbn [bind] in E; try discriminate E.
    exists ns, ws, rs, p. split; [exists bl, raw; auto|auto]. }
  destruct H as (ns & ws & rs & H). destruct (entities_typed env b ns ws rs Gs He H) as (T1 & T2 & T3). pose proof (filter_nodes_typed ns T1) as T1'.
  rewrite (tf_step_eq env b ns ws rs T H T1 T2 T3) in E.
  assert (C : ([], m) = (@nil HLNode, mkBlk (blk_Index b) (exact []) tFiller) \/ exists out, out_blob (filter_nodes ns) ws rs = Ok out /\ m = mkBlk (blk_Index b) (exact out) tOSMData).
  { destruct (filter_nodes ns) eqn:Q1, ws eqn:Q2, rs eqn:Q3; try (left; congruence); right; destruct (out_blob _ _ _) as [out| |]; cbn [bind] in E; try discriminate E; (exists out; split; [reflexivity|congruence]). }
  destruct C as [C|(out & Eo & ->)].
  - injection C as ->. cbn. split; [right; reflexivity|]. split; [constructor|]. unfold zlen; cbn; lia.
  - cbn [blk_Type blk_Data exact vis]. split; [left; right; reflexivity|]. split; [|exact (out_len _ _ Eo)].
    unfold out_blob in Eo. pose proof (PrimitiveBlock_Write_app (block_of (filter_nodes ns) ws rs)) as A.
    apply (Blob_Write_func_app (mkBlob None None None (Some (PrimitiveBlock_Write (block_of (filter_nodes ns) ws rs)))) _ _ _ eq_refl A) in Eo as [[F Hlt] Eout].
    rewrite Eout. unfold blob_size_part, blob_zlib_part. cbn [blob_RawSize blob_ZLibData app]. rewrite !app_nil_r. apply fixed_field_bytes; [exact Hlt|]. apply block_bytes; [|exact F]. apply block_of_typed; assumption.
Qed.
(** C81.  Whatever the schedule, the number of workers and the moment of a cancellation: a run of the
    tag filter that has ended has written a file that can be read again, and its blobs are those sent for the
    first [m] blocks of the input (all, if it was not cancelled), one for one and in order, fillers left out; each
    is what the filter makes of that block alone (see C31 for what that is). *)
Lemma pC81_file : forall envs file bs workers wp rp s, bytes file -> zlen file < 2^63 -> (forall i, env_ok (envs i)) ->
  read_file file = Ok bs -> reachable (tf_cfg envs wp rp) bs workers s -> completed s ->
  exists m out, (m <= List.length bs)%nat /\ (s_cancelled s = false -> m = List.length bs) /\
    Forall2 (fun b msg => tf_worker [(envs (blk_Index b), b)] = Ok [msg]) (firstn m bs) (s_got s) /\
    tagfilter_writer (s_got s) [] = Ok out /\
    let kept := map (fun b => (blk_Type b, vis (blk_Data b))) (filter (fun b => negb (seqb (blk_Type b) (bytes_of "Filler"))) (s_got s)) in
    is_file out kept /\ (zlen out < 2^63 -> exists bs', read_file out = Ok bs' /\ map seen bs' = numbered kept).
Proof.
  intros envs file bs n wp rp s Hb Hl He E R D. pose proof (pC37_file_indexed file bs Hb Hl E) as IX.
  destruct (pC37_keeps envs (mkNSI [] [] 0) false 0 wp (fun _ => false) (fun _ => false) (fun _ => false) (fun _ => false) rp bs) as (_ & _ & _ & _ & K & _).
  destruct (end_prefix (tf_cfg envs wp rp) blk_Index bs n s eq_refl IX K R D) as (m & Hm & Hc & G).
  pose proof (read_file_go file bs Hb Hl E) as Go. apply (Forall_firstn _ m) in Go.
  assert (F2 : Forall2 (fun b msg => tf_step (envs (blk_Index b)) [] b = Ok ([], msg)) (firstn m bs) (s_got s)).
  { apply mapm_Forall2 in G. revert G. apply Forall2_impl. cbn [tf_cfg c_work]. intros b msg Eb. destruct (tf_step _ _ b) as [[pd x]| |] eqn:T; cbn [bind] in Eb; try discriminate Eb. injection Eb as <-. apply tf_step_pending in T as P. cbn in P. subst pd. reflexivity. }
  assert (W : Forall (fun b => (known_type (blk_Type b) \/ blk_Type b = bytes_of "Filler") /\ bytes (vis (blk_Data b)) /\ zlen (vis (blk_Data b)) < 2^31) (s_got s)).
  { clear - F2 Go He. induction F2 as [|b msg l l' T F2 IH]; [constructor|]. apply Forall_cons_iff in Go as [(G1 & G2 & G3) Go]. constructor; [|apply IH; exact Go]. eapply tf_message; eauto. }
  destruct (pC34_tagfilter_writer (s_got s) W) as (out & Eo & I & Rd). exists m, out. split; [exact Hm|]. split; [exact Hc|]. split; [|split; [exact Eo|split; [exact I|exact Rd]]].
  revert F2. apply Forall2_impl. intros b msg T. rewrite worker_one, T. reflexivity.
Qed.

(** A file of a header, a data block and a data block of which nothing is kept. *)
Definition ty_file : list Z := cx_file [(bytes_of "OSMHeader", [1; 2]); (bytes_of "OSMData", vis (blk_Data ex_tf_block)); (bytes_of "OSMData", vis (blk_Data (mk_block [mkNode 8 [] 0 0] [] [])))].
Lemma run_cut1 {A B} (c : cfg A B) a0 a1 inp b0 : c_writer c = true -> c_work c a0 = Ok b0 -> c_index c b0 = 0 -> c_write_panics c [b0] = false ->
  exists s, reachable c (a0 :: a1 :: inp) 1 s /\ completed s /\ s_cancelled s = true /\ s_got s = [b0].
Proof.
  intros W E0 I0 P0. destruct (run_end c true (a1 :: inp) [a0] 1 [b0] W) as (s & S & H). exists s. split; [|exact H].
  eapply (start_reach c false _ 1 (7 + (2 + 6))). unfold pl_start. rewrite W. cbn [repeat]. eapply steps_app; [apply (run_block c false a0 (a1 :: inp) [] 0 [] b0 W E0 I0 P0)|].
  eapply steps_app; [econstructor; [apply step_cancel|econstructor; [apply step_read_cancelled|apply steps_0]]|exact S].
Qed.
(** A cancelled decompression of C66's example: the header only. *)
Lemma pC80_ex : exists bs s, read_file ex_zfile = Ok bs /\ reachable (dc_cfg ex_zenv (fun _ => false) false) bs 1 s /\ completed s /\ s_cancelled s = true /\
  concat (map snd (s_got s)) = [0; 0; 0; 13; 10; 9] ++ bytes_of "OSMHeader" ++ [24; 4] ++ [10; 2; 7; 8].
Proof.
  assert (E : exists a0 a1 b0, read_file ex_zfile = Ok [a0; a1] /\ c_work (dc_cfg ex_zenv (fun _ => false) false) a0 = Ok b0 /\ fst b0 = 0 /\
    snd b0 = [0; 0; 0; 13; 10; 9] ++ bytes_of "OSMHeader" ++ [24; 4] ++ [10; 2; 7; 8]).
  { eexists. eexists. eexists. split; [vm_compute; reflexivity|]. split; [vm_compute; reflexivity|]. split; vm_compute; reflexivity. }
  destruct E as (a0 & a1 & b0 & E1 & E2 & E3 & E4). destruct (run_cut1 (dc_cfg ex_zenv (fun _ => false) false) a0 a1 [] b0 eq_refl E2 E3 eq_refl) as (s & R & D & C & G).
  exists [a0; a1], s. rewrite G. cbn [map concat]. rewrite app_nil_r, E4. auto.
Qed.
Lemma ty_works : exists a0 a1 a2 b0 b1 b2, read_file ty_file = Ok [a0; a1; a2] /\ c_work (tf_cfg (fun _ => ex_env) (fun _ => false) false) a0 = Ok b0 /\ c_work (tf_cfg (fun _ => ex_env) (fun _ => false) false) a1 = Ok b1 /\ c_work (tf_cfg (fun _ => ex_env) (fun _ => false) false) a2 = Ok b2 /\ blk_Index b0 = 0 /\ blk_Index b1 = 1 /\ blk_Index b2 = 2 /\
    tagfilter_writer [b0; b1; b2] [] = Ok (cx_file [(bytes_of "OSMHeader", [1; 2]);
     (bytes_of "OSMData", vis (blk_Data (mk_block [mkNode 1 [(bytes_of "highway", [66])] 300 (-400); mkNode 9 [(bytes_of "name", [67])] 0 100] [ex_hway'] [ex_hrel'])))]).
Proof.
  do 6 eexists. split; [vm_compute; reflexivity|]. do 6 (split; [vm_compute; reflexivity|]). vm_compute. reflexivity.
Qed.
(** A run over this file that was not cancelled: the header, and what is kept of the first data block. *)
Lemma pC81_ex : exists bs s out, bytes ty_file /\ zlen ty_file < 2^63 /\ env_ok ex_env /\ read_file ty_file = Ok bs /\ reachable (tf_cfg (fun _ => ex_env) (fun _ => false) false) bs 1 s /\
  completed s /\ s_cancelled s = false /\ tagfilter_writer (s_got s) [] = Ok out /\
  out = cx_file [(bytes_of "OSMHeader", [1; 2]);
     (bytes_of "OSMData", vis (blk_Data (mk_block [mkNode 1 [(bytes_of "highway", [66])] 300 (-400); mkNode 9 [(bytes_of "name", [67])] 0 100] [ex_hway'] [ex_hrel'])))].
Proof.
  set (c := tf_cfg (fun _ => ex_env) (fun _ => false) false).
  destruct ty_works as (a0 & a1 & a2 & b0 & b1 & b2 & Ef & E0 & E1 & E2 & I0 & I1 & I2 & Eo).
  destruct (run_all3 c a0 a1 a2 b0 b1 b2 eq_refl eq_refl E0 E1 E2 I0 I1 I2 eq_refl eq_refl eq_refl) as (k & s & S & D & C & G).
  exists [a0; a1; a2], s. eexists. split; [apply bytes_check; vm_compute; reflexivity|]. split; [vm_compute; reflexivity|]. split; [exact ex_env_ok|]. split; [exact Ef|].
  split; [exact (start_reach _ _ _ _ _ _ S)|]. split; [exact D|]. split; [exact C|]. rewrite G. split; [exact Eo|reflexivity].
Qed.
