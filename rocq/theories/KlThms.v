(** * KlThms: what runs that end at any moment leave behind (C90). *)
From Verif Require Import Base HLThms ZlThms TfThms NiThms RwThms PbSpec TModel TSpec HLModel FrModel FrSpec ZlModel ZlSpec IoModel IoSpec TfModel TfSpec NiModel NiSpec NiThms RwModel RwSpec PlModel PlSpec PlThms CxModel CxSpec CxThms KlModel KlSpec.
From Verif Require Import BaseLemmas PbModel PbProofs TProofs TMsg TMsg2 TThms TTyped HLProofs HLThms FrProofs FrThms ZlThms TfThms NiProofs NiProofs2 NiThms RwThms PlProofs2 PlThms.
From Verif Require Import NiSpec RwSpec PlSpec CxModel CxSpec CxThms KlModel KlSpec.

Lemma write_blocks_firstn skip n : forall bs h acc f, write_blocks skip h bs acc = Ok f ->
  exists f' rest, write_blocks skip h (firstn n bs) acc = Ok f' /\ f = f' ++ rest.
Proof.
  assert (M : forall bs h acc f, write_blocks skip h bs acc = Ok f -> exists rest, f = acc ++ rest).
  { induction bs as [|b bs IH]; intros h acc f E; cbn [write_blocks] in E; [injection E as <-; exists []; rewrite app_nil_r; reflexivity|].
    destruct (_ && _); [eapply IH; exact E|]. destruct (write_frame _ _ _) as [o| |]; cbn [bind] in E; try discriminate E. destruct (IH _ _ _ E) as (r & ->). exists (o ++ r). rewrite app_assoc. reflexivity. }
  induction n as [|n IH]; intros bs h acc f E.
  - destruct (M _ _ _ _ E) as (r & ->). exists acc, r. split; [destruct bs; reflexivity|reflexivity].
  - destruct bs as [|b bs]; [exists f, []; split; [exact E|rewrite app_nil_r; reflexivity]|]. cbn [firstn write_blocks] in *.
    destruct (_ && _); [apply IH; exact E|]. destruct (write_frame _ _ _) as [o| |]; cbn [bind] in *; try discriminate E. apply IH. exact E.
Qed.
Lemma is_file_prefix : forall bl a b ra rb, is_file a bl -> is_file b bl -> a ++ ra = b ++ rb -> a = b.
Proof.
  induction bl as [|[ty d] bl IH]; intros a b ra rb F1 F2 E; cbn [is_file] in *; [congruence|].
  destruct F1 as (fb & r & -> & Fr & F1). destruct F2 as (fb2 & r2 & -> & Fr2 & F2). rewrite <- !app_assoc in E.
  assert (fb = fb2 /\ r ++ ra = r2 ++ rb) as [<- E'].
  { destruct Fr as (sz & hdr & -> & (a0 & a1 & a2 & a3 & -> & Ba & La) & _). destruct Fr2 as (sz2 & hdr2 & -> & (c0 & c1 & c2 & c3 & -> & Bc & Lc) & _).
    cbn [app] in E. injection E as -> -> -> -> E. rewrite <- La in Lc. rewrite <- !app_assoc in E.
    assert (hdr = hdr2 /\ d ++ r ++ ra = d ++ r2 ++ rb) as [<- E2].
    { clear - E Lc. revert hdr2 E Lc. induction hdr as [|h hdr IH]; intros [|h2 hdr2] E Lc; try (unfold zlen in Lc; cbn [List.length] in Lc; lia); [split; [reflexivity|exact E]|].
      cbn [app] in E. injection E as -> E. destruct (IH hdr2 E) as (-> & X); [unfold zlen in *; cbn [List.length] in *; lia|]. split; [reflexivity|exact X]. }
    apply app_inv_head in E2. split; [reflexivity|exact E2]. }
  rewrite (IH _ _ _ _ F1 F2 E'). reflexivity.
Qed.

(** What a pass has written at any moment: a part of the results for the first [m] blobs. *)
Lemma pass_killed envs rs locs top fin workers file l cn part : good_index rs locs top -> bytes file -> zlen file < 2^63 -> is_file file (map fst l) ->
  ready_all envs 0 l -> rw_pass_killed envs (sub_index_of rs locs top) fin workers file cn part ->
  exists m bl out j, (m <= List.length l)%nat /\ mapm (RwThms.step (new_ref rs locs)) (firstn m l) = Ok bl /\ enc_file bl = Ok out /\ zlen out < 2^63 /\ part = firstn j out.
Proof.
  intros G Bf Lf F R [m bs k s n out j Em Eb ST Eo Lo Ep].
  assert (N : file <> []) by (intros ->; discriminate Em).
  assert (m = file) by (destruct file; [contradiction|cbn in Em; congruence]). subst m. clear Em.
  assert (Kn : Forall (fun b => known_type (fst b)) (map fst l)).
  { apply Forall_map, Forall_forall. intros x Hx. apply In_nth_error in Hx. destruct Hx as (i & Hx). specialize (R i x Hx). destruct x as [[ty data] q]. apply R. }
  destruct (pC34_split file (map fst l) Bf Lf F Kn) as (bs' & Eb' & Es). rewrite Eb in Eb'. injection Eb' as <-.
  pose proof (pC37_file_indexed file bs Bf Lf Eb) as IX.
  pose proof (start_reach _ _ _ _ _ _ ST) as RE.
  set (c := rw_conf envs (sub_index_of rs locs top) fin) in *.
  destruct (pC37_prefix _ _ c blk_Index bs workers s eq_refl IX (conf_keeps _ _ _ _) RE) as (m & Hm).
  apply (mapm_firstn _ _ _ n) in Hm. rewrite firstn_firstn in Hm.
  assert (LB : List.length bs = List.length l).
  { apply (f_equal (@List.length _)) in Es. rewrite map_length, numbered_length, map_length in Es. exact Es. }
  set (m' := Nat.min (Nat.min n m) (List.length l)).
  assert (Hm' : mapm (c_work c) (firstn m' bs) = Ok (firstn n (s_got s))).
  { rewrite <- Hm. f_equal. unfold m'. rewrite <- LB. destruct (Nat.min_spec (Nat.min n m) (List.length bs)) as [(L & ->)|(L & ->)]; [reflexivity|]. rewrite firstn_all, firstn_all2 by lia. reflexivity. }
  assert (Hle : (m' <= List.length l)%nat) by (unfold m'; lia). clearbody m'.
  exists m', (map (fun b => (blk_Type b, vis (blk_Data b))) (firstn n (s_got s))), out, j. split; [exact Hle|]. split; [|split; [|split; [exact Lo|exact Ep]]].
  - pose proof (pass_map envs rs locs top fin G (firstn m' l) 0 (firstn m' bs)) as M.
    change (fun b => rw_worker (envs (blk_Index b)) (sub_index_of rs locs top) fin b) with (c_work c) in M. rewrite Hm' in M. apply M.
    + intros i x Hx. apply R. rewrite <- (firstn_skipn m' l). rewrite nth_error_app1; [exact Hx|]. apply nth_error_Some. rewrite Hx. discriminate.
    + rewrite <- firstn_map, Es. unfold numbered. rewrite combine_firstn, map_length, firstn_map, firstn_length, (Nat.min_l _ _ Hle), firstn_map.
      f_equal. f_equal. clear - Hle. revert Hle. generalize 0%nat, (List.length l). intros a b. revert a b. induction m' as [|m' IH]; intros a [|b] H; cbn [seq firstn]; try reflexivity; [lia|]. rewrite IH by lia. reflexivity.
  - unfold enc_file, rewriter_writer in *. rewrite <- write_seen. exact Eo.
Qed.
Lemma stage_killed envs rs locs n l k cn f sub workers part : index_ok rs locs -> Forall (fun x => is_s64 x /\ x <= 0) locs -> 1 <= n -> Z.of_nat k < n ->
  stage envs rs locs n l k cn f -> SubIndex (index_of rs locs) (Z.of_nat k) n = Ok sub ->
  rw_pass_killed (envs (Z.of_nat k)) sub (Z.of_nat k =? n - 1) workers f cn part ->
  exists m bl out j, (m <= List.length l)%nat /\ enc_file bl = Ok out /\ zlen out < 2^63 /\ part = firstn j out /\
    mapm (RwThms.step (new_ref (firstn (cut (slice_size locs n * Z.of_nat (S k)) 0 rs) rs) locs)) (firstn m l) = Ok bl.
Proof.
  intros Hi Hl Hn Hk (l' & F' & B' & L' & R' & Le & Lc & C') Es P. pose proof Hi as (Hok & Ha & Ht & _).
  assert (Hs64 : Forall is_s64 locs) by (revert Hl; apply Forall_impl; tauto). assert (Hneg : Forall (fun x => x <= 0) locs) by (revert Hl; apply Forall_impl; tauto).
  destruct (sub_good rs locs n (Z.of_nat k) sub Hi Hn ltac:(lia) Es) as (top & -> & G).
  destruct (pass_killed _ _ _ _ _ _ _ _ _ _ G B' L' F' (R' _) P) as (m & bl & out & j & Hm & Em & Eo & Lo & Ep).
  set (S_ := new_ref (pass_ranges rs locs (Z.of_nat k) n) locs) in *.
  assert (X : forall (g : Z -> Z) x, g (S_ (new_ref (firstn (cut (slice_size locs n * Z.of_nat k) 0 rs) rs) locs x)) = g (new_ref (firstn (cut (slice_size locs n * Z.of_nat (S k)) 0 rs) rs) locs x)).
  { intros g x. f_equal. unfold S_. rewrite (firstn_pass rs locs n k Hi Hn ltac:(lia)). apply new_ref_comp; [|rewrite <- firstn_pass by (assumption || lia)|exact Hneg].
    + rewrite <- firstn_pass by (assumption || lia). apply asc_firstn. exact Ha.
    + apply Forall_forall. intros y Hy. apply (proj1 (Forall_forall _ _) Hok). rewrite <- (firstn_skipn (cut (slice_size locs n * Z.of_nat (S k)) 0 rs) rs). apply in_or_app. left. exact Hy. }
  exists m, bl, out, j. split; [lia|]. split; [exact Eo|]. split; [exact Lo|]. split; [exact Ep|]. apply C' in Em; [|exact Hm]. rewrite <- Em. apply step_ext. intros x. symmetry. apply (X (fun y => y)).
Qed.
Lemma runs_killed envs idx input output passes workers n i cn fs cn' fs' : rw_loop_runs envs idx input output passes workers n i cn fs cn' fs' ->
  rw_loop_killed envs idx input output passes workers n i cn fs (i + Z.of_nat n) fs'.
Proof.
  intros H. induction H as [i cn fs|n i cn fs ix file cn1 out cn' fs' fs1 inputFile outputFile Es Ef P _ IH]; [change (Z.of_nat 0) with 0; rewrite Z.add_0_r; apply killed_before|].
  replace (i + Z.of_nat (S n)) with (i + 1 + Z.of_nat n) by lia. eapply killed_later; eassumption.
Qed.
(** The files that are not touched. *)
Lemma killed_untouched envs idx input output passes workers n i cn fs at_pass c : 0 <= i -> i + Z.of_nat n = passes ->
  rw_loop_killed envs idx input output passes workers n i cn fs at_pass c ->
  i <= at_pass <= passes /\ (at_pass < passes - 1 -> c output = fs output) /\
  (forall name, name <> output -> ~ is_pass output passes name -> c name = fs name).
Proof.
  intros Hi Hn H. revert Hi Hn.
  assert (NO : ~ is_pass output passes output) by (intros (j & _ & X); symmetry in X; exact (pass_output _ _ _ X)).
  assert (F1 : forall i fs name, i <= passes -> ~ is_pass output passes name -> (if 1 <? i then fs_remove_try fs (makePassFilename output (i - 1) passes) else fs) name = fs name).
  { intros i0 fs0 name L N. destruct (Z.ltb_spec 1 i0) as [L'|L']; [|reflexivity]. apply fs_set_other. intros ->. apply N. exists (i0 - 1). split; [lia|reflexivity]. }
  assert (F2 : forall i fs out name, 0 <= i < passes -> name <> output \/ i < passes - 1 -> ~ is_pass output passes name ->
     fs_set fs (if i + 1 <? passes then makePassFilename output (i + 1) passes else output) out name = fs name).
  { intros i0 fs0 out name L N1 N. apply fs_set_other. destruct (Z.ltb_spec (i0 + 1) passes) as [L'|L'].
    - intros ->. apply N. exists (i0 + 1). split; [lia|reflexivity].
    - destruct N1; [assumption|lia]. }
  induction H as [n i cn fs|n i cn fs fs1|n i cn fs ix file part fs1 inputFile outputFile _ _ _|n i cn fs ix file cn1 out at_pass c fs1 inputFile outputFile _ _ _ _ IH]; intros Hi Hn.
  - split; [lia|]. split; reflexivity.
  - split; [lia|]. split; [intros _; apply F1; [lia|exact NO]|]. intros name _ N. apply F1; [lia|exact N].
  - split; [lia|]. split.
    + intros L. unfold outputFile, fs1. rewrite F2, F1; auto; lia.
    + intros name N1 N2. unfold outputFile, fs1. rewrite F2, F1; auto; lia.
  - destruct IH as (I1 & I2 & I3); [lia|lia|]. split; [lia|]. split.
    + intros L. rewrite (I2 L). unfold outputFile, fs1. rewrite F2, F1; auto; lia.
    + intros name N1 N2. rewrite (I3 name N1 N2). unfold outputFile, fs1. rewrite F2, F1; auto; lia.
Qed.
(** The output of a run: as it was, or a part of the results of all passes. *)
Lemma killed_stages envs rs locs input output passes workers l : index_ok rs locs -> Forall (fun x => is_s64 x /\ x <= 0) locs -> 1 <= passes < 2^63 ->
  input <> output -> ~ is_pass output passes input -> forall old,
  let results f := exists m bl out j, (m <= List.length l)%nat /\ enc_file bl = Ok out /\ zlen out < 2^63 /\ f = firstn j out /\
    mapm (RwThms.step (new_ref (firstn (cut (slice_size locs passes * Z.of_nat (Z.to_nat passes)) 0 rs) rs) locs)) (firstn m l) = Ok bl in
  forall n i cn fs at_pass c, 0 <= i -> i + Z.of_nat n = passes ->
  (i = 0 -> exists f, fs input = Some f /\ stage envs rs locs passes l 0 cn f) ->
  (0 < i < passes -> exists f, fs (makePassFilename output i passes) = Some f /\ stage envs rs locs passes l (Z.to_nat i) cn f) ->
  (fs output = old \/ i = passes /\ exists f, fs output = Some f /\ results f) ->
  rw_loop_killed envs (index_of rs locs) input output passes workers n i cn fs at_pass c ->
  c output = old \/ exists f, c output = Some f /\ results f.
Proof.
  intros Hi Hl Hp Hio Hip old results n i cn fs at_pass c H0 Hn A B C H. revert H0 Hn A B C.
  assert (NO : ~ is_pass output passes output) by (intros (j & _ & X); symmetry in X; exact (pass_output _ _ _ X)).
  assert (R1 : forall i fs, 0 <= i -> (if 1 <? i then fs_remove_try fs (makePassFilename output (i - 1) passes) else fs) output = fs output).
  { intros i0 fs0 L. destruct (Z.ltb_spec 1 i0) as [L'|L']; [|reflexivity]. apply fs_set_other. intros X. symmetry in X. exact (pass_output _ _ _ X). }
  assert (St : forall i cn fs file, 0 <= i < passes -> (i = 0 -> exists f, fs input = Some f /\ stage envs rs locs passes l 0 cn f) ->
    (0 < i < passes -> exists f, fs (makePassFilename output i passes) = Some f /\ stage envs rs locs passes l (Z.to_nat i) cn f) ->
    (if 1 <? i then fs_remove_try fs (makePassFilename output (i - 1) passes) else fs) (if 0 <? i then makePassFilename output i passes else input) = Some file ->
    stage envs rs locs passes l (Z.to_nat i) cn file).
  { intros i0 cn0 fs0 file0 L A0 B0 E. destruct (Z.ltb_spec 0 i0) as [L'|L'].
    - destruct (B0 ltac:(lia)) as (f & X & Y). assert (E' : fs0 (makePassFilename output i0 passes) = Some file0); [|congruence].
      rewrite <- E. destruct (1 <? i0); [|reflexivity]. symmetry. apply fs_set_other. intros Z'. apply pass_inj in Z'; lia.
    - assert (i0 = 0) by lia. subst i0. destruct (A0 eq_refl) as (f & X & Y). change (1 <? 0) with false in E. cbn iota in E. rewrite X in E. injection E as <-. exact Y. }
  induction H as [n i cn fs|n i cn fs fs1|n i cn fs ix file part fs1 inputFile outputFile Es Ef P|n i cn fs ix file cn1 out at_pass c fs1 inputFile outputFile Es Ef P _ IH]; intros H0 Hn A B C.
  - destruct C as [C|(_ & C)]; [left; exact C|right; exact C].
  - assert (i < passes) by lia. destruct C as [C|(? & _)]; [|lia]. left. unfold fs1. rewrite R1 by lia. exact C.
  - assert (i < passes) by lia. destruct C as [C|(? & _)]; [|lia]. unfold outputFile. destruct (Z.ltb_spec (i + 1) passes) as [L|L].
    + left. rewrite fs_set_other by (intros X; symmetry in X; exact (pass_output _ _ _ X)). unfold fs1. rewrite R1 by lia. exact C.
    + right. exists part. split; [apply fs_set_same|]. assert (Zi : Z.of_nat (Z.to_nat i) = i) by lia.
      destruct (stage_killed envs rs locs passes l (Z.to_nat i) cn file ix workers part Hi Hl ltac:(lia) ltac:(lia)) as (m & bl & out & j & K1 & K2 & K3 & K4 & K5);
        [apply (St i cn fs); auto; lia|rewrite Zi; exact Es|rewrite Zi; exact P|].
      exists m, bl, out, j. replace (Z.to_nat passes) with (S (Z.to_nat i)) by lia. auto.
  - assert (i < passes) by lia. destruct C as [C|(? & _)]; [|lia]. assert (Zi : Z.of_nat (Z.to_nat i) = i) by lia.
    destruct (stage_pass envs rs locs passes l (Z.to_nat i) cn file ix workers cn1 out Hi Hl ltac:(lia) ltac:(lia)) as (St' & m & bl & K1 & _ & K2 & K3);
      [apply (St i cn fs); auto; lia|rewrite Zi; exact Es|rewrite Zi; exact P|].
    apply IH; [lia|lia|lia| |].
    + intros L. exists out. split; [unfold outputFile; replace (i + 1 <? passes) with true by lia; apply fs_set_same|]. replace (Z.to_nat (i + 1)) with (S (Z.to_nat i)) by lia. exact St'.
    + unfold outputFile. destruct (Z.ltb_spec (i + 1) passes) as [L|L].
      * left. rewrite fs_set_other by (intros X; symmetry in X; exact (pass_output _ _ _ X)). unfold fs1. rewrite R1 by lia. exact C.
      * right. split; [lia|]. exists out. split; [apply fs_set_same|]. exists m, bl, out, (List.length out).
        replace (Z.to_nat passes) with (S (Z.to_nat i)) by lia. split; [exact K1|]. split; [exact K2|]. split; [destruct St' as (l' & _ & _ & X & _); exact X|]. split; [rewrite firstn_all; reflexivity|exact K3].
Qed.

(** C90.  Whenever the run of the rewriter ends: only the output file and the files of its own passes
    have been touched, and before its last pass not even the output file. *)
Lemma pC90_untouched : forall envs idx input output memory workers fs at_pass c,
  rw_main_killed envs idx input output memory workers fs at_pass c ->
  exists n, rw_count (LocationCount idx) memory = Ok n /\ 0 <= at_pass <= n /\
    (at_pass < n - 1 -> c output = fs output) /\
    (forall name, name <> output -> (forall i, 1 <= i < n -> name <> makePassFilename output i n) -> c name = fs name).
Proof.
  intros envs idx input output memory workers fs at_pass c H. destruct H as [n at_pass c Ec H|n fs1 cn c Ec H Er]; exists n.
  - assert (Hp : 1 <= n < 2^63) by (eapply rw_count_range; [|exact Ec]; unfold LocationCount; apply u64_range || (apply zlen_nonneg)).
    destruct (killed_untouched _ _ _ _ n _ (Z.to_nat n) 0 _ _ _ _ ltac:(lia) ltac:(lia) H) as (A & B & C). split; [exact Ec|]. split; [lia|]. split; [exact B|].
    intros name N1 N2. apply C; [exact N1|]. intros (j & Hj & X). exact (N2 j Hj X).
  - assert (Hp : 1 <= n < 2^63) by (eapply rw_count_range; [|exact Ec]; unfold LocationCount; apply u64_range || (apply zlen_nonneg)).
    apply runs_killed in H. destruct (killed_untouched _ _ _ _ n _ (Z.to_nat n) 0 _ _ _ _ ltac:(lia) ltac:(lia) H) as (A & B & C). split; [exact Ec|]. split; [lia|]. split; [lia|].
    intros name N1 N2. assert (X : c name = fs1 name).
    { destruct (Z.ltb_spec 1 n) as [L|L]; [|congruence]. unfold fs_remove in Er. destruct (fs1 _); [|discriminate]. injection Er as <-. apply fs_set_other. apply N2. lia. }
    rewrite X. apply C; [exact N1|]. intros (j & Hj & Y). exact (N2 j Hj Y).
Qed.
Lemma often_untouched idx input output memory ok fs c : killed_often idx input output memory ok fs c ->
  forall n, rw_count (LocationCount idx) memory = Ok n -> forall name, name <> output -> ~ is_pass output n name -> c name = fs name.
Proof.
  intros H n En name N1 N2. induction H as [|c envs workers at_pass c' H IH _ K]; [reflexivity|]. rewrite <- IH.
  destruct (pC90_untouched _ _ _ _ _ _ _ _ _ K) as (n' & En' & _ & _ & F). rewrite En in En'. injection En' as <-. apply F; [exact N1|]. intros i Hi ->. apply N2. exists i. auto.
Qed.
(** The loop does not look at files that earlier runs left behind. *)
Lemma loop_same envs idx input output passes : 1 <= passes < 2^63 -> input <> output -> ~ is_pass output passes input ->
  forall n i fs c, 0 <= i -> i + Z.of_nat n = passes ->
  (forall name, name <> output \/ i = passes -> (forall j, i < j < passes -> 1 <= j -> name <> makePassFilename output j passes) -> c name = fs name) ->
  same_outcome (rw_loop envs idx input output passes n i fs) (rw_loop envs idx input output passes n i c).
Proof.
  intros Hp Hio Hip. induction n as [|n IH]; intros i fs c Hi Hn S; cbn [rw_loop].
  - cbn [same_outcome]. intros name. symmetry. apply S; [right; lia|]. intros; lia.
  - destruct (SubIndex idx i passes) as [ix|p|]; cbn [bind]; [|reflexivity|exact I].
    set (fs1 := if 1 <? i then fs_remove_try fs (makePassFilename output (i - 1) passes) else fs). set (c1 := if 1 <? i then fs_remove_try c (makePassFilename output (i - 1) passes) else c).
    set (inputFile := if 0 <? i then makePassFilename output i passes else input).
    assert (E : c1 inputFile = fs1 inputFile).
    { unfold c1, fs1. assert (c inputFile = fs inputFile).
      { apply S.
        - left. unfold inputFile. destruct (0 <? i); [apply pass_output|exact Hio].
        - intros j Hj Hj1. unfold inputFile. destruct (Z.ltb_spec 0 i); [intros X; apply pass_inj in X; lia|]. intros X. apply Hip. exists j. split; [lia|exact X]. }
      destruct (1 <? i); [|assumption]. unfold fs_remove_try, fs_set. destruct (seqb inputFile _); [reflexivity|assumption]. }
    rewrite E. destruct (fs1 inputFile) as [file|]; [|reflexivity]. destruct (rw_pass _ _ _ file) as [out|p|]; cbn [bind]; [|reflexivity|exact I].
    apply IH; [lia|lia|]. intros name N1 N2. set (outputFile := if i + 1 <? passes then makePassFilename output (i + 1) passes else output). unfold fs_set.
    destruct (seqb_spec name outputFile) as [T|T]; [reflexivity|]. unfold c1, fs1.
    assert (c name = fs name).
    { apply S.
      - destruct N1 as [N1|N1]; [left; exact N1|]. left. intros ->. apply T. unfold outputFile. replace (i + 1 <? passes) with false by lia. reflexivity.
      - intros j Hj Hj1 ->. destruct (Z.eq_dec j (i + 1)) as [->|Ne]; [|apply (N2 j ltac:(lia) Hj1); reflexivity]. apply T. unfold outputFile. replace (i + 1 <? passes) with true by lia. reflexivity. }
    destruct (1 <? i); [|assumption]. unfold fs_remove_try, fs_set. destruct (seqb name _); [reflexivity|assumption].
Qed.
(** C90.  However often runs of the rewriter have ended somewhere in between: running it again has the same
    outcome as if they had not been started; no file of theirs is left. *)
Lemma pC90_rerun : forall envs idx input output memory ok fs c, input <> output ->
  (forall pass count, input <> makePassFilename output pass count) ->
  killed_often idx input output memory ok fs c ->
  same_outcome (rw_main envs idx input output memory fs) (rw_main envs idx input output memory c).
Proof.
  intros envs idx input output memory ok fs c Hio Hip H. unfold rw_main. destruct (rw_count (LocationCount idx) memory) as [n|p|] eqn:Ec; cbn [bind]; [|reflexivity|exact I].
  assert (Hp : 1 <= n < 2^63) by (eapply rw_count_range; [|exact Ec]; unfold LocationCount; apply u64_range || (apply zlen_nonneg)).
  pose proof (often_untouched _ _ _ _ _ _ _ H n Ec) as U.
  assert (S : same_outcome (rw_loop envs idx input output n (Z.to_nat n) 0 fs) (rw_loop envs idx input output n (Z.to_nat n) 0 c)).
  { apply loop_same; [exact Hp|exact Hio|intros (j & _ & X); exact (Hip _ _ X)|lia|lia|]. intros name N1 N2. apply U; [destruct N1; [assumption|lia]|]. intros (j & Hj & X). apply (N2 j); [lia|lia|exact X]. }
  destruct (rw_loop envs idx input output n (Z.to_nat n) 0 fs) as [a|p|], (rw_loop envs idx input output n (Z.to_nat n) 0 c) as [b|q|]; cbn [same_outcome bind] in *; try contradiction; [|exact S|exact I].
  destruct (1 <? n); [|exact S]. unfold fs_remove. rewrite S. destruct (b _); [|reflexivity]. cbn [same_outcome]. intros name. unfold fs_set. destruct (seqb name _); [reflexivity|apply S].
Qed.

(** A part of the results for the first blobs: it cannot be read or is itself such a result. *)
Lemma part_result envs rs locs file l m bl out j : index_ok rs locs -> rs <> [] -> Forall is_s64 locs ->
  bytes file -> zlen file < 2^63 -> is_file file (map fst l) -> (forall pass, ready_all (envs pass) 0 l) -> (m <= List.length l)%nat ->
  mapm (RwThms.step (new_ref rs locs)) (firstn m l) = Ok bl -> enc_file bl = Ok out -> zlen out < 2^63 ->
  refused_or_good envs (index_of rs locs) file (map fst l) (firstn j out).
Proof.
  intros Hi Nr Hs64 Bf Lf Ff R Hm Em Eo Lo.
  assert (Ok_ : Forall (fun b => known_type (fst b) /\ bytes (snd b) /\ zlen (snd b) < 2^31) bl).
  { destruct (step_all _ _ _ Em) as (M1 & M2 & M3). cbn zeta in M1, M2, M3. set (l2 := combine bl _) in *. rewrite <- M1.
    apply Forall_map, Forall_forall. intros x' Hx'. apply In_nth_error in Hx' as (i & Hx'). destruct (M3 i x' Hx') as (x & Hx & Hs & Hq). destruct x' as [y q']. cbn [fst snd] in Hs, Hq. subst q'. destruct x as [[ty d] q]. cbn [snd] in *.
    assert (Hx2 : nth_error l i = Some (ty, d, q)) by (rewrite <- (firstn_skipn m l); rewrite nth_error_app1; [exact Hx|apply nth_error_Some; rewrite Hx; discriminate]).
    pose proof (R 0 i _ Hx2) as Rx. assert (Rz : ready (envs 0) (0 + Z.of_nat i) (y, block_with (new_ref rs locs) q)).
    { eapply step_ready; [apply new_ref_s64; exact Hs64|exact Rx| |exact Hs]. intros T. destruct Rx as (_ & _ & _ & Rx). apply Rx. exact T. }
    destruct y as [ty' d']. destruct Rz as (K1 & K2 & K3 & _). cbn. auto. }
  destruct (enc_file_is bl out Eo Ok_) as (Fo & Bo).
  destruct (pC35_truncation out bl j Bo Lo Fo) as [P|(bs & n & _ & F & _)]; [left; exact P|right].
  set (n' := Nat.min n m). assert (En : firstn n bl = firstn n' bl).
  { unfold n'. pose proof (mapm_length _ _ _ Em) as L. rewrite firstn_length, Nat.min_l in L by lia. destruct (Nat.min_spec n m) as [(A & ->)|(A & ->)]; [reflexivity|]. rewrite !firstn_all2 by lia. reflexivity. }
  rewrite En in F. pose proof (mapm_firstn _ _ _ n' Em) as Em'. rewrite firstn_firstn in Em'. replace (Nat.min n' m) with n' in Em' by (unfold n'; lia).
  assert (Hn' : (n' <= List.length l)%nat) by (unfold n'; lia). clearbody n'. clear En.
  assert (Eo' : enc_file (firstn n' bl) = Ok (firstn j out)).
  { unfold enc_file, rewriter_writer in Eo |- *. destruct (write_blocks_firstn _ n' _ _ _ _ Eo) as (f' & rest & E' & EQ). rewrite firstn_map in E'. rewrite E'. f_equal.
    destruct (enc_file_is (firstn n' bl) f' E' (Forall_firstn _ _ _ Ok_)) as (F' & _).
    apply (is_file_prefix (firstn n' bl) f' (firstn j out) rest (skipn j out) F' F). rewrite firstn_skipn. symmetry. exact EQ. }
  destruct (is_file_cut (map fst l) file n' Ff) as (part & rest & EQ & Fp). subst file.
  exists n', part. split; [split; [rewrite map_length; exact Hn'|split; [exact Fp|exists rest; reflexivity]]|].
  destruct n' as [|n']; [left; split; [reflexivity|]; cbn in Eo'; injection Eo' as <-; reflexivity|]. right.
  cbn [after_passes bind]. destruct (pC48_single_pass rs locs Hi Nr) as (top1 & Es1 & Ht1). change (Z.of_nat 0) with 0. rewrite Es1. cbn [bind].
  apply bytes_app_inv in Bf as [B1 _].
  rewrite (rw_pass_is _ rs locs top1 _ part (firstn (S n') l) (conj (proj1 Hi) (conj (proj1 (proj2 Hi)) Ht1)) B1), Em'; [exact Eo'|..].
  - rewrite zlen_app in Lf. pose proof (zlen_nonneg rest). lia.
  - rewrite <- firstn_map. exact Fp.
  - intros i x Hx. apply (R 0 i x). rewrite <- (firstn_skipn (S n') l). rewrite nth_error_app1; [exact Hx|]. apply nth_error_Some. rewrite Hx. discriminate.
  - intros ->. destruct l as [|[[ty d] q] l]; [cbn in Hn'; lia|]. cbn [map fst firstn is_file] in Fp. destruct Fp as (fb & r & E & (sz & hdr & E2 & (b0 & b1 & b2 & b3 & E3 & _) & _) & _). subst. discriminate E.
Qed.
(** C90, the files for which C53 holds.  However often and whenever runs of the rewriter ended: the output file is as it was
    before, or no tool can read it, or it is the result of one whole pass with the whole index
    over the file cut after some blob.  There is no other way for it to be incomplete. *)
Lemma pC90_output_partial : forall (ok : (Z -> Z -> zenv) -> Prop) envs input output memory file blobs rs locs fs c,
  input <> output -> (forall pass count, input <> makePassFilename output pass count) -> fs input = Some file ->
  bytes file -> zlen file < 2^63 -> is_file file blobs -> Forall (fun b => known_type (fst b)) blobs ->
  (forall i data, nth_error blobs i = Some (bytes_of "OSMData", data) ->
     exists p, forall envs, ok envs -> forall pass, holds_alone (envs pass (Z.of_nat i)) data p) ->
  (forall envs pass i, ok envs -> env_ok (envs pass i)) -> ok envs ->
  index_ok rs locs -> Forall (fun loc => is_s64 loc /\ loc <= 0) locs ->
  (forall n, rw_count (LocationCount (index_of rs locs)) memory = Ok n ->
     exists subs, passes (index_of rs locs) n = Ok subs /\ concat (map si_element subs) = map elem_of rs) ->
  killed_often (index_of rs locs) input output memory ok fs c ->
  c input = Some file /\
  (c output = fs output \/ exists f, c output = Some f /\ refused_or_good envs (index_of rs locs) file blobs f).
Proof.
  intros ok envs input output memory file blobs rs locs fs c Hio Hip Hin Bf Lf Ff Kf Hd He Hok Hi Hl Hc H.
  pose proof (file_blobs blobs file Bf Ff) as Bd.
  destruct (choose_list (fun i tb p => forall envs, ok envs -> forall pass, ready (envs pass) (Z.of_nat i) (tb, p)) blobs 0) as (l & Hl1 & Hl2).
  { intros i [ty data] Hx. cbn [Nat.add]. pose proof (nth_error_In _ _ Hx) as Hx'. pose proof (proj1 (Forall_forall _ _) Bd _ Hx') as (D1 & D2). pose proof (proj1 (Forall_forall _ _) Kf _ Hx') as K.
    cbn [fst snd] in *. destruct (seqb_spec ty tOSMData) as [T|T].
    - rewrite T in Hx. destruct (Hd i data Hx) as (p & Hp). exists p. intros envs' Oe pass. split; [exact K|]. split; [exact D1|]. split; [exact D2|]. intros _. split; [apply Hp; exact Oe|].
      pose proof (alone_holds _ _ [] _ (Hp envs' Oe pass)) as Hh. split.
      + eapply holds_typed; [|apply He; exact Oe|exact Hh]. split; [exact D1|]. split; [constructor|]. unfold scap, slen, zlen in *. cbn in *. lia.
      + destruct Hh as (bl & raw & _ & _ & E3). exact (ReadBlock_rw _ _ E3).
    - exists PrimitiveBlock0. intros envs' Oe pass. split; [exact K|]. split; [exact D1|]. split; [exact D2|]. intros; contradiction. }
  assert (R : forall envs, ok envs -> forall pass, ready_all (envs pass) 0 l) by (intros envs' Oe pass i x Hx; specialize (Hl2 i x Hx envs' Oe pass); destruct x; exact Hl2).
  subst blobs. assert (Hs64 : Forall is_s64 locs) by (revert Hl; apply Forall_impl; tauto).
  induction H as [|c envs' workers at_pass c' H IH Oe K]; [split; [exact Hin|left; reflexivity]|]. destruct IH as (IH1 & IH2).
  assert (In' : c' input = Some file).
  { rewrite <- IH1. destruct (pC90_untouched _ _ _ _ _ _ _ _ _ K) as (n & _ & _ & _ & F). apply F; [exact Hio|]. intros; apply Hip. }
  split; [exact In'|].
  enough (G : c' output = c output \/ exists f, c' output = Some f /\ refused_or_good envs (index_of rs locs) file (map fst l) f).
  { destruct G as [G|G]; [rewrite G; exact IH2|right; exact G]. }
  assert (Main : forall n c1 at1, rw_count (LocationCount (index_of rs locs)) memory = Ok n -> rw_loop_killed envs' (index_of rs locs) input output n workers (Z.to_nat n) 0 false c at1 c1 ->
    c1 output = c output \/ exists f, c1 output = Some f /\ refused_or_good envs (index_of rs locs) file (map fst l) f).
  { intros n c1 at1 Ec El. destruct (Hc n Ec) as (subs & Ep & Ecov).
    assert (Hp : 1 <= n < 2^63) by (eapply rw_count_range; [|exact Ec]; unfold LocationCount; apply u64_range || (apply zlen_nonneg)).
    pose proof (passes_sub rs locs n subs Hi ltac:(lia) Ep) as (M & P). rewrite M, concat_map_map, pass_concat in Ecov by lia.
    assert (All : firstn (cut (slice_size locs n * Z.of_nat (Z.to_nat n)) 0 rs) rs = rs).
    { apply (f_equal (@List.length _)) in Ecov. rewrite !map_length, firstn_length in Ecov. apply firstn_all2. lia. }
    assert (Nr : rs <> []) by (intros ->; destruct (P 0%nat ltac:(lia)) as (P0 & _); cbn in P0; lia).
    assert (Hpi : ~ is_pass output n input) by (intros (j & _ & X); exact (Hip _ _ X)).
    destruct (killed_stages envs' rs locs input output n workers l Hi Hl Hp Hio Hpi (c output) (Z.to_nat n) 0 false c at1 c1) as [O|(f & O1 & m & bl & out & j & K1 & K2 & K3 & -> & K5)];
      [lia|lia|intros _; exists file; split; [exact IH1|apply stage_0; try assumption; apply R; exact Oe]|intros; lia|left; reflexivity|exact El|left; exact O|].
    right. exists (firstn j out). split; [exact O1|]. rewrite All in K5. eapply part_result; eauto. }
  destruct K as [n at_pass c' Ec K|n fs1 cn c' Ec K Er].
  - eapply Main; eassumption.
  - apply runs_killed in K. replace (c' output) with (fs1 output); [eapply Main; eassumption|].
    destruct (Z.ltb_spec 1 n) as [L|L]; [|congruence]. unfold fs_remove in Er. destruct (fs1 _); [|discriminate]. injection Er as <-. symmetry. apply fs_set_other. intros X. symmetry in X. exact (pass_output _ _ _ X).
Qed.

(** ** Example *)
Lemma pass_runs_killed envs ix fin workers file cn cn' out j : rw_pass_runs envs ix fin workers file cn cn' out -> rw_pass_killed envs ix fin workers file cn (firstn j out).
Proof.
  intros [m bs k s Em Eb ST D C Eo Lo]. eapply (rw_pass_killed_by envs ix fin workers file cn _ m bs k s (List.length (s_got s)) out j); try assumption; [rewrite firstn_all; exact Eo|reflexivity].
Qed.
Definition kl_part : list Z := firstn 40 (cx_file (firstn 2 (cx_blobs [-9; -9] [-9; -9]))).
(** The conditions of C90 hold (see also the example of C79), and a run is killed in its second pass, when it has written
    40 bytes: the file of the first pass is left, and nothing reads the output file; the run that
    is started again gives the complete output and removes the file of its pass. *)
Lemma pC90_ex : let envs := fun _ _ => ex_env in let blobs := cx_blobs [10; 80001] [80002; 20] in
  bytes_of "in.pbf" <> bytes_of "out" /\ (forall pass count, bytes_of "in.pbf" <> makePassFilename (bytes_of "out") pass count) /\
  cx_fs (bytes_of "in.pbf") = Some cx_in /\ bytes cx_in /\ zlen cx_in < 2^63 /\ is_file cx_in blobs /\ Forall (fun b => known_type (fst b)) blobs /\
  (forall i data, nth_error blobs i = Some (bytes_of "OSMData", data) ->
     exists p, forall e, e = envs -> forall pass, holds_alone (e pass (Z.of_nat i)) data p) /\
  index_ok cx_rs cx_locs /\ Forall (fun loc => is_s64 loc /\ loc <= 0) cx_locs /\
  exists c fs', killed_often (index_of cx_rs cx_locs) (bytes_of "in.pbf") (bytes_of "out") (Some 1) (fun e => e = envs) cx_fs c /\
    c (bytes_of "out") = Some kl_part /\ read_file kl_part = Panic SliceOutOfRange /\
    c (bytes_of "out.pass_001_002") = Some (cx_file (cx_blobs [-9; 80001] [80002; -9])) /\
    rw_main envs (index_of cx_rs cx_locs) (bytes_of "in.pbf") (bytes_of "out") (Some 1) c = Ok fs' /\
    fs' (bytes_of "out") = Some (cx_file (cx_blobs [-9; -9] [-9; -9])) /\ fs' (bytes_of "out.pass_001_002") = None.
Proof.
  intros envs blobs. pose proof pC79_ex as X. cbn zeta in X. fold envs in X. fold blobs in X. destruct X as (X1 & X2 & X3 & X4 & X5 & X6 & X7 & X8 & X9 & X10 & X11 & _).
  split; [exact X1|]. split; [exact X2|]. split; [exact X3|]. split; [exact X4|]. split; [exact X5|]. split; [exact X6|]. split; [exact X7|]. split.
  { intros i data H. destruct (X8 i data H) as (p & Hp). exists p. intros e -> pass. apply Hp. }
  split; [exact X10|]. split; [exact X11|].
  assert (P1 : rw_pass_runs (envs 0) (cx_ix 0) (0 =? 2 - 1) 1 cx_in false false (cx_file (cx_blobs [-9; 80001] [80002; -9]))).
  { eapply rw_pass_all3; [vm_compute; reflexivity|vm_compute; reflexivity|cbn [rw_conf c_work]; vm_compute; reflexivity..| | |vm_compute; reflexivity]; vm_compute; reflexivity. }
  assert (P2 : rw_pass_runs (envs 1) (cx_ix 1) (1 =? 2 - 1) 1 (cx_file (cx_blobs [-9; 80001] [80002; -9])) false true (cx_file (firstn 2 (cx_blobs [-9; -9] [-9; -9])))).
  { eapply rw_pass_cut2; [vm_compute; reflexivity|vm_compute; reflexivity|cbn [rw_conf c_work]; vm_compute; reflexivity..| |vm_compute; reflexivity]; vm_compute; reflexivity. }
  apply (pass_runs_killed _ _ _ _ _ _ _ _ 40) in P2. fold kl_part in P2.
  set (c := fs_set (fs_set cx_fs (bytes_of "out.pass_001_002") (Some (cx_file (cx_blobs [-9; 80001] [80002; -9])))) (bytes_of "out") (Some kl_part)).
  assert (E : match rw_main envs (index_of cx_rs cx_locs) (bytes_of "in.pbf") (bytes_of "out") (Some 1) c with
    | Ok fs' => match fs' (bytes_of "out"), fs' (bytes_of "out.pass_001_002") with Some f, None => seqb f (cx_file (cx_blobs [-9; -9] [-9; -9])) | _, _ => false end | _ => false end = true) by (vm_compute; reflexivity).
  destruct (rw_main envs (index_of cx_rs cx_locs) (bytes_of "in.pbf") (bytes_of "out") (Some 1) c) as [fs'| |] eqn:Em; try discriminate E. exists c, fs'. split.
  - eapply killed_again with (envs := envs) (workers := 1%nat) (at_pass := 1); [apply killed_never|reflexivity|]. eapply main_killed_in with (passes := 2); [vm_compute; reflexivity|].
    change (Z.to_nat 2) with 2%nat. eapply killed_later; [apply cx_sub; left; reflexivity|reflexivity|exact P1|]. exact (killed_writing envs (index_of cx_rs cx_locs) (bytes_of "in.pbf") (bytes_of "out") 2 1 0 1 false _ (cx_ix 1) _ kl_part (cx_sub 1 (or_intror eq_refl)) eq_refl P2).
  - split; [reflexivity|]. split; [vm_compute; reflexivity|]. split; [reflexivity|]. split; [exact Em|].
    clear Em. destruct (fs' (bytes_of "out")) as [f|]; [|discriminate E]. destruct (fs' (bytes_of "out.pass_001_002")); [discriminate E|]. split; [|reflexivity].
    destruct (seqb_spec f (cx_file (cx_blobs [-9; -9] [-9; -9]))) as [Ef|]; [f_equal; exact Ef|discriminate E].
Qed.
