(** * RkThms: what runs of the relation indexer that end at any moment leave behind (C92). *)
From Verif Require Import Base PbSpec TModel HLModel FrModel FrSpec ZlModel IoModel NiModel NiSpec RwModel WiModel WiSpec WiThms RiModel RiSpec KlModel KlSpec RkModel RkSpec RiThms.
From Verif Require Import BaseLemmas PbModel HLProofs FrProofs RwThms KlSpec KlThms.

Definition own (output : list Z) (passes : Z) (name : list Z) : Prop := exists j, 0 <= j < Z.max passes 1 /\ name = makePassFilename output j passes.
Lemma ri_loop_untouched wi output passes n i fs at_pass c : 0 <= i -> i + Z.of_nat n = passes -> ri_loop_killed wi output passes n i fs at_pass c ->
  i <= at_pass <= passes /\ (at_pass < passes - 1 \/ passes = 0 -> c output = fs output) /\ (forall name, name <> output -> ~ own output passes name -> c name = fs name).
Proof.
  intros Hi Hn H. revert Hi Hn.
  assert (NO : ~ own output passes output) by (intros (j & _ & X); symmetry in X; exact (pass_output _ _ _ X)).
  assert (F2 : forall i fs out name, 0 <= i < passes -> name <> output \/ i < passes - 1 -> ~ own output passes name ->
     fs_set fs (if i + 1 <? passes then makePassFilename output (i + 1) passes else output) out name = fs name).
  { intros i0 fs0 out name L N1 N. apply fs_set_other. destruct (Z.ltb_spec (i0 + 1) passes) as [L'|L'].
    - intros ->. apply N. exists (i0 + 1). split; [lia|reflexivity].
    - destruct N1; [assumption|lia]. }
  assert (F3 : forall i fs name, 0 <= i < passes -> ~ own output passes name -> fs_remove_try fs (makePassFilename output i passes) name = fs name).
  { intros i0 fs0 name L N. apply fs_set_other. intros ->. apply N. exists i0. split; [lia|reflexivity]. }
  induction H as [n i fs|n i fs contents part inputFile outputFile _ _|n i fs contents out at_pass c inputFile outputFile _ _ _ IH]; intros Hi Hn.
  - split; [lia|]. split; reflexivity.
  - split; [lia|]. split.
    + intros L. unfold outputFile. apply F2; auto; lia.
    + intros name N1 N2. unfold outputFile. apply F2; auto; lia.
  - destruct IH as (I1 & I2 & I3); [lia|lia|]. split; [lia|]. split.
    + intros L. rewrite (I2 L). unfold outputFile, inputFile. rewrite F3, F2; auto; lia.
    + intros name N1 N2. rewrite (I3 name N1 N2). unfold outputFile, inputFile. rewrite F3, F2; auto; lia.
Qed.
(** C92.  Whenever the run of the relation indexer ends: only the output file and the files of its own passes have been
    touched, and before its last pass not even the output file. *)
Lemma pC92_untouched : forall inBlocks wayIndex output n fs m at_pass c, 0 <= n ->
  ri_main_killed inBlocks wayIndex output n fs m at_pass c ->
  at_pass <= n /\ (at_pass < n - 1 -> c output = fs output) /\
  (forall name, name <> output -> (forall i, 0 <= i <= n -> name <> makePassFilename output i n) -> c name = fs name).
Proof.
  intros inBlocks wayIndex output n fs m at_pass c Hn H.
  assert (F0 : forall first name, name <> makePassFilename output 0 n -> fs_set fs (makePassFilename output 0 n) (Some first) name = fs name) by (intros; apply fs_set_other; assumption).
  destruct H as [|msgs k first j _ _|first contents ix at_pass c _ fs1 _ _ H].
  - split; [lia|]. split; reflexivity.
  - split; [lia|]. split; [intros _; apply F0; intros X; symmetry in X; exact (pass_output _ _ _ X)|]. intros name _ N. apply F0. apply N. lia.
  - destruct (ri_loop_untouched ix output n (Z.to_nat n) 0 fs1 at_pass c ltac:(lia) ltac:(lia) H) as (A & B & C). split; [lia|]. split.
    + intros L. rewrite B by lia. apply F0. intros X. symmetry in X. exact (pass_output _ _ _ X).
    + intros name N1 N2. rewrite C; [apply F0; apply N2; lia|exact N1|]. intros (j & Hj & X). apply (N2 j); [lia|exact X].
Qed.
Lemma ri_often_untouched inBlocks wayIndex output n fs c : 0 <= n -> ri_killed_often inBlocks wayIndex output n fs c ->
  (n = 0 -> c output = fs output) /\ forall name, name <> output -> ~ own output n name -> c name = fs name.
Proof.
  intros Hn H. induction H as [|c m at_pass c' H (IH0 & IH) K]; [split; reflexivity|].
  assert (X : (n = 0 -> c' output = c output) /\ forall name, name <> output -> ~ own output n name -> c' name = c name).
  { assert (F0 : forall first name, ~ own output n name -> fs_set c (makePassFilename output 0 n) (Some first) name = c name).
    { intros first name N. apply fs_set_other. intros ->. apply N. exists 0. split; [lia|reflexivity]. }
    assert (NO : ~ own output n output) by (intros (j & _ & X); symmetry in X; exact (pass_output _ _ _ X)).
    destruct K as [|msgs k first j _ _|first contents ix at_pass c' _ fs1 _ _ K].
    - split; reflexivity.
    - split; [intros _; apply F0; exact NO|]. intros name _ N. apply F0. exact N.
    - destruct (ri_loop_untouched ix output n (Z.to_nat n) 0 fs1 at_pass c' ltac:(lia) ltac:(lia) K) as (A & B & C). split.
      + intros E. rewrite B by (right; exact E). apply F0. exact NO.
      + intros name N1 N2. rewrite C by assumption. apply F0. exact N2. }
  destruct X as (X0 & X). split; [intros E; rewrite X0, IH0 by exact E; reflexivity|]. intros name N1 N2. rewrite X, IH by assumption. reflexivity.
Qed.
Lemma ri_loop_same wi output passes : 0 <= passes < 2^63 -> forall n i fs c, 0 <= i -> i + Z.of_nat n = passes ->
  (forall name, name <> output \/ i = passes -> (forall j, i < j < passes -> name <> makePassFilename output j passes) -> c name = fs name) ->
  same_outcome (ri_loop wi output passes n i fs) (ri_loop wi output passes n i c).
Proof.
  intros Hp. induction n as [|n IH]; intros i fs c Hi Hn S; cbn [ri_loop].
  - cbn [same_outcome]. intros name. symmetry. apply S; [right; lia|]. intros; lia.
  - rewrite (S (makePassFilename output i passes)); [|left; apply pass_output|intros j Hj X; apply pass_inj in X; lia].
    destruct (fs _) as [contents|]; [|reflexivity]. destruct (ri_rewrite wi i passes contents) as [out|p|]; cbn [bind]; [|reflexivity|exact I].
    apply IH; [lia|lia|]. intros name N1 N2. unfold fs_remove_try, fs_set. destruct (seqb name (makePassFilename output i passes)); [reflexivity|].
    set (outputFile := if i + 1 <? passes then makePassFilename output (i + 1) passes else output).
    destruct (seqb_spec name outputFile) as [T|T]; [reflexivity|]. apply S.
    + destruct N1 as [N1|N1]; [left; exact N1|]. left. intros ->. apply T. unfold outputFile. replace (i + 1 <? passes) with false by lia. reflexivity.
    + intros j Hj ->. destruct (Z.eq_dec j (i + 1)) as [->|Ne]; [|apply (N2 j ltac:(lia)); reflexivity]. apply T. unfold outputFile. replace (i + 1 <? passes) with true by lia. reflexivity.
Qed.
(** C92.  However often runs of the relation indexer have ended somewhere in between: running it again has the same outcome as
    if they had not been started; no file of theirs is left. *)
Lemma pC92_rerun : forall inBlocks inBlocks' wayIndex output n fs c, wayIndex <> output -> (forall pass count, wayIndex <> makePassFilename output pass count) ->
  0 <= n < 2^63 -> ri_killed_often inBlocks wayIndex output n fs c ->
  same_outcome (ri_main inBlocks' wayIndex output n fs) (ri_main inBlocks' wayIndex output n c).
Proof.
  intros inBlocks inBlocks' wayIndex output n fs c Hw Hwp Hn H. destruct (ri_often_untouched inBlocks wayIndex output n fs c ltac:(lia) H) as (U0 & U). unfold ri_main.
  destruct (ri_init inBlocks') as [first|p|]; cbn [bind]; [|reflexivity|exact I].
  rewrite !fs_set_other by apply Hwp. rewrite (U wayIndex Hw) by (intros (j & _ & X); exact (Hwp _ _ X)).
  destruct (fs wayIndex) as [contents|]; [|reflexivity]. destruct (NewWayIndex contents) as [ix|p|]; cbn [bind]; [|reflexivity|exact I].
  apply ri_loop_same; [exact Hn|lia|lia|]. intros name N1 N2. unfold fs_set. destruct (seqb_spec name (makePassFilename output 0 n)) as [T|T]; [reflexivity|].
  destruct N1 as [N1|N1].
  - apply U; [exact N1|]. intros (j & Hj & X). destruct (Z.eq_dec j 0) as [->|Nj]; [exact (T X)|]. apply (N2 j); [lia|exact X].
  - destruct (seqb_spec name output) as [->|N3]; [apply U0; lia|]. apply U; [exact N3|]. intros (j & Hj & X). assert (j = 0) by lia. subst j. exact (T X).
Qed.
Lemma ri_loop_part wi output passes : 0 <= passes < 2^63 -> forall n i fs at_pass c, 0 <= i -> i + Z.of_nat n = passes -> ri_loop_killed wi output passes n i fs at_pass c ->
  c output = fs output \/ (forall fs', ri_loop wi output passes n i fs = Ok fs' -> exists out j, fs' output = Some out /\ c output = Some (firstn j out)).
Proof.
  intros Hp n i fs at_pass c Hi Hn H. revert Hi Hn.
  assert (FO : forall i fs, fs_remove_try fs (makePassFilename output i passes) output = fs output) by (intros; apply fs_set_other; intros X; symmetry in X; exact (pass_output _ _ _ X)).
  assert (FL : forall n i fs fs', passes <= i -> i + Z.of_nat n = passes -> ri_loop wi output passes n i fs = Ok fs' -> fs' = fs).
  { intros n0 i0 fs0 fs0' L L2 E. assert (n0 = 0%nat) by lia. subst n0. cbn in E. congruence. }
  induction H as [n i fs|n i fs contents part inputFile outputFile Ef P|n i fs contents out at_pass c inputFile outputFile Ef Eo _ IH]; intros Hi Hn.
  - left. reflexivity.
  - unfold outputFile. destruct (Z.ltb_spec (i + 1) passes) as [L|L].
    + left. apply fs_set_other. intros X. symmetry in X. exact (pass_output _ _ _ X).
    + right. intros fs' E. cbn [ri_loop] in E. fold inputFile in E. rewrite Ef in E. replace (i + 1 <? passes) with false in E by lia.
      destruct P as [(out & j & Eo & ->)|P].
      * rewrite Eo in E. cbn [bind] in E. apply FL in E; [|lia|lia]. subst fs'. exists out, j. unfold inputFile. split; [rewrite FO; apply fs_set_same|apply fs_set_same].
      * destruct (ri_rewrite wi i passes contents) as [out|p|]; try discriminate E. exfalso. exact (P out eq_refl).
  - destruct IH as [A|A]; [lia|lia| |].
    + unfold inputFile in A. rewrite FO in A. unfold outputFile in A. destruct (Z.ltb_spec (i + 1) passes) as [L|L].
      * left. rewrite A. apply fs_set_other. intros X. symmetry in X. exact (pass_output _ _ _ X).
      * right. intros fs' E. cbn [ri_loop] in E. fold inputFile in E. rewrite Ef, Eo in E. cbn [bind] in E. replace (i + 1 <? passes) with false in E by lia. apply FL in E; [|lia|lia]. subst fs'.
        exists out, (List.length out). unfold inputFile. rewrite firstn_all, A, FO, fs_set_same. split; reflexivity.
    + right. intros fs' E. cbn [ri_loop] in E. fold inputFile outputFile in E. rewrite Ef, Eo in E. cbn [bind] in E. exact (A fs' E).
Qed.
(** C92.  However often and whenever runs of the relation indexer ended: the output file is as it was before, or the first part
    of what a run writes that goes to its end, having read the same blocks (the first [m]; all, if it is not cancelled). *)
Lemma pC92_output : forall inBlocks wayIndex output n fs c, wayIndex <> output -> (forall pass count, wayIndex <> makePassFilename output pass count) ->
  0 <= n < 2^63 -> ri_killed_often inBlocks wayIndex output n fs c ->
  c output = fs output \/
  exists m, forall fs', ri_main (firstn m inBlocks) wayIndex output n fs = Ok fs' ->
    exists out j, fs' output = Some out /\ c output = Some (firstn j out).
Proof.
  intros inBlocks wayIndex output n fs c Hw Hwp Hn H. induction H as [|c m at_pass c' H IH K]; [left; reflexivity|].
  enough (G : c' output = c output \/ forall fs', ri_main (firstn m inBlocks) wayIndex output n c = Ok fs' -> exists out j, fs' output = Some out /\ c' output = Some (firstn j out)).
  { destruct G as [G|G]; [rewrite G; exact IH|]. right. exists m. intros fs' E. pose proof (pC92_rerun _ (firstn m inBlocks) _ _ _ _ _ Hw Hwp Hn H) as S. rewrite E in S.
    destruct (ri_main (firstn m inBlocks) wayIndex output n c) as [b|p|] eqn:Eb; cbn [same_outcome] in S; try contradiction. rewrite S. apply G. reflexivity. }
  assert (F0 : forall first, fs_set c (makePassFilename output 0 n) (Some first) output = c output) by (intros; apply fs_set_other; intros X; symmetry in X; exact (pass_output _ _ _ X)).
  destruct K as [|msgs k first j _ _|first contents ix at_pass c' Ei fs1 Ew En K]; [left; reflexivity|left; apply F0|].
  destruct (ri_loop_part ix output n Hn (Z.to_nat n) 0 fs1 at_pass c' ltac:(lia) ltac:(lia) K) as [A|A]; [left; rewrite A; apply F0|right].
  intros fs' E. unfold ri_main in E. rewrite Ei in E. cbn [bind] in E. fold fs1 in E. rewrite Ew, En in E. cbn [bind] in E. exact (A fs' E).
Qed.

(** A run in two passes is killed in the last one, when 16 bytes of the output are written; the run after it makes the output
    and leaves no file of the first. *)
Definition ex_rk_cut (fs : fsys) : fsys :=
  match ri_init ex_ri_one with
  | Ok first =>
    match ri_rewrite (way_index_of ex_pass_es ex_pass_loc 3) 0 2 first with
    | Ok second =>
      match ri_rewrite (way_index_of ex_pass_es ex_pass_loc 3) 1 2 second with
      | Ok out => fs_set (fs_remove_try (fs_set (fs_set fs (makePassFilename (bytes_of "out") 0 2) (Some first)) (makePassFilename (bytes_of "out") 1 2) (Some second)) (makePassFilename (bytes_of "out") 0 2))
                    (bytes_of "out") (Some (firstn 16 out))
      | _ => fs end
    | _ => fs end
  | _ => fs end.
Lemma pC92_ex :
  ri_main_killed ex_ri_one (bytes_of "ways") (bytes_of "out") 2 (ex_ri_fs ex_pass_file) 1 1 (ex_rk_cut (ex_ri_fs ex_pass_file)) /\
  ri_killed_often ex_ri_one (bytes_of "ways") (bytes_of "out") 2 (ex_ri_fs ex_pass_file) (ex_rk_cut (ex_ri_fs ex_pass_file)) /\
  ex_rk_cut (ex_ri_fs ex_pass_file) (bytes_of "out") = Some (SliceAsByteSlice [77; 2]) /\
  ex_rk_cut (ex_ri_fs ex_pass_file) (bytes_of "out.pass_001_002") <> None /\
  bytes_of "ways" <> bytes_of "out" /\ (forall pass count, bytes_of "ways" <> makePassFilename (bytes_of "out") pass count) /\
  exists fs', ri_main ex_ri_one (bytes_of "ways") (bytes_of "out") 2 (ex_rk_cut (ex_ri_fs ex_pass_file)) = Ok fs' /\
    fs' (bytes_of "out") = Some (SliceAsByteSlice ([77; 2] ++ [10; 1; 1] ++ [2; 1; 1])) /\
    fs' (bytes_of "out.pass_001_002") = None /\ fs' (bytes_of "out.pass_000_002") = None.
Proof.
  assert (K : ri_main_killed ex_ri_one (bytes_of "ways") (bytes_of "out") 2 (ex_ri_fs ex_pass_file) 1 1 (ex_rk_cut (ex_ri_fs ex_pass_file))).
  { set (fs := ex_ri_fs ex_pass_file).
    assert (W : fs (bytes_of "ways") = Some ex_pass_file) by (vm_compute; reflexivity). clearbody fs.
    unfold ex_rk_cut. destruct (ri_init ex_ri_one) as [first|p|] eqn:E1; [|vm_compute in E1; discriminate E1|vm_compute in E1; discriminate E1].
    destruct (ri_rewrite (way_index_of ex_pass_es ex_pass_loc 3) 0 2 first) as [second|p|] eqn:E2;
      [|vm_compute in E1; injection E1 as <-; vm_compute in E2; discriminate E2|vm_compute in E1; injection E1 as <-; vm_compute in E2; discriminate E2].
    destruct (ri_rewrite (way_index_of ex_pass_es ex_pass_loc 3) 1 2 second) as [out|p|] eqn:E3;
      [|vm_compute in E1; injection E1 as <-; vm_compute in E2; injection E2 as <-; vm_compute in E3; discriminate E3
       |vm_compute in E1; injection E1 as <-; vm_compute in E2; injection E2 as <-; vm_compute in E3; discriminate E3].
    eapply ri_killed_in with (first := first) (contents := ex_pass_file) (ix := way_index_of ex_pass_es ex_pass_loc 3).
    - exact E1.
    - rewrite fs_set_other by discriminate. exact W.
    - exact (proj1 (proj2 (proj2 pC62_ex))).
    - change (Z.to_nat 2) with 2%nat. eapply ri_killed_later with (contents := first) (out := second).
      + apply fs_set_same.
      + exact E2.
      + change (0 + 1) with 1. change (1 <? 2) with true. cbv iota.
        eapply (ri_killed_writing _ (bytes_of "out") 2 0 1 _ second (firstn 16 out)).
        * unfold fs_remove_try. rewrite fs_set_other by discriminate. apply fs_set_same.
        * left. exists out, 16%nat. split; [exact E3|reflexivity]. }
  split; [exact K|]. split; [exact (ri_killed_again _ _ _ _ _ _ _ _ _ (ri_killed_never _ _ _ _ _) K)|].
  split; [vm_compute; reflexivity|]. split; [vm_compute; discriminate|]. split; [discriminate|]. split; [intros pass count; discriminate|].
  eexists. split; [vm_compute; reflexivity|]. split; [vm_compute; reflexivity|]. split; vm_compute; reflexivity.
Qed.
