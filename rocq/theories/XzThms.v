(** * XzThms: C90 for every number of passes. *)
From Verif Require Import Base HLThms ZlThms TfThms NiThms RwThms PbSpec TModel TSpec HLModel FrModel FrSpec ZlModel ZlSpec IoModel IoSpec TfModel TfSpec NiModel NiSpec NiThms RwModel RwSpec PlModel PlSpec PlThms CxModel CxSpec CxThms KlModel KlSpec.
From Verif Require Import BaseLemmas PbModel PbProofs TProofs TMsg TMsg2 TThms TTyped HLProofs HLThms FrProofs FrThms ZlThms TfThms NiProofs NiProofs2 NiThms RwThms PlProofs2 PlThms.
From Verif Require Import NiSpec RwSpec PlSpec CxModel CxSpec CxThms KlModel KlSpec.
From Verif Require Import XwThms CxThms KlThms XyThms.
From Verif Require Import NiSpec RwSpec PlSpec CxModel CxSpec CxThms KlModel KlSpec.

(** The file [f] cannot be read, or is what the [n] passes make of the file cut after some blob. *)
Definition refused_or_cut (envs : Z -> Z -> zenv) (idx : NodeIndex) (n : Z) (file : list Z) (blobs : list (list Z * list Z)) (f : list Z) : Prop :=
  (exists msg, read_file f = Panic msg) \/
  (exists m part, cut_after file blobs m part /\ (m = 0%nat /\ f = [] \/ after_passes envs idx n (Z.to_nat n) part = Ok f)).

Lemma stage2_killed (ok : (Z -> Z -> zenv) -> Prop) envs rs locs n file l k cn f sub workers part : index_ok rs locs -> Forall (fun x => is_s64 x /\ x <= 0) locs -> 1 <= n -> Z.of_nat k < n -> ok envs ->
  stage2 ok rs locs n file l k cn f -> SubIndex (index_of rs locs) (Z.of_nat k) n = Ok sub ->
  rw_pass_killed (envs (Z.of_nat k)) sub (Z.of_nat k =? n - 1) workers f cn part ->
  exists out j, part = firstn j out /\ stage2 ok rs locs n file l (S k) true out.
Proof.
  intros Hi Hl Hn Hk Ho St Es P.
  destruct (stage2_step ok envs rs locs n file l k cn f sub true (fun out => exists j, part = firstn j out) Hi Hl Hn Hk Ho St Es) as (out & (j & Ej) & X); [|exists out, j; auto].
  intros top l' -> G B' L' F' R'. destruct (pass_killed _ _ _ _ _ _ _ _ _ _ G B' L' F' R' P) as (m & bl & out & j & Hm & Em & Eo & Lo & Ep).
  exists out. split; [exists j; exact Ep|]. split; [exact Lo|]. split; [reflexivity|]. exists m, bl. split; [exact Hm|]. split; [exact Em|]. split; [exact Eo|discriminate].
Qed.
Lemma killed_stages2 (ok : (Z -> Z -> zenv) -> Prop) envs file0 rs locs input output passes workers l : index_ok rs locs -> Forall (fun x => is_s64 x /\ x <= 0) locs -> 1 <= passes < 2^63 -> ok envs ->
  input <> output -> ~ is_pass output passes input -> forall old,
  let results f := exists out j cn, f = firstn j out /\ stage2 ok rs locs passes file0 l (Z.to_nat passes) cn out in
  forall n i cn fs at_pass c, 0 <= i -> i + Z.of_nat n = passes ->
  (i = 0 -> exists f, fs input = Some f /\ stage2 ok rs locs passes file0 l 0 cn f) ->
  (0 < i < passes -> exists f, fs (makePassFilename output i passes) = Some f /\ stage2 ok rs locs passes file0 l (Z.to_nat i) cn f) ->
  (fs output = old \/ i = passes /\ exists f, fs output = Some f /\ results f) ->
  rw_loop_killed envs (index_of rs locs) input output passes workers n i cn fs at_pass c ->
  c output = old \/ exists f, c output = Some f /\ results f.
Proof.
  intros Hi Hl Hp Hoke Hio Hip old results n i cn fs at_pass c H0 Hn A B C H. revert H0 Hn A B C.
  assert (NO : ~ is_pass output passes output) by (intros (j & _ & X); symmetry in X; exact (pass_output _ _ _ X)).
  assert (R1 : forall i fs, 0 <= i -> (if 1 <? i then fs_remove_try fs (makePassFilename output (i - 1) passes) else fs) output = fs output).
  { intros i0 fs0 L. destruct (Z.ltb_spec 1 i0) as [L'|L']; [|reflexivity]. apply fs_set_other. intros X. symmetry in X. exact (pass_output _ _ _ X). }
  assert (St : forall i cn fs file, 0 <= i < passes -> (i = 0 -> exists f, fs input = Some f /\ stage2 ok rs locs passes file0 l 0 cn f) ->
    (0 < i < passes -> exists f, fs (makePassFilename output i passes) = Some f /\ stage2 ok rs locs passes file0 l (Z.to_nat i) cn f) ->
    (if 1 <? i then fs_remove_try fs (makePassFilename output (i - 1) passes) else fs) (if 0 <? i then makePassFilename output i passes else input) = Some file ->
    stage2 ok rs locs passes file0 l (Z.to_nat i) cn file).
  { intros i0 cn0 fs0 file1 L A0 B0 E. destruct (Z.ltb_spec 0 i0) as [L'|L'].
    - destruct (B0 ltac:(lia)) as (f & X & Y). assert (E' : fs0 (makePassFilename output i0 passes) = Some file1); [|congruence].
      rewrite <- E. destruct (1 <? i0); [|reflexivity]. symmetry. apply fs_set_other. intros Z'. apply pass_inj in Z'; lia.
    - assert (i0 = 0) by lia. subst i0. destruct (A0 eq_refl) as (f & X & Y). change (1 <? 0) with false in E. cbn iota in E. rewrite X in E. injection E as <-. exact Y. }
  induction H as [n i cn fs|n i cn fs fs1|n i cn fs ix file part fs1 inputFile outputFile Es Ef P|n i cn fs ix file cn1 out at_pass c fs1 inputFile outputFile Es Ef P _ IH]; intros H0 Hn A B C.
  - destruct C as [C|(_ & C)]; [left; exact C|right; exact C].
  - assert (i < passes) by lia. destruct C as [C|(? & _)]; [|lia]. left. unfold fs1. rewrite R1 by lia. exact C.
  - assert (i < passes) by lia. destruct C as [C|(? & _)]; [|lia]. unfold outputFile. destruct (Z.ltb_spec (i + 1) passes) as [L|L].
    + left. rewrite fs_set_other by (intros X; symmetry in X; exact (pass_output _ _ _ X)). unfold fs1. rewrite R1 by lia. exact C.
    + right. exists part. split; [apply fs_set_same|]. assert (Zi : Z.of_nat (Z.to_nat i) = i) by lia.
      destruct (stage2_killed ok envs rs locs passes file0 l (Z.to_nat i) cn file ix workers part Hi Hl ltac:(lia) ltac:(lia) Hoke) as (out & j & K1 & K2);
        [apply (St i cn fs); auto; lia|rewrite Zi; exact Es|rewrite Zi; exact P|].
      exists out, j, true. replace (Z.to_nat passes) with (S (Z.to_nat i)) by lia. auto.
  - assert (i < passes) by lia. destruct C as [C|(? & _)]; [|lia]. assert (Zi : Z.of_nat (Z.to_nat i) = i) by lia.
    assert (St' : stage2 ok rs locs passes file0 l (S (Z.to_nat i)) cn1 out).
    { apply (stage2_pass ok envs rs locs passes file0 l (Z.to_nat i) cn file ix workers cn1 out Hi Hl ltac:(lia) ltac:(lia) Hoke); [apply (St i cn fs); auto; lia|rewrite Zi; exact Es|rewrite Zi; exact P]. }
    apply IH; [lia|lia|lia| |].
    + intros L. exists out. split; [unfold outputFile; replace (i + 1 <? passes) with true by lia; apply fs_set_same|]. replace (Z.to_nat (i + 1)) with (S (Z.to_nat i)) by lia. exact St'.
    + unfold outputFile. destruct (Z.ltb_spec (i + 1) passes) as [L|L].
      * left. rewrite fs_set_other by (intros X; symmetry in X; exact (pass_output _ _ _ X)). unfold fs1. rewrite R1 by lia. exact C.
      * right. split; [lia|]. exists out. split; [apply fs_set_same|]. exists out, (List.length out), cn1.
        replace (Z.to_nat passes) with (S (Z.to_nat i)) by lia. split; [rewrite firstn_all; reflexivity|exact St'].
Qed.

Lemma part_result2 (ok : (Z -> Z -> zenv) -> Prop) envs rs locs n file l cn out j : ok envs -> is_file file (map fst l) -> 
  stage2 ok rs locs n file l (Z.to_nat n) cn out -> refused_or_cut envs (index_of rs locs) n file (map fst l) (firstn j out).
Proof.
  intros Ho Ff (l' & Fo & Bo & Lo & _ & Ll & _ & _ & U).
  destruct (pC35_truncation out (map fst l') j Bo Lo Fo) as [P|(bs & q & _ & F & _)]; [left; exact P|right].
  set (m := Nat.min q (List.length l')). assert (En : firstn q (map fst l') = firstn m (map fst l')).
  { unfold m. destruct (Nat.min_spec q (List.length l')) as [(A & ->)|(A & ->)]; [reflexivity|]. rewrite !firstn_all2 by (rewrite map_length; lia). reflexivity. }
  rewrite En in F. assert (Hm : (m <= List.length l')%nat) by (unfold m; lia). clearbody m. clear En.
  destruct (is_file_cut (map fst l) file m Ff) as (part & rest & EQ & Fp).
  exists m, part. split; [split; [rewrite map_length; lia|split; [exact Fp|exists rest; exact EQ]]|].
  destruct m as [|m]; [left; split; [reflexivity|exact F]|right].
  destruct (U (S m) part rest ltac:(lia) EQ) as (g & r & Eg & Eq & Fg & _); [rewrite <- firstn_map; exact Fp|]. rewrite (Eg envs Ho). f_equal.
  rewrite <- firstn_map in Fg. apply (is_file_prefix (firstn (S m) (map fst l')) g (firstn j out) r (skipn j out) Fg F). rewrite firstn_skipn. symmetry. exact Eq.
Qed.
(** C90, whatever the number of passes.  However often and whenever runs of the rewriter ended: the output file is as it was
    before, or no tool can read it, or it is what the passes make of the file cut after some blob.  There is no other way
    for it to be incomplete.  Its hypotheses: C90_ex. *)
Lemma pC90_output_exact : forall (ok : (Z -> Z -> zenv) -> Prop) envs input output memory file blobs rs locs fs c,
  input <> output -> (forall pass count, input <> makePassFilename output pass count) -> fs input = Some file ->
  bytes file -> zlen file < 2^63 -> is_file file blobs -> Forall (fun b => known_type (fst b)) blobs ->
  (forall i data, nth_error blobs i = Some (bytes_of "OSMData", data) ->
     exists p, forall envs, ok envs -> forall pass, holds_alone (envs pass (Z.of_nat i)) data p) ->
  (forall envs pass i, ok envs -> env_ok (envs pass i)) -> ok envs ->
  index_ok rs locs -> Forall (fun loc => is_s64 loc /\ loc <= 0) locs ->
  killed_often (index_of rs locs) input output memory ok fs c ->
  c input = Some file /\
  (c output = fs output \/ exists f, c output = Some f /\ exists n, rw_count (LocationCount (index_of rs locs)) memory = Ok n /\ refused_or_cut envs (index_of rs locs) n file blobs f).
Proof.
  intros ok envs input output memory file blobs rs locs fs c Hio Hip Hin Bf Lf Ff Kf Hd He Hok Hi Hl H.
  pose proof (file_blobs blobs file Bf Ff) as Bd.
  destruct (choose_list (fun i tb p => forall envs, ok envs -> forall pass, ready (envs pass) (Z.of_nat i) (tb, p)) blobs 0) as (l & Hl1 & Hl2).
  { intros i [ty data] Hx. cbn [Nat.add]. pose proof (nth_error_In _ _ Hx) as Hx'. pose proof (proj1 (Forall_forall _ _) Bd _ Hx') as (D1 & D2). pose proof (proj1 (Forall_forall _ _) Kf _ Hx') as K.
    cbn [fst snd] in *. destruct (seqb_spec ty tOSMData) as [T|T].
    - rewrite T in Hx. destruct (Hd i data Hx) as (p & Hp). exists p. intros envs' Oe pass. split; [exact K|]. split; [exact D1|]. split; [exact D2|]. intros _. split; [apply Hp; exact Oe|].
      pose proof (alone_holds _ _ [] _ (Hp envs' Oe pass)) as Hh. split.
      + eapply holds_typed; [|apply He; exact Oe|exact Hh]. split; [exact D1|]. split; [constructor|]. unfold scap, slen, zlen in *. cbn in *. lia.
      + destruct Hh as (bl & raw & _ & _ & E3). exact (ReadBlock_rw _ _ E3).
    - exists PrimitiveBlock0. intros envs' Oe pass. split; [exact K|]. split; [exact D1|]. split; [exact D2|]. intros; contradiction. }
  assert (R : forall envs, ok envs -> forall pass, ready_all (envs pass) 0 l) by (intros envs' Oe pass i x Hx; specialize (Hl2 i x Hx envs' Oe pass); destruct x; exact Hl2).
  subst blobs. assert (Hs64 : Forall is_s64 locs) by (revert Hl; apply Forall_impl; tauto).
  induction H as [|c envs' workers at_pass c' H IH Oe K]; [split; [exact Hin|left; reflexivity]|]. destruct IH as (IH1 & IH2).
  assert (In' : c' input = Some file).
  { rewrite <- IH1. destruct (pC90_untouched _ _ _ _ _ _ _ _ _ K) as (n & _ & _ & _ & F). apply F; [exact Hio|]. intros; apply Hip. }
  split; [exact In'|].
  enough (G : c' output = c output \/ exists f, c' output = Some f /\ exists n, rw_count (LocationCount (index_of rs locs)) memory = Ok n /\ refused_or_cut envs (index_of rs locs) n file (map fst l) f).
  { destruct G as [G|G]; [rewrite G; exact IH2|right; exact G]. }
  assert (Main : forall n c1 at1, rw_count (LocationCount (index_of rs locs)) memory = Ok n -> rw_loop_killed envs' (index_of rs locs) input output n workers (Z.to_nat n) 0 false c at1 c1 ->
    c1 output = c output \/ exists f, c1 output = Some f /\ exists n, rw_count (LocationCount (index_of rs locs)) memory = Ok n /\ refused_or_cut envs (index_of rs locs) n file (map fst l) f).
  { intros n c1 at1 Ec El. 
    assert (Hp : 1 <= n < 2^63) by (eapply rw_count_range; [|exact Ec]; unfold LocationCount; apply u64_range || (apply zlen_nonneg)).
    assert (Hpi : ~ is_pass output n input) by (intros (j & _ & X); exact (Hip _ _ X)).
    destruct (killed_stages2 ok envs' file rs locs input output n workers l Hi Hl Hp Oe Hio Hpi (c output) (Z.to_nat n) 0 false c at1 c1) as [O|(f & O1 & out & j & cn & -> & K5)];
      [lia|lia|intros _; exists file; split; [exact IH1|apply stage2_0; assumption]|intros; lia|left; reflexivity|exact El|left; exact O|].
    right. exists (firstn j out). split; [exact O1|]. exists n. split; [exact Ec|]. eapply part_result2; eauto. }
  destruct K as [n at_pass c' Ec K|n fs1 cn c' Ec K Er].
  - eapply Main; eassumption.
  - apply runs_killed in K. replace (c' output) with (fs1 output); [eapply Main; eassumption|].
    destruct (Z.ltb_spec 1 n) as [L|L]; [|congruence]. unfold fs_remove in Er. destruct (fs1 _); [|discriminate]. injection Er as <-. symmetry. apply fs_set_other. intros X. symmetry in X. exact (pass_output _ _ _ X).
Qed.
