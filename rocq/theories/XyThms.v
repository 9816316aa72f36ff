(** * XyThms: C79 for every number of passes. *)
From Verif Require Import Base HLThms ZlThms TfThms NiThms RwThms PbSpec TModel TSpec HLModel FrModel FrSpec ZlModel ZlSpec IoModel IoSpec TfModel TfSpec NiModel NiSpec NiThms RwModel RwSpec WiModel WiSpec RiModel RiSpec PlModel PlSpec PlThms CxModel CxSpec.
From Verif Require Import BaseLemmas PbModel PbProofs TProofs TMsg TMsg2 TThms TTyped HLProofs HLThms FrProofs FrThms ZlThms TfThms NiProofs NiProofs2 NiThms RwThms PlProofs2 PlThms.
From Verif Require Import NiSpec RwSpec PlSpec CxModel CxSpec.
From Verif Require Import XwThms CxThms.
From Verif Require Import NiSpec RwSpec PlSpec CxModel CxSpec.

Lemma write_blocks_firstn skip : forall bl hdr acc out j, write_blocks skip hdr bl acc = Ok out ->
  exists g r, write_blocks skip hdr (firstn j bl) acc = Ok g /\ out = g ++ r.
Proof.
  induction bl as [|b bl IH]; intros hdr acc out j E.
  - cbn [write_blocks] in E. injection E as <-. exists acc, []. split; [destruct j; reflexivity|rewrite app_nil_r; reflexivity].
  - destruct j as [|j].
    + cbn [firstn write_blocks]. exists acc. enough (exists r, out = acc ++ r) as (r & ->) by eauto. revert hdr acc E. clear. revert out. induction (b :: bl) as [|x l IH]; intros out hdr acc E; cbn [write_blocks] in E.
      * injection E as <-. exists []. rewrite app_nil_r. reflexivity.
      * destruct (_ && _); [exact (IH _ _ _ E)|]. destruct (write_frame _ _ _) as [o|p|]; cbn [bind] in E; try discriminate. destruct (IH _ _ _ E) as (r & ->). exists (o ++ r). rewrite app_assoc. reflexivity.
    + cbn [firstn write_blocks] in *. destruct (_ && _); [apply IH; exact E|]. destruct (write_frame _ _ _) as [o|p|]; cbn [bind] in *; try discriminate. apply IH. exact E.
Qed.
Lemma enc_file_firstn bl out j : enc_file bl = Ok out -> exists g r, enc_file (firstn j bl) = Ok g /\ out = g ++ r.
Proof. intros E. unfold enc_file, rewriter_writer in *. rewrite <- firstn_map. apply write_blocks_firstn. exact E. Qed.

(** The file before pass [k]: that of CxThms, and what the passes so far make of the first blobs of the input alone is the
    beginning of it, whatever the operating system does ([ok]). *)
Definition stage2 (ok : (Z -> Z -> zenv) -> Prop) rs locs n (file : list Z) (l : list ((list Z * list Z) * PrimitiveBlock)) (k : nat) (cn : bool) (f : list Z) : Prop :=
  exists l', is_file f (map fst l') /\ bytes f /\ zlen f < 2^63 /\ (forall e, ok e -> forall pass, ready_all (e pass) 0 l') /\
    (List.length l' <= List.length l)%nat /\ (cn = false -> List.length l' = List.length l) /\
    (forall j g r, (j <= List.length l')%nat -> mapm (RwThms.step g) (firstn j l') = Ok r ->
      mapm (RwThms.step (fun x => g (new_ref (firstn (cut (slice_size locs n * Z.of_nat k) 0 rs) rs) locs x))) (firstn j l) = Ok r) /\
    forall m part rest, (1 <= m <= List.length l')%nat -> file = part ++ rest -> is_file part (map fst (firstn m l)) ->
      exists g rest', (forall e, ok e -> after_passes e (index_of rs locs) n k part = Ok g) /\ f = g ++ rest' /\ is_file g (map fst (firstn m l')) /\ (m = List.length l' -> rest' = []).
Lemma frames_unique : forall bl part rest, is_file part bl -> is_file (part ++ rest) bl -> rest = [].
Proof.
  induction bl as [|[ty d] bl IH]; intros part rest F1 F2; cbn [is_file] in *; [subst part; exact F2|].
  destruct F1 as (fb & r & -> & Fr & F1). destruct F2 as (fb2 & r2 & E & Fr2 & F2). rewrite <- app_assoc in E.
  assert (fb = fb2 /\ r ++ rest = r2) as [<- <-].
  { destruct Fr as (sz & hdr & -> & (a0 & a1 & a2 & a3 & -> & Ba & La) & _). destruct Fr2 as (sz2 & hdr2 & -> & (c0 & c1 & c2 & c3 & -> & Bc & Lc) & _).
    cbn [app] in E. injection E as -> -> -> -> E. rewrite <- La in Lc. rewrite <- !app_assoc in E.
    assert (hdr = hdr2 /\ d ++ r ++ rest = d ++ r2) as [<- E2].
    { clear - E Lc. revert hdr2 E Lc. induction hdr as [|h hdr IH]; intros [|h2 hdr2] E Lc; try (unfold zlen in Lc; cbn [List.length] in Lc; lia); [split; [reflexivity|exact E]|].
      cbn [app] in E. injection E as -> E. destruct (IH hdr2 E) as (-> & X); [unfold zlen in *; cbn [List.length] in *; lia|]. split; [reflexivity|exact X]. }
    apply app_inv_head in E2. split; [reflexivity|exact E2]. }
    exact (IH _ _ F1 F2).
Qed.
Lemma stage2_0 (ok : (Z -> Z -> zenv) -> Prop) rs locs n l f : is_file f (map fst l) -> bytes f -> zlen f < 2^63 -> (forall e, ok e -> forall pass, ready_all (e pass) 0 l) -> stage2 ok rs locs n f l 0 false f.
Proof.
  intros F B L R. exists l. split; [exact F|]. split; [exact B|]. split; [exact L|]. split; [exact R|]. split; [lia|]. split; [reflexivity|]. split.
  - intros j g r _ E. rewrite <- E. apply step_ext. intros x. rewrite Z.mul_0_r. f_equal.
    destruct rs as [|a rs']; cbn [cut firstn]; unfold new_ref; cbn [linear_search]; destruct (x <? 0); reflexivity.
  - intros m part rest Hm -> Fp. exists part, rest. split; [intros; reflexivity|]. split; [reflexivity|]. split; [exact Fp|]. intros ->. rewrite firstn_all in Fp. exact (frames_unique _ _ _ Fp F).
Qed.
Lemma stage2_step (ok : (Z -> Z -> zenv) -> Prop) envs rs locs n file l k cn f sub cn' (Q : list Z -> Prop) : index_ok rs locs -> Forall (fun x => is_s64 x /\ x <= 0) locs -> 1 <= n -> Z.of_nat k < n -> ok envs ->
  stage2 ok rs locs n file l k cn f -> SubIndex (index_of rs locs) (Z.of_nat k) n = Ok sub ->
  (forall top l', sub = sub_index_of (pass_ranges rs locs (Z.of_nat k) n) locs top -> good_index (pass_ranges rs locs (Z.of_nat k) n) locs top -> bytes f -> zlen f < 2^63 -> is_file f (map fst l') ->
     ready_all (envs (Z.of_nat k)) 0 l' ->
     exists out, Q out /\ zlen out < 2^63 /\ (cn = true -> cn' = true) /\
     exists m bl, (m <= List.length l')%nat /\ mapm (RwThms.step (new_ref (pass_ranges rs locs (Z.of_nat k) n) locs)) (firstn m l') = Ok bl /\ enc_file bl = Ok out /\ (cn' = false -> m = List.length l')) ->
  exists out, Q out /\ stage2 ok rs locs n file l (S k) cn' out.
Proof.
  intros Hi Hl Hn Hk Ho (l' & F' & B' & L' & R' & Le & Lc & C' & U) Es P. pose proof Hi as (Hok & Ha & Ht & _).
  assert (Hs64 : Forall is_s64 locs) by (revert Hl; apply Forall_impl; tauto). assert (Hneg : Forall (fun x => x <= 0) locs) by (revert Hl; apply Forall_impl; tauto).
  destruct (sub_good rs locs n (Z.of_nat k) sub Hi Hn ltac:(lia) Es) as (top & -> & G).
  destruct (P top l' eq_refl G B' L' F' (R' _ Ho _)) as (out & HQ & Lo & Cc & m & bl & Hm & Em & Eo & Cf).
  set (S_ := new_ref (pass_ranges rs locs (Z.of_nat k) n) locs) in *. set (l1 := firstn m l') in *.
  assert (L1 : List.length l1 = m) by (unfold l1; rewrite firstn_length; lia).
  assert (X : forall (g : Z -> Z) x, g (S_ (new_ref (firstn (cut (slice_size locs n * Z.of_nat k) 0 rs) rs) locs x)) = g (new_ref (firstn (cut (slice_size locs n * Z.of_nat (S k)) 0 rs) rs) locs x)).
  { intros g x. f_equal. unfold S_. rewrite (firstn_pass rs locs n k Hi Hn ltac:(lia)). apply new_ref_comp; [|rewrite <- firstn_pass by (assumption || lia)|exact Hneg].
    + rewrite <- firstn_pass by (assumption || lia). apply asc_firstn. exact Ha.
    + apply Forall_forall. intros y Hy. apply (proj1 (Forall_forall _ _) Hok). rewrite <- (firstn_skipn (cut (slice_size locs n * Z.of_nat (S k)) 0 rs) rs). apply in_or_app. left. exact Hy. }
  assert (Full : cn' = false -> m = List.length l).
  { intros E. rewrite (Cf E). apply Lc. destruct cn; [|reflexivity]. rewrite (Cc eq_refl) in E. discriminate. }
  exists out. split; [exact HQ|].
  destruct (step_all S_ l1 bl Em) as (M1 & M2 & M3). cbn zeta in M1, M2, M3.
    set (l2 := combine bl (map (fun x => block_with S_ (snd x)) l1)) in *. exists l2.
    assert (R2 : forall e, ok e -> forall pass, ready_all (e pass) 0 l2).
    { intros e He pass i x' Hx'. destruct (M3 i x' Hx') as (x & Hx & Hs & Hq). destruct x' as [y q']. cbn [fst snd] in Hs, Hq. subst q'. destruct x as [[ty d] q]. cbn [snd].
      assert (Hx2 : nth_error l' i = Some (ty, d, q)) by (rewrite <- (firstn_skipn m l'); rewrite nth_error_app1; [exact Hx|apply nth_error_Some; unfold l1 in Hx; rewrite Hx; discriminate]).
      pose proof (R' e He pass i _ Hx2) as Rx. eapply step_ready; [apply new_ref_s64; exact Hs64|exact Rx| |exact Hs]. intros T. destruct Rx as (_ & _ & _ & Rx). apply Rx. exact T. }
    rewrite M1. destruct (enc_file_is bl out Eo) as (F2 & B2).
    { rewrite <- M1. apply Forall_map, Forall_forall. intros x Hx. apply In_nth_error in Hx. destruct Hx as (i & Hx). specialize (R2 envs Ho 0 i x Hx). destruct x as [[ty d] q].
      destruct R2 as (K1 & K2 & K3 & _). cbn. auto. }
    split; [exact F2|]. split; [exact B2|]. split; [exact Lo|]. split; [exact R2|]. split; [lia|]. split; [intros E; rewrite M2, L1; apply Full; exact E|].
    split.
    { intros j g r Hj Eg. unfold l2 in Eg. rewrite combine_firstn, firstn_map in Eg.
    apply (step_comp_all S_ g (firstn j l1) (firstn j bl) r (mapm_firstn _ _ _ j Em)) in Eg.
    rewrite M2, L1 in Hj. unfold l1 in Eg. rewrite firstn_firstn, Nat.min_l in Eg by lia. apply C' in Eg; [|lia]. rewrite <- Eg. apply step_ext. intros x. symmetry. apply X. }
    (* the first blobs alone *)
    intros j part rest Hj Ef Fp. rewrite M2, L1 in Hj. destruct (U j part rest ltac:(lia) Ef Fp) as (g & r1 & Eg & Eq & Fg & _).
    assert (Bg : bytes g) by (rewrite Eq in B'; apply bytes_app_inv in B'; apply B').
    assert (Lg : zlen g < 2^63) by (rewrite Eq, zlen_app in L'; pose proof (zlen_nonneg r1); lia).
    assert (Ng : g <> []).
    { intros ->. destruct l' as [|[[ty d] q] l0]; [cbn in Hm; lia|]. destruct j as [|j]; [lia|]. cbn [firstn map fst is_file] in Fg.
      destruct Fg as (fb & r & E & (sz & hdr & E2 & (b0 & b1 & b2 & b3 & E3 & _) & _) & _). rewrite E2, E3 in E. discriminate E. }
    destruct (enc_file_firstn bl out j Eo) as (g' & r' & E1 & E2).
    exists g', r'. split; [|split; [exact E2|split]].
    + intros e He. cbn [after_passes]. rewrite (Eg e He). cbn [bind]. rewrite Es. cbn [bind].
      rewrite (rw_pass_is _ _ locs top _ g (firstn j l') G Bg Lg Fg); [| |exact Ng].
      * fold S_. pose proof (mapm_firstn _ _ _ j Em) as Ej. unfold l1 in Ej. rewrite firstn_firstn, Nat.min_l in Ej by lia. rewrite Ej. cbn [bind]. exact E1.
      * intros i x Hx. apply (R' e He (Z.of_nat k) i x). rewrite <- (firstn_skipn j l'). rewrite nth_error_app1; [exact Hx|]. apply nth_error_Some. rewrite Hx. discriminate.
    + destruct (enc_file_is (firstn j bl) g' E1) as (F2' & _); [|rewrite <- firstn_map, M1; exact F2'].
      apply Forall_firstn. rewrite <- M1. apply Forall_map, Forall_forall. intros x Hx. apply In_nth_error in Hx. destruct Hx as (i & Hx). specialize (R2 envs Ho 0 i x Hx). destruct x as [[ty d] q].
      destruct R2 as (K1 & K2 & K3 & _). cbn. auto.
    + intros Ej. rewrite M2, L1 in Ej. assert (Lb : List.length bl = m) by (rewrite (mapm_length _ _ _ Em); exact L1).
      rewrite firstn_all2 in E1 by lia. rewrite Eo in E1. injection E1 as <-. apply (app_inv_head out). rewrite app_nil_r. symmetry. exact E2.
Qed.
Lemma stage2_pass (ok : (Z -> Z -> zenv) -> Prop) envs rs locs n file l k cn f sub workers cn' out : index_ok rs locs -> Forall (fun x => is_s64 x /\ x <= 0) locs -> 1 <= n -> Z.of_nat k < n -> ok envs ->
  stage2 ok rs locs n file l k cn f -> SubIndex (index_of rs locs) (Z.of_nat k) n = Ok sub ->
  rw_pass_runs (envs (Z.of_nat k)) sub (Z.of_nat k =? n - 1) workers f cn cn' out ->
  stage2 ok rs locs n file l (S k) cn' out.
Proof.
  intros Hi Hl Hn Hk Hok St Es P. destruct (stage2_step ok envs rs locs n file l k cn f sub cn' (eq out) Hi Hl Hn Hk Hok St Es) as (out' & <- & X); [|exact X].
  intros top l' -> G B' L' F' R'. destruct (pass_part _ _ _ _ _ _ _ _ _ _ _ G B' L' F' R' P) as (_ & X). exists out. split; [reflexivity|exact X].
Qed.
Lemma loop_stages2 (ok : (Z -> Z -> zenv) -> Prop) envs rs locs file0 input output passes workers l : index_ok rs locs -> Forall (fun x => is_s64 x /\ x <= 0) locs -> 1 <= passes < 2^63 -> ok envs ->
  input <> output -> ~ is_pass output passes input ->
  forall n i cn fs cn' fs', 0 <= i -> i + Z.of_nat n = passes ->
  (i = 0 -> exists f, fs input = Some f /\ stage2 ok rs locs passes file0 l 0 cn f) ->
  (0 < i < passes -> exists f, fs (makePassFilename output i passes) = Some f /\ stage2 ok rs locs passes file0 l (Z.to_nat i) cn f) ->
  (i = passes -> exists out, fs output = Some out /\ stage2 ok rs locs passes file0 l (Z.to_nat passes) cn out) ->
  (forall j, 1 <= j < i - 1 -> fs (makePassFilename output j passes) = None) ->
  rw_loop_runs envs (index_of rs locs) input output passes workers n i cn fs cn' fs' ->
  (exists out, fs' output = Some out /\ stage2 ok rs locs passes file0 l (Z.to_nat passes) cn' out) /\
  (forall j, 1 <= j < passes - 1 -> fs' (makePassFilename output j passes) = None) /\
  (forall name, name <> output -> ~ is_pass output passes name -> fs' name = fs name).
Proof.
  intros Hi Hl Hp Hoke Hio Hip. induction n as [|n IH]; intros i cn fs cn' fs' Hi0 En0 H0 H1 H2 H3 E; [assert (En : i - passes = 0) by lia|assert (En : i + Z.of_nat (S n) - passes = 0) by lia]; clear En0; inversion E as [|n' i' cn0 fs0 ix file cn1 out cn2 fs2 fs1 inputFile outputFile Es Ef P E' Q1 Q2 Q3 Q4 Q5]; subst.
  - split; [apply H2; lia|]. split; [|reflexivity]. intros j Hj. apply H3. lia.
  - assert (F1 : forall name, name <> makePassFilename output (i - 1) passes -> fs1 name = fs name).
    { intros name Hn. unfold fs1. destruct (1 <? i); [apply fs_set_other; exact Hn|reflexivity]. }
    assert (F2 : 1 < i -> fs1 (makePassFilename output (i - 1) passes) = None).
    { intros L. unfold fs1. replace (1 <? i) with true by lia. apply fs_set_same. }
    assert (St : stage2 ok rs locs passes file0 l (Z.to_nat i) cn file).
    { unfold inputFile in Ef. destruct (Z.ltb_spec 0 i) as [L|L].
      - destruct (H1 ltac:(lia)) as (f & A & B). rewrite F1 in Ef by (intros X; apply pass_inj in X; lia). rewrite A in Ef. injection Ef as <-. exact B.
      - assert (i = 0) by lia. subst i. destruct (H0 eq_refl) as (f & A & B). unfold fs1 in Ef. change (1 <? 0) with false in Ef. cbn iota in Ef. rewrite A in Ef. injection Ef as <-. exact B. }
    assert (Zi : Z.of_nat (Z.to_nat i) = i) by lia.
    pose proof (stage2_pass ok envs rs locs passes file0 l (Z.to_nat i) cn file ix workers cn1 out Hi Hl ltac:(lia) ltac:(lia) Hoke St ltac:(rewrite Zi; exact Es) ltac:(rewrite Zi; exact P)) as St'.
    assert (Ho : outputFile = output \/ is_pass output passes outputFile).
    { unfold outputFile. destruct (Z.ltb_spec (i + 1) passes); [right; exists (i + 1); split; [lia|reflexivity]|left; reflexivity]. }
    apply IH in E'; [| lia | lia | lia | | | ].
    + destruct E' as (E1 & E2 & E3). split; [exact E1|]. split; [exact E2|]. intros name N1 N2. rewrite E3 by assumption.
      rewrite fs_set_other. 2:{ intros ->. destruct Ho; contradiction. }
      unfold fs1. destruct (Z.ltb_spec 1 i) as [L|L]; [|reflexivity]. apply fs_set_other. intros ->. apply N2. exists (i - 1). split; [lia|reflexivity].
    + intros L. exists out. split; [unfold outputFile; replace (i + 1 <? passes) with true by lia; apply fs_set_same|]. replace (Z.to_nat (i + 1)) with (S (Z.to_nat i)) by lia. exact St'.
    + intros L. exists out. split; [unfold outputFile; replace (i + 1 <? passes) with false by lia; apply fs_set_same|].
      replace (Z.to_nat passes) with (S (Z.to_nat i)) by lia. exact St'.
    + intros j Hj. rewrite fs_set_other.
      2:{ unfold outputFile. destruct (Z.ltb_spec (i + 1) passes); [|apply pass_output]. intros X. apply pass_inj in X; lia. }
      destruct (Z.eq_dec j (i - 1)) as [->|Ne]; [apply F2; lia|]. rewrite F1; [apply H3; lia|]. intros X. apply pass_inj in X; lia.
Qed.

(** C79, exactly: whatever the number of passes.  A run that was cancelled at any moment, or not at all, by any schedule of
    any number of workers, if it ends normally, leaves an output file that is what the same number of passes, not
    cancelled, make of the file cut after some blob; if it was not cancelled, of the whole file.  The pass files are gone
    and no other file was changed.  Its hypotheses: C79_ex. *)
Lemma pC79_exact : forall envs input output memory workers file blobs rs locs fs cancelled fs',
  input <> output -> (forall pass count, input <> makePassFilename output pass count) -> fs input = Some file ->
  bytes file -> zlen file < 2^63 -> is_file file blobs -> Forall (fun b => known_type (fst b)) blobs ->
  (forall i data, nth_error blobs i = Some (bytes_of "OSMData", data) -> exists p, forall pass, holds_alone (envs pass (Z.of_nat i)) data p) ->
  (forall pass i, env_ok (envs pass i)) ->
  index_ok rs locs -> Forall (fun loc => is_s64 loc /\ loc <= 0) locs ->
  rw_main_runs envs (index_of rs locs) input output memory workers fs cancelled fs' ->
  exists m part out n, cut_after file blobs m part /\ fs' output = Some out /\
    (m = 0%nat /\ out = [] \/ after_passes envs (index_of rs locs) n (Z.to_nat n) part = Ok out) /\
    (cancelled = false -> part = file) /\
    rw_count (LocationCount (index_of rs locs)) memory = Ok n /\
    (forall i, 1 <= i < n -> fs' (makePassFilename output i n) = None) /\
    (forall name, name <> output -> (forall i, 1 <= i < n -> name <> makePassFilename output i n) -> fs' name = fs name).
Proof.
  intros envs input output memory workers file blobs rs locs fs cn fs' Hio Hip Hin Bf Lf Ff Kf Hd He Hi Hl [n fs1 Ec El Er].
  pose proof (file_blobs blobs file Bf Ff) as Bd.
  destruct (choose_list (fun i tb p => forall pass, ready (envs pass) (Z.of_nat i) (tb, p)) blobs 0) as (l & Hl1 & Hl2).
  { intros i [ty data] Hx. cbn [Nat.add]. pose proof (nth_error_In _ _ Hx) as Hx'. pose proof (proj1 (Forall_forall _ _) Bd _ Hx') as (D1 & D2). pose proof (proj1 (Forall_forall _ _) Kf _ Hx') as K.
    cbn [fst snd] in *. destruct (seqb_spec ty tOSMData) as [T|T].
    - rewrite T in Hx. destruct (Hd i data Hx) as (p & Hp). exists p. intros pass. split; [exact K|]. split; [exact D1|]. split; [exact D2|]. intros _. split; [apply Hp|].
      pose proof (alone_holds _ _ [] _ (Hp pass)) as Hh. split.
      + eapply holds_typed; [|apply He|exact Hh]. split; [exact D1|]. split; [constructor|]. unfold scap, slen, zlen in *. cbn in *. lia.
      + destruct Hh as (bl & raw & _ & _ & E3). exact (ReadBlock_rw _ _ E3).
    - exists PrimitiveBlock0. intros pass. split; [exact K|]. split; [exact D1|]. split; [exact D2|]. intros; contradiction. }
  assert (R : forall pass, ready_all (envs pass) 0 l) by (intros pass i x Hx; specialize (Hl2 i x Hx pass); destruct x; exact Hl2).
  subst blobs. 
  assert (Hp : 1 <= n < 2^63) by (eapply rw_count_range; [|exact Ec]; unfold LocationCount; apply u64_range || (apply zlen_nonneg)).
  assert (Hpi : ~ is_pass output n input) by (intros (j & _ & X); exact (Hip _ _ X)).
  destruct (loop_stages2 (eq envs) envs rs locs file input output n workers l Hi Hl Hp eq_refl Hio Hpi (Z.to_nat n) 0 false fs cn fs1) as ((out & O1 & l' & Fo & _ & _ & _ & Hm & Cf & _ & U) & P1 & P2);
    [lia|lia|intros _; exists file; split; [exact Hin|apply stage2_0; try assumption; intros e <-; exact R]|intros; lia|intros; lia|intros; lia|exact El|].
  set (m := List.length l') in *. destruct (is_file_cut (map fst l) file m Ff) as (part & rest & -> & Fp).
  exists m, part, out, n. split; [split; [rewrite map_length; exact Hm|split; [exact Fp|exists rest; reflexivity]]|].
  assert (M2 : forall fs2, (if 1 <? n then fs2 = fs_set fs1 (makePassFilename output (n - 1) n) None else fs2 = fs1) ->
     fs2 output = Some out /\ (forall i, 1 <= i < n -> fs2 (makePassFilename output i n) = None) /\
     (forall name, name <> output -> (forall i, 1 <= i < n -> name <> makePassFilename output i n) -> fs2 name = fs name)).
  { intros fs2 H. destruct (Z.ltb_spec 1 n) as [L|L]; subst fs2.
    - split; [rewrite fs_set_other by (intros X; symmetry in X; exact (pass_output _ _ _ X)); exact O1|]. split.
      + intros i Hr. destruct (Z.eq_dec i (n - 1)) as [->|Ne]; [apply fs_set_same|]. rewrite fs_set_other; [apply P1; lia|]. intros X. apply pass_inj in X; lia.
      + intros name N1 N2. rewrite fs_set_other by (apply N2; lia). apply P2; [exact N1|]. intros (j & Hj & X). exact (N2 j Hj X).
    - split; [exact O1|]. split; [intros i Hr; lia|]. intros name N1 N2. apply P2; [exact N1|]. intros (j & Hj & X). exact (N2 j Hj X). }
  destruct (M2 fs') as (A1 & A2 & A3).
  { destruct (Z.ltb_spec 1 n) as [L|L]; [|congruence]. unfold fs_remove in Er. destruct (fs1 _); [|discriminate]. injection Er as <-. reflexivity. }
  split; [exact A1|]. split; [|split; [|split; [exact Ec|split; [exact A2|exact A3]]]].
  - destruct (Nat.eq_dec m 0) as [Em|Em]; [left; split; [exact Em|]; unfold m in Em; destruct l'; [exact Fo|discriminate]|]. right.
    destruct (U m part rest ltac:(lia) eq_refl) as (g & r & Eg & Eq & _ & Er'); [rewrite <- firstn_map; exact Fp|]. rewrite (Er' eq_refl), app_nil_r in Eq. subst g. exact (Eg envs eq_refl).
  - intros C. rewrite (Cf C) in Fp. clear - Fp Ff. rewrite <- (map_length fst), firstn_all in Fp. revert part rest Fp Ff.
    enough (G : forall bl part rest, is_file part bl -> is_file (part ++ rest) bl -> rest = []) by (intros part rest F1 F2; rewrite (G _ _ _ F1 F2), app_nil_r; reflexivity).
    induction bl as [|[ty d] bl IH]; intros part rest F1 F2; cbn [is_file] in *; [subst part; exact F2|].
    destruct F1 as (fb & r & -> & Fr & F1). destruct F2 as (fb2 & r2 & E & Fr2 & F2). rewrite <- app_assoc in E.
    assert (fb = fb2 /\ r ++ rest = r2) as [<- <-].
    { destruct Fr as (sz & hdr & -> & (a0 & a1 & a2 & a3 & -> & Ba & La) & _). destruct Fr2 as (sz2 & hdr2 & -> & (c0 & c1 & c2 & c3 & -> & Bc & Lc) & _).
      cbn [app] in E. injection E as -> -> -> -> E. rewrite <- La in Lc. rewrite <- !app_assoc in E.
      assert (hdr = hdr2 /\ d ++ r ++ rest = d ++ r2) as [<- E2].
      { clear - E Lc. revert hdr2 E Lc. induction hdr as [|h hdr IH]; intros [|h2 hdr2] E Lc; try (unfold zlen in Lc; cbn [List.length] in Lc; lia); [split; [reflexivity|exact E]|].
        cbn [app] in E. injection E as -> E. destruct (IH hdr2 E) as (-> & X); [unfold zlen in *; cbn [List.length] in *; lia|]. split; [reflexivity|exact X]. }
      apply app_inv_head in E2. split; [reflexivity|exact E2]. }
    exact (IH _ _ F1 F2).
Qed.

(** the passes that are not cancelled *)
Lemma passes_stage2 envs rs locs n file l : index_ok rs locs -> Forall (fun x => is_s64 x /\ x <= 0) locs -> 1 <= n -> is_file file (map fst l) -> bytes file ->
  (forall pass, ready_all (envs pass) 0 l) -> (forall k f, Z.of_nat k <= n -> after_passes envs (index_of rs locs) n k file = Ok f -> zlen f < 2^63) ->
  forall k f, Z.of_nat k <= n -> after_passes envs (index_of rs locs) n k file = Ok f -> stage2 (eq envs) rs locs n file l k false f.
Proof.
  intros Hi Hl Hn F B R Sz. induction k as [|k IH]; intros f Hk E.
  - cbn in E. injection E as <-. apply stage2_0; try assumption; [|intros e <-; exact R]. apply (Sz 0%nat file); [lia|reflexivity].
  - pose proof (Sz (S k) f Hk E) as Lo. cbn [after_passes] in E. destruct (after_passes envs (index_of rs locs) n k file) as [f0|p|] eqn:E0; cbn [bind] in E; try discriminate.
    destruct (SubIndex (index_of rs locs) (Z.of_nat k) n) as [sub|p|] eqn:Es; cbn [bind] in E; try discriminate.
    destruct (stage2_step (eq envs) envs rs locs n file l k false f0 sub false (eq f) Hi Hl Hn ltac:(lia) eq_refl (IH f0 ltac:(lia) eq_refl) Es) as (f' & <- & X); [|exact X].
    intros top l' -> G B' L' F' R'. exists f. split; [reflexivity|]. split; [exact Lo|]. split; [discriminate|].
    assert (N0 : f0 <> []) by (intros ->; unfold rw_pass in E; cbn in E; discriminate).
    rewrite (rw_pass_is _ _ locs top _ f0 l' G B' L' F' R' N0) in E. destruct (mapm _ l') as [bl|p|] eqn:Em; cbn [bind] in E; try discriminate.
    exists (List.length l'), bl. rewrite firstn_all. auto.
Qed.
(** C79: what a cancelled run leaves is the beginning of what the run would have written: if the passes over the file end
    normally, those over its first blobs do too, and their output is the beginning of that of the whole file. *)
Lemma pC79_beginning : forall envs file blobs rs locs n m part whole,
  bytes file -> is_file file blobs -> Forall (fun b => known_type (fst b)) blobs ->
  (forall i data, nth_error blobs i = Some (bytes_of "OSMData", data) -> exists p, forall pass, holds_alone (envs pass (Z.of_nat i)) data p) ->
  (forall pass i, env_ok (envs pass i)) ->
  index_ok rs locs -> Forall (fun loc => is_s64 loc /\ loc <= 0) locs -> 1 <= n ->
  (forall k f, Z.of_nat k <= n -> after_passes envs (index_of rs locs) n k file = Ok f -> zlen f < 2^63) ->
  after_passes envs (index_of rs locs) n (Z.to_nat n) file = Ok whole -> cut_after file blobs m part -> (1 <= m)%nat ->
  exists out rest, after_passes envs (index_of rs locs) n (Z.to_nat n) part = Ok out /\ whole = out ++ rest.
Proof.
  intros envs file blobs rs locs n m part whole Bf Ff Kf Hd He Hi Hl Hn Sz E (Hm & Fp & rest & Ef) Hm1. pose proof (Sz 0%nat file ltac:(lia) eq_refl) as Lf.
  pose proof (file_blobs blobs file Bf Ff) as Bd.
  destruct (choose_list (fun i tb p => forall pass, ready (envs pass) (Z.of_nat i) (tb, p)) blobs 0) as (l & Hl1 & Hl2).
  { intros i [ty data] Hx. cbn [Nat.add]. pose proof (nth_error_In _ _ Hx) as Hx'. pose proof (proj1 (Forall_forall _ _) Bd _ Hx') as (D1 & D2). pose proof (proj1 (Forall_forall _ _) Kf _ Hx') as K.
    cbn [fst snd] in *. destruct (seqb_spec ty tOSMData) as [T|T].
    - rewrite T in Hx. destruct (Hd i data Hx) as (p & Hp). exists p. intros pass. split; [exact K|]. split; [exact D1|]. split; [exact D2|]. intros _. split; [apply Hp|].
      pose proof (alone_holds _ _ [] _ (Hp pass)) as Hh. split.
      + eapply holds_typed; [|apply He|exact Hh]. split; [exact D1|]. split; [constructor|]. unfold scap, slen, zlen in *. cbn in *. lia.
      + destruct Hh as (bl & raw & _ & _ & E3). exact (ReadBlock_rw _ _ E3).
    - exists PrimitiveBlock0. intros pass. split; [exact K|]. split; [exact D1|]. split; [exact D2|]. intros; contradiction. }
  assert (R : forall pass, ready_all (envs pass) 0 l) by (intros pass i x Hx; specialize (Hl2 i x Hx pass); destruct x; exact Hl2).
  subst blobs. destruct (passes_stage2 envs rs locs n file l Hi Hl Hn Ff Bf R Sz (Z.to_nat n) whole ltac:(lia) E) as (l' & _ & _ & _ & _ & _ & Ll & _ & U).
  rewrite map_length in Hm. destruct (U m part rest) as (g & r & Eg & Eq & _); [rewrite (Ll eq_refl); lia|exact Ef|rewrite <- firstn_map; exact Fp|]. exists g, r. split; [exact (Eg envs eq_refl)|exact Eq].
Qed.
(** C53_exact_ex's file in three passes, which lose the ref 90: the file cut after its second blob. *)
Lemma pC79_beginning_ex : bytes ex_rw_file /\ is_file ex_rw_file ex_rw_blobs /\ index_ok ex_ten ex_rw_locs /\
  exists part out whole, cut_after ex_rw_file ex_rw_blobs 2 part /\ after_passes (fun _ _ => ex_env) (index_of ex_ten ex_rw_locs) 3 3 part = Ok out /\
    after_passes (fun _ _ => ex_env) (index_of ex_ten ex_rw_locs) 3 3 ex_rw_file = Ok whole /\ 0 < zlen out < zlen whole /\ zlen whole < 1000.
Proof.
  destruct ex_rw_is as (F & B). split; [exact B|]. split; [exact F|]. split; [exact (proj1 ex_rw_ok)|].
  assert (exists q out whole, enc_file (firstn 2 ex_rw_blobs) = Ok q /\ after_passes (fun _ _ => ex_env) (index_of ex_ten ex_rw_locs) 3 3 q = Ok out /\
    after_passes (fun _ _ => ex_env) (index_of ex_ten ex_rw_locs) 3 3 ex_rw_file = Ok whole /\ 0 < zlen out < zlen whole /\ zlen whole < 1000) as (q & out & whole & Eq & H).
  { do 3 eexists. split; [vm_compute; reflexivity|]. split; [vm_compute; reflexivity|]. split; [vm_compute; reflexivity|]. vm_compute. split; [split|]; reflexivity. }
  exists q, out, whole. split; [|exact H].
  assert (Ew : exists w, enc_file ex_rw_blobs = Ok w /\ w = ex_rw_file) by (eexists; split; [vm_compute; reflexivity|vm_compute; reflexivity]).
  destruct Ew as (w & Ew & ->). destruct (enc_file_firstn ex_rw_blobs ex_rw_file 2 Ew) as (g & r & Eg & Er). rewrite Eq in Eg. injection Eg as <-.
  split; [vm_compute; lia|]. split; [|exists r; exact Er].
  apply (enc_file_is (firstn 2 ex_rw_blobs) q Eq). apply Forall_firstn. apply Forall_forall. intros b Hb.
  destruct Hb as [<-|[<-|[<-|[]]]]; (split; [first [left; reflexivity|right; reflexivity]|]); (split; [apply bytes_check; vm_compute; reflexivity|vm_compute; reflexivity]).
Qed.
