(** * XhThms: the decompressed file as an OSM file (C87), exactly. *)
From Verif Require Import NiThms Base PbSpec TModel HLModel HLSpec FrModel FrSpec ZlModel ZlSpec TfModel TfSpec MtModel IoModel IoSpec NiModel NiSpec RwModel RwSpec WiModel WiSpec RiModel RiSpec WsSpec PlModel PlSpec PlThms CxThms EeSpec ChSpec HLProofs HLProofs2 HLThms TfThms ChThms.
From Verif Require Import BaseLemmas PbModel PbProofs PbProofs2 TSpec TProofs TMsg TMsg2 TThms TTyped HLProofs FrProofs FrThms ZlThms TfThms NiProofs NiProofs2 NiThms RwThms WiThms RiThms WsProofs WsRead WsWrite WsThms EeProofs EeFin IoThms MtThms NiProofs3 NiProofs4 CxThms ChProofs HLProofs2 HLProofs3 HLThms FlProofs KlThms ChThms.
From Verif Require EeThms.
From Verif Require Import NiSpec RwSpec TfSpec PlModel PlSpec.

From Verif Require Import XdThms XgThms.
From Verif Require Import NiSpec RwSpec TfSpec PlModel PlSpec ChSpec EeSpec.

(** Every blob of the file has a content (maybe empty) that is not too large to be stored again. *)
Definition contents_fit (env : Z -> zenv) (file : list Z) : Prop :=
  forall blobs i b, pbf_file file blobs -> nth_error blobs i = Some b ->
    exists raw, data_of (env (Z.of_nat i)) (snd b) raw /\ zlen raw < 2^31 - 20.
(** None of the first [m] blobs holds data and has an empty content. *)
Definition no_empty_data (env : Z -> zenv) (file : list Z) (m : nat) : Prop :=
  forall blobs i b, pbf_file file blobs -> nth_error blobs i = Some b -> (i < m)%nat -> fst b = bytes_of "OSMData" ->
    ~ data_of (env (Z.of_nat i)) (snd b) [].

Lemma osm_contents_any {R} (envs : R -> Z -> zenv) r file blocks : osm_file envs file blocks -> (forall i, env_ok (envs r i)) -> contents_fit (envs r) file ->
  exists pl, contents (envs r) file pl /\ Forall moderate pl /\ Forall2 (fun p c => match c with None => fst p = bytes_of "OSMHeader" | Some b => fst p = bytes_of "OSMData" /\ block_msg everything (snd p) b end) pl blocks /\
    exists blobs, pbf_file file blobs /\ forall i p, nth_error pl i = Some p -> exists b, nth_error blobs i = Some b /\ fst b = fst p /\ data_of (envs r (Z.of_nat i)) (snd b) (snd p).
Proof.
  intros (Bf & Lf & blobs & F & L & H) He C. pose proof (pbf_is _ _ Lf F) as F'. pose proof (osm_known envs blobs blocks L H) as K. destruct (pC34_split file blobs Bf Lf F' K) as (bs & E & S).
  pose proof (file_blobs blobs file Bf F') as Bd.
  destruct (choose_f2 (fun i (b : list Z * list Z) raw => data_of (envs r (Z.of_nat i)) (snd b) raw /\ zlen raw < 2^31 - 20) blobs 0) as (raws & Lr & Hr).
  { intros i b Hb. exact (C blobs i b F Hb). }
  exists (combine (map fst blobs) raws).
  assert (LC : List.length (combine (map fst blobs) raws) = List.length blobs) by (rewrite combine_length, map_length; lia).
  assert (NC : forall i p, nth_error (combine (map fst blobs) raws) i = Some p -> exists b, nth_error blobs i = Some b /\ fst b = fst p /\ nth_error raws i = Some (snd p)).
  { clear. revert raws. induction blobs as [|b blobs IH]; intros [|r raws] [|i] p Hp; cbn in *; try discriminate; [injection Hp as <-; exists b; auto|exact (IH raws i p Hp)]. }
  assert (LE : List.length bs = List.length blobs) by (apply (f_equal (@List.length _)) in S; rewrite map_length, numbered_length in S; exact S).
  split; [|split; [|split]].
  - exists bs. split; [exact E|]. apply f2_nth; [lia|]. intros i b p Hb Hp. destruct (NC i p Hp) as (bl & Hbl & Ef & Hraw). destruct (Hr i bl (snd p) Hbl Hraw) as (D & _). cbn [Nat.add] in D.
    assert (Sb : FrSpec.seen b = (Z.of_nat i, bl)) by (pose proof (numbered_nth _ _ _ Hbl) as N; rewrite <- S, nth_error_map, Hb in N; cbn [option_map] in N; congruence).
    unfold FrSpec.seen in Sb. destruct bl as [ty data]. injection Sb as S1 S2 S3. cbn [fst snd] in *. split; [congruence|]. rewrite S1.
    pose proof (proj1 (Forall_forall _ _) Bd _ (nth_error_In _ _ Hbl)) as (_ & D2). cbn [snd] in D2.
    destruct (blk_Data b) as [v e] eqn:Ev. cbn [vis] in S3. subst v. destruct (data_read _ data (snd p) e D ltac:(lia)) as (bb & s & E1 & E2 & E3). exists bb, s. rewrite Ev. auto.
  - apply Forall_forall. intros p Hp. apply In_nth_error in Hp. destruct Hp as (i & Hp). destruct (NC i p Hp) as (bl & Hbl & Ef & Hraw). destruct (Hr i bl (snd p) Hbl Hraw) as (D & Sz). cbn [Nat.add] in D.
    split; [|exact Sz]. eapply data_bytes; [|exact D]. apply He.
  - apply f2_nth; [lia|]. intros i p c Hp Hc. destruct (NC i p Hp) as (bl & Hbl & Ef & Hraw). destruct (Hr i bl (snd p) Hbl Hraw) as (D & Sz). cbn [Nat.add] in D. specialize (H i bl c Hbl Hc).
    destruct c as [q|]; cbn [blob_is] in H; [|congruence]. destruct H as (T & raw & D' & M). split; [congruence|].
    pose proof (proj1 (Forall_forall _ _) Bd _ (nth_error_In _ _ Hbl)) as (_ & D2). cbn beta in D2. rewrite <- (data_unique (envs r (Z.of_nat i)) (snd bl) raw (snd p) ltac:(lia) (D' r) D). exact M.
  - exists blobs. split; [exact F|]. intros i p Hp. destruct (NC i p Hp) as (bl & Hbl & Ef & Hraw). destruct (Hr i bl (snd p) Hbl Hraw) as (D & _). exists bl. auto.
Qed.
Lemma any_pbf pl : Forall moderate pl -> Forall (fun p => known_type (fst p)) pl ->
  exists outs, mapm (fun p => write_frame zero4 (fst p) (out_blob (snd p))) pl = Ok outs /\ pbf_file (concat outs) (map (fun p => (fst p, out_blob (snd p))) pl).
Proof.
  induction pl as [|[ty raw] pl IH]; intros F K; [exists []; cbn; auto|].
  apply Forall_cons_iff in F as [(F2 & F3) F]. apply Forall_cons_iff in K as [K1 K]. cbn [fst snd] in *. destruct (out_blob_ok raw F2 F3) as (O1 & O2).
  destruct (IH F K) as (outs & E & I). destruct (frame_pbf zero4 ty (out_blob raw) eq_refl K1 O1 ltac:(lia)) as (fb & Ew & Fr & _).
  exists (fb :: outs). cbn [mapm fst snd]. rewrite Ew. cbn [bind]. rewrite E. cbn [bind concat map pbf_file]. split; [reflexivity|]. exists fb, (concat outs). auto.
Qed.
Lemma no_data_of_nothing env raw : ~ data_of env [] raw.
Proof.
  intros D. destruct (data_read env [] raw [] D ltac:(reflexivity)) as (b & s & E1 & E2 & _). assert (R : ReadBlob (mkslice [] []) Blob0 = Ok Blob0) by reflexivity. rewrite R in E1. injection E1 as <-. discriminate E2.
Qed.

(** C87, exactly.  Whatever the schedule, the number of workers and the moment of a cancellation: what a decompression of an
    OSM file has written when it ends is an OSM file with the first [m] blocks (all of them if it was not cancelled), whoever
    reads it, if and only if none of these blocks has an empty content. *)
Lemma pC87_decompressed_file_exact : forall (R R' : Type) (envs : R -> Z -> zenv) (envs' : R' -> Z -> zenv) r (r' : R') file blocks bs workers wp rp s,
  osm_file envs file blocks -> (forall i, env_ok (envs r i)) -> contents_fit (envs r) file ->
  read_file file = Ok bs -> reachable (dc_cfg (envs r) wp rp) bs workers s -> completed s ->
  exists m, (m <= List.length blocks)%nat /\ (s_cancelled s = false -> m = List.length blocks) /\
    let out := concat (map snd (s_got s)) in
    zlen out < 2^63 -> (osm_file envs' out (firstn m blocks) <-> no_empty_data (envs r) file m).
Proof.
  intros R R' envs envs' r r' file blocks bs n wp rp s O He C E Re D. destruct (osm_contents_any envs r file blocks O He C) as (pl & (bs' & E' & F2) & F & Hb & blobs & HF & HB). rewrite E in E'. injection E' as <-. pose proof O as (Bf & Lf & blobs0 & HF0 & L0 & H0).
  pose proof (pbf_unique _ _ _ Lf HF HF0) as <-.
  pose proof (pC37_file_indexed file bs Bf Lf E) as IX.
  destruct (pC37_keeps (envs r) (mkNSI [] [] 0) false 0 (fun _ => false) (fun _ => false) (fun _ => false) (fun _ => false) wp rp bs) as (_ & _ & _ & _ & _ & K).
  destruct (end_prefix (dc_cfg (envs r) wp rp) blk_Index bs n s eq_refl IX K Re D) as (m & Hm & Hc & G). pose proof (f2_len _ _ _ F2) as Len. pose proof (f2_len _ _ _ Hb) as Len2.
  exists m. split; [lia|]. split; [intros X; specialize (Hc X); lia|]. cbn zeta. intros Lo.
  pose proof (known_pl (envs r) file bs pl Bf Lf E F2) as Kn.
  destruct (dc_written (envs r) wp rp bs pl m (s_got s) F2 F Kn G) as (I & B).
  assert (Fm : Forall moderate (firstn m pl)) by (apply Forall_firstn, F). assert (Km : Forall (fun p => known_type (fst p)) (firstn m pl)) by (apply Forall_firstn, Kn).
  assert (P : pbf_file (concat (map snd (s_got s))) (map (fun p => (fst p, out_blob (snd p))) (firstn m pl))).
  { destruct (any_pbf (firstn m pl) Fm Km) as (outs & Eo & P). destruct (any_file (firstn m pl) Fm Km) as (outs' & Eo' & I' & _). rewrite Eo in Eo'. injection Eo' as <-.
    rewrite (is_file_prefix _ _ _ [] [] I I'); [exact P|]. rewrite !app_nil_r. clear - G Eo F2. apply (f2_firstn _ m) in F2. rewrite <- (mapm_any (envs r) (firstn m bs) (firstn m pl) F2) in Eo. f_equal.
    revert G Eo. cbn [dc_cfg c_work]. generalize (s_got s), (firstn m bs). intros got l. revert got outs. clear.
    induction l as [|b l IH]; intros got outs G Eo; cbn [mapm] in *; [injection G as <-; injection Eo as <-; reflexivity|]. destruct (decompress_block _ b); cbn [bind] in *; try discriminate G.
    destruct (mapm _ l) as [r1| |]; cbn [bind] in G; try discriminate G. destruct (mapm _ l) as [r2| |]; cbn [bind] in Eo; try discriminate Eo. injection G as <-. injection Eo as <-. cbn [map snd]. f_equal. eapply IH; reflexivity. }
  assert (At : forall i p, nth_error (firstn m pl) i = Some p -> nth_error pl i = Some p /\ (i < m)%nat).
  { intros i p Ep. assert (Li : (i < List.length (firstn m pl))%nat) by (apply nth_error_Some; rewrite Ep; discriminate). rewrite firstn_length in Li. split; [|lia].
    rewrite <- (firstn_skipn m pl). rewrite nth_error_app1; [exact Ep|]. rewrite firstn_length. lia. }
  pose proof (f2_firstn _ m _ _ Hb) as Hbm. split.
  - intros (_ & _ & bl2 & PF & _ & H2) bl' i b PB Hn Hi T De. pose proof (pbf_unique _ _ _ Lf PB HF) as ->. pose proof (pbf_unique _ _ _ Lo PF P) as ->.
    assert (Hp : exists p, nth_error pl i = Some p).
    { destruct (nth_error pl i) eqn:Ep; [eauto|]. apply nth_error_None in Ep. assert (i < List.length blobs)%nat by (apply nth_error_Some; rewrite Hn; discriminate). lia. }
    destruct Hp as (p & Ep). destruct (HB i p Ep) as (b' & Hb' & Ef & Dp). rewrite Hn in Hb'. injection Hb' as <-.
    assert (Lb : zlen (snd b) < 2^63).
    { pose proof (pbf_is _ _ Lf HF) as F'. pose proof (proj1 (Forall_forall _ _) (file_blobs blobs file Bf F') _ (nth_error_In _ _ Hn)) as (_ & X). cbn beta in X. lia. }
    pose proof (data_unique _ _ _ _ Lb De Dp) as Er.
    assert (Epm : nth_error (firstn m pl) i = Some p).
    { assert (Lpl : (i < List.length pl)%nat) by (apply nth_error_Some; rewrite Ep; discriminate). rewrite <- (firstn_skipn m pl), nth_error_app1 in Ep; [exact Ep|]. rewrite firstn_length. lia. }
    destruct (nth_error (firstn m blocks) i) as [c|] eqn:Ec.
    2:{ apply nth_error_None in Ec. pose proof (f2_len _ _ _ Hbm). assert (i < List.length (firstn m pl))%nat by (apply nth_error_Some; rewrite Epm; discriminate). lia. }
    specialize (H2 i (fst p, out_blob (snd p)) c ltac:(rewrite nth_error_map, Epm; reflexivity) Ec). rewrite <- Er in H2. destruct c as [q|]; cbn [blob_is fst snd out_blob] in H2.
    + destruct H2 as (_ & raw & Dr & _). exact (no_data_of_nothing _ _ (Dr r')).
    + rewrite <- Ef, T in H2. discriminate H2.
  - intros NE. split; [exact B|]. split; [exact Lo|]. eexists. split; [exact P|]. split; [rewrite map_length; exact (f2_len _ _ _ Hbm)|].
    intros i b c Hn Hc'. rewrite nth_error_map in Hn. destruct (nth_error (firstn m pl) i) as [p|] eqn:Ep; [|discriminate Hn]. injection Hn as <-.
    assert (X : match c with None => fst p = bytes_of "OSMHeader" | Some b => fst p = bytes_of "OSMData" /\ block_msg everything (snd p) b end).
    { clear - Hbm Ep Hc'. revert i Ep Hc'. induction Hbm as [|x y l k Hx H IH]; intros [|i] Ep Hc; cbn in *; try discriminate; [injection Ep as <-; injection Hc as <-; exact Hx|exact (IH i Ep Hc)]. }
    destruct c as [q|]; cbn [blob_is fst snd]; [|exact X]. destruct X as (T & M). split; [exact T|]. exists (snd p). split; [|exact M]. destruct (At i p Ep) as (Ep' & Hi). destruct (HB i p Ep') as (b & Hn & Ef & Dp).
    pose proof (proj1 (Forall_forall _ _) Fm p (nth_error_In _ _ Ep)) as (Bp & Sz). cbn beta in Bp, Sz.
    destruct (snd p) as [|x raw] eqn:Er; [exfalso; apply (NE blobs i b HF Hn Hi); [congruence|exact Dp]|].
    intros run. left. exists None, None. unfold out_blob. apply raw_blob_msg; [exact Bp|lia].
Qed.
(** The file of C87_ex has only contents that fit, none of them empty. *)
Lemma pC87_decompressed_file_exact_ex : contents_fit EeThms.ex_zenv ch_osm /\ no_empty_data EeThms.ex_zenv ch_osm 3.
Proof.
  pose proof ch_contents as C. split.
  - intros blobs i b PF Hn. destruct (C blobs i b PF Hn) as (raw & D & _ & L). exists raw. auto.
  - intros blobs i b PF Hn _ _ De. destruct (C blobs i b PF Hn) as (raw & D & N & L). destruct ch_osm_file as (Bf & Lf & _).
    assert (Lb : zlen (snd b) < 2^63) by (pose proof (proj1 (Forall_forall _ _) (file_blobs blobs ch_osm Bf (pbf_is _ _ Lf PF)) _ (nth_error_In _ _ Hn)) as (_ & X); cbn beta in X; lia).
    apply N. exact (data_unique _ _ _ _ Lb D De).
Qed.
