(** * ChProofs: the outputs of decompress and tagfilter in terms of the schema files. *)
From Verif Require Import NiThms Base PbSpec TModel HLModel HLSpec FrModel FrSpec ZlModel ZlSpec TfModel TfSpec MtModel IoModel IoSpec NiModel NiSpec RwModel RwSpec WiModel WiSpec RiModel RiSpec WsSpec PlModel PlSpec PlThms EeSpec ChSpec.
From Verif Require Import BaseLemmas PbModel PbProofs PbProofs2 TSpec TProofs TMsg TMsg2 TThms TTyped HLProofs FrProofs FrThms ZlThms TfThms NiProofs NiProofs2 NiThms RwThms WiThms RiThms WsProofs WsRead WsWrite WsThms EeProofs EeFin IoThms MtThms NiProofs3 NiProofs4 CxThms.
From Verif Require Import NiSpec RwSpec TfSpec PlModel PlSpec.

(** ** what a blob holds is determined *)
Lemma data_unique env data raw raw' : zlen data < 2^63 -> data_of env data raw -> data_of env data raw' -> raw = raw'.
Proof.
  intros L D D'. destruct (data_read env data raw [] D L) as (b & s & E1 & E2 & E3). destruct (data_read env data raw' [] D' L) as (b' & s' & E1' & E2' & E3').
  rewrite E1 in E1'. injection E1' as <-. rewrite E2 in E2'. injection E2' as <-. congruence.
Qed.
Lemma big4 sz n : big_endian4 sz n -> List.length sz = 4%nat.
Proof. intros (a & b & c & d & -> & _). reflexivity. Qed.
Lemma big4_eq sz n m : big_endian4 sz n -> big_endian4 sz m -> n = m.
Proof. intros (a & b & c & d & E & _ & ->) (a' & b' & c' & d' & E' & _ & ->). rewrite E in E'. injection E' as <- <- <- <-. reflexivity. Qed.
Lemma app_eq_len {A} (a b c d : list A) : List.length a = List.length c -> a ++ b = c ++ d -> a = c /\ b = d.
Proof. revert c. induction a as [|x a IH]; intros [|y c] L E; try discriminate; [auto|]. cbn in *. injection E as <- E. destruct (IH c) as [-> ->]; [lia|exact E|auto]. Qed.
Lemma pbf_unique a : forall b f, zlen f < 2^63 -> pbf_file f a -> pbf_file f b -> a = b.
Proof.
  induction a as [|[ty data] a IH]; intros [|[ty' data'] b] f L Ha Hb; cbn [pbf_file] in *; [reflexivity| | |].
  - subst f. destruct Hb as (fb & rest & E & (sz & hdr & -> & B & _) & _). apply big4 in B. symmetry in E. apply app_eq_nil in E. destruct E as (E & _). apply app_eq_nil in E. destruct E as (-> & _). discriminate B.
  - subst f. destruct Ha as (fb & rest & E & (sz & hdr & -> & B & _) & _). apply big4 in B. symmetry in E. apply app_eq_nil in E. destruct E as (E & _). apply app_eq_nil in E. destruct E as (-> & _). discriminate B.
  - destruct Ha as (fb & rest & -> & (sz & hdr & -> & B & Hh) & Ha). destruct Hb as (fb' & rest' & E & (sz' & hdr' & -> & B' & Hh') & Hb). rewrite <- !app_assoc in *.
    destruct (app_eq_len sz _ sz' _ ltac:(rewrite (big4 _ _ B), (big4 _ _ B'); reflexivity) E) as (<- & E1). pose proof (big4_eq _ _ _ B B') as EL.
    destruct (app_eq_len hdr _ hdr' _ ltac:(unfold zlen in EL; lia) E1) as (<- & E2). rewrite !zlen_app in L. pose proof (zlen_nonneg sz). pose proof (zlen_nonneg data). pose proof (zlen_nonneg rest). pose proof (zlen_nonneg hdr).
    pose proof (header_read _ _ [] Hh ltac:(lia)) as R1. pose proof (header_read _ _ [] Hh' ltac:(lia)) as R2. rewrite R1 in R2. injection R2 as <- ED.
    destruct (app_eq_len data _ data' _ ltac:(unfold zlen in ED; lia) E2) as (<- & <-). f_equal. apply (IH b rest); [lia|exact Ha|exact Hb].
Qed.

(** ** decompress *)
Lemma raw_blob_msg raw : bytes raw -> zlen raw < 2^63 -> blob_msg (raw_blob raw) (Some raw) None None.
Proof.
  intros B L. pose proof (blob_w (raw_blob raw) (Some (venc (u64 (zlen raw)), raw)) None None ltac:(discriminate) ltac:(discriminate)) as X. cbn zeta in X.
  unfold blob_size_part, blob_zlib_part in X. cbn [blob_RawSize blob_ZLibData option_map snd] in X. rewrite !app_nil_r in X. apply X; [|discriminate].
  unfold raw_blob. cbn [fst snd]. apply msg_idbuf; [unfold blobRaw; lia|exact B|exact L].
Qed.
Lemma frames_pbf pl : Forall fits pl -> Forall (fun p => known_type (fst p)) pl ->
  exists outs, frames_of pl = Ok outs /\ pbf_file (concat outs) (map (fun p => (fst p, raw_blob (snd p))) pl).
Proof.
  unfold frames_of. induction pl as [|[ty raw] pl IH]; intros F K.
  - exists []. cbn. auto.
  - apply Forall_cons_iff in F as [(F1 & F2 & F3) F]. apply Forall_cons_iff in K as [K1 K]. cbn [fst snd] in *.
    destruct (IH F K) as (outs & E & I). pose proof (raw_blob_len raw).
    destruct (frame_pbf zero4 ty (raw_blob raw) eq_refl K1 (raw_blob_bytes raw F2) ltac:(lia)) as (fb & Ew & Fr & _).
    exists (fb :: outs). cbn [mapm fst snd]. rewrite Ew. cbn [bind]. rewrite E. cbn [bind concat map pbf_file].
    split; [reflexivity|]. exists fb, (concat outs). auto.
Qed.
Lemma stream_bytes env : env_ok env -> bytes (stream (ze_reads env)).
Proof.
  intros (H & _). unfold bytes. induction (ze_reads env) as [|[seg err] r IH]; [constructor|]. apply Forall_cons_iff in H as [H1 H]. cbn [stream]. apply Forall_app. split; [exact H1|]. destruct err; [constructor|auto].
Qed.
Lemma data_bytes env data raw : env_ok env -> data_of env data raw -> bytes raw.
Proof.
  intros He [(size & zlib & fs & M & P & (A & _))|(n & zlib & _ & _ & <- & _)]; [|apply stream_bytes; exact He].
  apply last_in in A. destruct M as (_ & M). clear -A M. unfold chunks in A. apply in_concat in A. destruct A as (l & Hl & Hr). apply in_map_iff in Hl. destruct Hl as (f & <- & Hf).
  apply (proj1 (Forall_forall _ _) M) in Hf. destruct f as [|m key len p]; [destruct Hr|]. destruct (m =? 1); [|destruct Hr]. destruct Hr as [<-|[]]. apply Hf.
Qed.
Lemma choose_f2 {A B} (P : nat -> A -> B -> Prop) : forall (l : list A) k, (forall i a, nth_error l i = Some a -> exists b, P (k + i)%nat a b) ->
  exists m, List.length m = List.length l /\ forall i a b, nth_error l i = Some a -> nth_error m i = Some b -> P (k + i)%nat a b.
Proof.
  induction l as [|a l IH]; intros k H; [exists []; split; [reflexivity|]; intros [|i] ? ? X; discriminate X|].
  destruct (H 0%nat a eq_refl) as (b & Hb). destruct (IH (S k)) as (m & Lm & Hm); [intros i x Hx; destruct (H (S i) x Hx) as (y & Hy); exists y; replace (S k + i)%nat with (k + S i)%nat by lia; exact Hy|].
  exists (b :: m). split; [cbn; lia|]. intros [|i] x y Hx Hy; cbn in *; [injection Hx as <-; injection Hy as <-; exact Hb|]. replace (k + S i)%nat with (S k + i)%nat by lia. eapply Hm; eassumption.
Qed.
(** The file, seen as types and payloads (C66), and the payloads seen as blocks. *)
Lemma osm_contents {R} (envs : R -> Z -> zenv) r file blocks : osm_file envs file blocks -> (forall i, env_ok (envs r i)) -> contents_ok (envs r) file ->
  exists pl, contents (envs r) file pl /\ Forall fits pl /\ Forall2 (fun p c => match c with None => fst p = bytes_of "OSMHeader" | Some b => fst p = bytes_of "OSMData" /\ block_msg everything (snd p) b end) pl blocks /\
    exists blobs, pbf_file file blobs /\ forall i p, nth_error pl i = Some p -> exists b, nth_error blobs i = Some b /\ fst b = fst p /\ data_of (envs r (Z.of_nat i)) (snd b) (snd p).
Proof.
  intros (Bf & Lf & blobs & F & L & H) He C. pose proof (pbf_is _ _ Lf F) as F'. pose proof (osm_known envs blobs blocks L H) as K. destruct (pC34_split file blobs Bf Lf F' K) as (bs & E & S).
  pose proof (file_blobs blobs file Bf F') as Bd.
  destruct (choose_f2 (fun i (b : list Z * list Z) raw => data_of (envs r (Z.of_nat i)) (snd b) raw /\ raw <> [] /\ zlen raw < 2^31 - 20) blobs 0) as (raws & Lr & Hr).
  { intros i b Hb. exact (C blobs i b F Hb). }
  exists (combine (map fst blobs) raws).
  assert (LC : List.length (combine (map fst blobs) raws) = List.length blobs) by (rewrite combine_length, map_length; lia).
  assert (NC : forall i p, nth_error (combine (map fst blobs) raws) i = Some p -> exists b, nth_error blobs i = Some b /\ fst b = fst p /\ nth_error raws i = Some (snd p)).
  { clear. revert raws. induction blobs as [|b blobs IH]; intros [|r raws] [|i] p Hp; cbn in *; try discriminate; [injection Hp as <-; exists b; auto|exact (IH raws i p Hp)]. }
  assert (LE : List.length bs = List.length blobs) by (apply (f_equal (@List.length _)) in S; rewrite map_length, numbered_length in S; exact S).
  split; [|split; [|split]].
  - exists bs. split; [exact E|]. apply f2_nth; [lia|]. intros i b p Hb Hp. destruct (NC i p Hp) as (bl & Hbl & Ef & Hraw). destruct (Hr i bl (snd p) Hbl Hraw) as (D & _ & _). cbn [Nat.add] in D.
    assert (Sb : FrSpec.seen b = (Z.of_nat i, bl)) by (pose proof (numbered_nth _ _ _ Hbl) as N; rewrite <- S, nth_error_map, Hb in N; cbn [option_map] in N; congruence).
    unfold FrSpec.seen in Sb. destruct bl as [ty data]. injection Sb as S1 S2 S3. cbn [fst snd] in *. split; [congruence|]. rewrite S1.
    pose proof (proj1 (Forall_forall _ _) Bd _ (nth_error_In _ _ Hbl)) as (_ & D2). cbn [snd] in D2.
    destruct (blk_Data b) as [v e] eqn:Ev. cbn [vis] in S3. subst v. destruct (data_read _ data (snd p) e D ltac:(lia)) as (bb & s & E1 & E2 & E3). exists bb, s. rewrite Ev. auto.
  - apply Forall_forall. intros p Hp. apply In_nth_error in Hp. destruct Hp as (i & Hp). destruct (NC i p Hp) as (bl & Hbl & Ef & Hraw). destruct (Hr i bl (snd p) Hbl Hraw) as (D & N & Sz). cbn [Nat.add] in D.
    split; [exact N|]. split; [|exact Sz]. eapply data_bytes; [|exact D]. apply He.
  - apply f2_nth; [lia|]. intros i p c Hp Hc. destruct (NC i p Hp) as (bl & Hbl & Ef & Hraw). destruct (Hr i bl (snd p) Hbl Hraw) as (D & N & Sz). cbn [Nat.add] in D. specialize (H i bl c Hbl Hc).
    destruct c as [q|]; cbn [blob_is] in H; [|congruence]. destruct H as (T & raw & D' & M). split; [congruence|].
    pose proof (proj1 (Forall_forall _ _) Bd _ (nth_error_In _ _ Hbl)) as (_ & D2). cbn beta in D2. rewrite <- (data_unique (envs r (Z.of_nat i)) (snd bl) raw (snd p) ltac:(lia) (D' r) D). exact M.
  - exists blobs. split; [exact F|]. intros i p Hp. destruct (NC i p Hp) as (bl & Hbl & Ef & Hraw). destruct (Hr i bl (snd p) Hbl Hraw) as (D & _ & _). exists bl. auto.
Qed.
Lemma contents_osm {R} (envs : R -> Z -> zenv) file pl blocks : bytes file -> zlen file < 2^63 -> Forall fits pl ->
  pbf_file file (map (fun p => (fst p, raw_blob (snd p))) pl) ->
  Forall2 (fun p c => match c with None => fst p = bytes_of "OSMHeader" | Some b => fst p = bytes_of "OSMData" /\ block_msg everything (snd p) b end) pl blocks ->
  osm_file envs file blocks.
Proof.
  intros Bf Lf Fi F H. split; [exact Bf|]. split; [exact Lf|]. exists (map (fun p => (fst p, raw_blob (snd p))) pl). split; [exact F|]. split; [rewrite map_length; exact (f2_len _ _ _ H)|].
  intros i b c Hb Hc. rewrite nth_error_map in Hb. destruct (nth_error pl i) as [p|] eqn:Ep; [|discriminate]. injection Hb as <-.
  assert (X : match c with None => fst p = bytes_of "OSMHeader" | Some b => fst p = bytes_of "OSMData" /\ block_msg everything (snd p) b end).
  { clear -H Ep Hc. revert i Ep Hc. induction H as [|x y l m Hx H IH]; intros [|i] Ep Hc; cbn in *; try discriminate; [injection Ep as <-; injection Hc as <-; exact Hx|exact (IH i Ep Hc)]. }
  pose proof (proj1 (Forall_forall _ _) Fi p (nth_error_In _ _ Ep)) as (N & Bp & Sz). destruct c as [q|]; cbn [blob_is fst snd]; [|exact X]. destruct X as (T & M). split; [exact T|]. exists (snd p). split; [|exact M].
  intros run. left. exists None, None. apply raw_blob_msg; [exact Bp|lia].
Qed.
Lemma f2_firstn {A B} (P : A -> B -> Prop) n : forall l m, Forall2 P l m -> Forall2 P (firstn n l) (firstn n m).
Proof. induction n as [|n IH]; intros l m H; [constructor|]. destruct H; cbn; constructor; auto. Qed.
