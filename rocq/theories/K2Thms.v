(** * K2Thms: runs of the tag filter and of the decompression that end at any moment (C91). *)
From Verif Require Import NiThms Base PbSpec TModel HLModel HLSpec FrModel FrSpec ZlModel ZlSpec TfModel TfSpec MtModel IoModel IoSpec NiModel NiSpec RwModel RwSpec WiModel WiSpec RiModel RiSpec WsSpec PlModel PlSpec PlThms CxModel CxSpec CxThms EeSpec ChSpec HLProofs HLProofs2 HLThms TfThms ChThms.
From Verif Require Import BaseLemmas PbModel PbProofs TProofs TMsg TMsg2 TThms TTyped HLProofs HLThms FrProofs FrThms ZlThms TfThms NiThms PlProofs2 PlThms RwThms EeProofs ChProofs KlThms.
From Verif Require Import HLSpec FrSpec ZlSpec TfSpec PlSpec CxThms EeSpec ChSpec ChThms.

(** One worker, cancelled after [m] blocks (or not at all): the writer gets the results of the
    first [m] blocks. *)
Lemma replay {A B} (c : cfg A B) idx inp m got : c_writer c = true -> (forall l, c_write_panics c l = false) -> c_read_panics c = false ->
  indexed idx inp -> keeps_index c idx inp -> mapm (c_work c) (firstn m inp) = Ok got ->
  exists s, reachable c inp 1 s /\ completed s /\ s_got s = got.
Proof.
  intros W P RP (IX & Lin) KI E.
  assert (R : forall m k todo mine done, k = List.length done -> map idx todo = map Z.of_nat (seq k (List.length todo)) -> Z.of_nat (k + List.length todo) < 2^64 ->
    (forall a b, In a todo -> c_work c a = Ok b -> c_index c b = idx a) -> forall r, mapm (c_work c) (firstn m todo) = Ok r ->
    exists n mine', steps c n (mkSt false PRead todo [mkWk WRecv mine] ORecv [] (Z.of_nat k) VRecv done None)
                              (mkSt false PRead (skipn m todo) [mkWk WRecv mine'] ORecv [] (Z.of_nat (k + List.length r)) VRecv (done ++ r) None)).
  { clear m got E. induction m as [|m IH]; intros k todo mine done Hk Hi Hb Hw r E.
    - cbn in E. injection E as <-. exists 0%nat, mine. rewrite app_nil_r. cbn [List.length skipn]. rewrite Nat.add_0_r. apply steps_0.
    - destruct todo as [|a todo]; cbn [firstn mapm] in E.
      + injection E as <-. exists 0%nat, mine. rewrite app_nil_r. cbn [List.length skipn]. rewrite Nat.add_0_r. apply steps_0.
      + destruct (c_work c a) as [b| |] eqn:Ea; cbn [bind] in E; try discriminate E. destruct (mapm (c_work c) (firstn m todo)) as [r'| |] eqn:Er; cbn [bind] in E; try discriminate E. injection E as <-.
        cbn [List.length map seq] in *. injection Hi as Hi1 Hi2.
        destruct (IH (S k) todo (mine ++ [a]) (done ++ [b])) with (r := r') as (n & mine' & S'); [rewrite app_length; cbn; lia|exact Hi2|lia|intros; apply Hw; [right|]; assumption|exact Er|].
        exists (7 + n)%nat, mine'. eapply steps_app.
        * apply (run_block c false a todo mine (Z.of_nat k) done b W Ea); [rewrite (Hw a b (or_introl eq_refl) Ea); exact Hi1|apply P].
        * rewrite u64_id by (unfold is_u64; lia). replace (Z.of_nat k + 1) with (Z.of_nat (S k)) by lia. cbn [skipn List.length]. rewrite <- app_assoc in S'. replace (k + S (List.length r'))%nat with (S k + List.length r')%nat by lia. exact S'. }
  destruct (R m 0%nat inp [] [] eq_refl IX ltac:(unfold zlen in Lin; cbn [Nat.add]; lia) KI got E) as (n & mine' & S1). cbn [app Nat.add] in S1.
  assert (S0 : pl_start c false inp 1 = mkSt false PRead inp [mkWk WRecv []] ORecv [] (Z.of_nat 0) VRecv [] None) by (unfold pl_start; rewrite W; reflexivity). rewrite <- S0 in S1.
  destruct (skipn m inp) as [|a td].
  - destruct (run_end c false [] mine' (Z.of_nat (List.length got)) got W) as (s & S2 & D & _ & G). exists s. split; [|split; [exact D|exact G]].
    eapply start_reach. eapply steps_app; [exact S1|]. eapply (steps_app c 1); [econstructor; [apply step_read_end; exact RP|apply steps_0]|exact S2].
  - destruct (run_end c true (a :: td) mine' (Z.of_nat (List.length got)) got W) as (s & S2 & D & _ & G). exists s. split; [|split; [exact D|exact G]].
    eapply start_reach. eapply steps_app; [exact S1|]. eapply (steps_app c 2); [econstructor; [apply step_cancel|econstructor; [apply step_read_cancelled|apply steps_0]]|exact S2].
Qed.
Lemma filter_firstn {A} (p : A -> bool) : forall l q, exists t, filter p (firstn t l) = firstn q (filter p l).
Proof.
  induction l as [|a l IH]; intros q; [exists 0%nat; destruct q; reflexivity|]. cbn [filter]. destruct (p a) eqn:E.
  - destruct q as [|q]; [exists 0%nat; reflexivity|]. destruct (IH q) as (t & Et). exists (S t). cbn [firstn filter]. rewrite E, Et. reflexivity.
  - destruct (IH q) as (t & Et). exists (S t). cbn [firstn filter]. rewrite E. exact Et.
Qed.

(** C91, the tag filter.  Whatever the schedule and whenever its run ends: what is in the output file, once it was
    created, cannot be read by any tool or is what some run that was cancelled (or not) and ended normally writes
    (C81 and C88 say what that is). *)
Lemma pC91_tagfilter : forall envs file bs workers wp rp s n out j, bytes file -> zlen file < 2^63 -> (forall i, env_ok (envs i)) ->
  read_file file = Ok bs -> reachable (tf_cfg envs wp rp) bs workers s ->
  tagfilter_writer (firstn n (s_got s)) [] = Ok out -> zlen out < 2^63 ->
  (exists msg, read_file (firstn j out) = Panic msg) \/
  (exists s', reachable (tf_cfg envs (fun _ => false) false) bs 1 s' /\ completed s' /\ tagfilter_writer (s_got s') [] = Ok (firstn j out)).
Proof.
  intros envs file bs w wp rp s n out j Hb Hl He E R Eo Lo. pose proof (pC37_file_indexed file bs Hb Hl E) as IX.
  destruct (pC37_keeps envs (mkNSI [] [] 0) false 0 wp (fun _ => false) (fun _ => false) (fun _ => false) (fun _ => false) rp bs) as (_ & _ & _ & _ & K & _).
  destruct (pC37_prefix _ _ (tf_cfg envs wp rp) blk_Index bs w s eq_refl IX K R) as (m & G). apply (mapm_firstn _ _ _ n) in G. rewrite firstn_firstn in G.
  set (m' := Nat.min n m) in *. clearbody m'. set (msgs := firstn n (s_got s)) in *. clearbody msgs.
  pose proof (read_file_go file bs Hb Hl E) as Go. apply (Forall_firstn _ m') in Go.
  assert (W : Forall (fun b => (known_type (blk_Type b) \/ blk_Type b = bytes_of "Filler") /\ bytes (vis (blk_Data b)) /\ zlen (vis (blk_Data b)) < 2^31) msgs).
  { assert (F2 : Forall2 (fun b msg => tf_step (envs (blk_Index b)) [] b = Ok ([], msg)) (firstn m' bs) msgs).
    { apply mapm_Forall2 in G. revert G. apply Forall2_impl. cbn [tf_cfg c_work]. intros b msg Eb. destruct (tf_step _ _ b) as [[pd x]| |] eqn:T; cbn [bind] in Eb; try discriminate Eb. injection Eb as <-. apply tf_step_pending in T as P. cbn in P. subst pd. reflexivity. }
    clear - F2 Go He. induction F2 as [|b msg l l' T F2 IH]; [constructor|]. apply Forall_cons_iff in Go as [(G1 & G2 & G3) Go]. constructor; [|apply IH; exact Go]. eapply tf_message; eauto. }
  destruct (pC34_tagfilter_writer msgs W) as (out' & Eo' & I & _). rewrite Eo in Eo'. injection Eo' as <-. cbn zeta in I.
  assert (Bo : bytes out).
  { destruct (write_blocks_is true msgs zero4 [] [] eq_refl eq_refl ltac:(constructor)) as (f' & E' & B & _); [revert W; apply Forall_impl; intros b ([A|A] & C & D); split; auto|]. unfold tagfilter_writer in Eo. rewrite Eo in E'. injection E' as <-. exact B. }
  destruct (pC35_truncation out _ j Bo Lo I) as [P|(bs' & q & _ & F & _)]; [left; exact P|right].
  destruct (filter_firstn (fun b => negb (seqb (blk_Type b) (bytes_of "Filler"))) msgs q) as (t & Et).
  rewrite firstn_map, <- Et in F. pose proof (mapm_firstn _ _ _ t G) as Gt. rewrite firstn_firstn in Gt.
  destruct (pC37_keeps envs (mkNSI [] [] 0) false 0 (fun _ => false) (fun _ => false) (fun _ => false) (fun _ => false) (fun _ => false) false bs) as (_ & _ & _ & _ & K' & _).
  destruct (replay (tf_cfg envs (fun _ => false) false) blk_Index bs (Nat.min t m') (firstn t msgs) eq_refl (fun _ => eq_refl) eq_refl IX K' Gt) as (s' & R' & D' & G').
  exists s'. split; [exact R'|]. split; [exact D'|]. rewrite G'.
  unfold tagfilter_writer in *. destruct (write_blocks_firstn true t _ _ _ _ Eo) as (f' & rest & E' & EQ). rewrite E'. f_equal.
  destruct (pC34_tagfilter_writer (firstn t msgs) (Forall_firstn _ _ _ W)) as (f2 & Ef2 & I2 & _). unfold tagfilter_writer in Ef2. rewrite E' in Ef2. injection Ef2 as <-. cbn zeta in I2.
  eapply (is_file_prefix _ f' (firstn j out) rest (skipn j out) I2 F). rewrite firstn_skipn. symmetry. exact EQ.
Qed.
(** C91, the tag filter, for OSM files: the output file cannot be read, or is an OSM file whose elements are those of
    the first [m] blocks of the input, filtered (see C88). *)
Lemma pC91_tagfilter_osm : forall (R R' : Type) (envs : R -> Z -> zenv) (envs' : R' -> Z -> zenv) r file blocks es bs workers wp rp s n out j,
  osm_file envs file blocks -> (forall i, env_ok (envs r i)) -> Forall2 elements_are blocks es ->
  read_file file = Ok bs -> reachable (tf_cfg (envs r) wp rp) bs workers s ->
  tagfilter_writer (firstn n (s_got s)) [] = Ok out -> zlen out < 2^63 ->
  (exists msg, read_file (firstn j out) = Panic msg) \/
  (exists m blocks' es', (m <= List.length es)%nat /\ osm_file envs' (firstn j out) blocks' /\ filtered (firstn m es) es' /\ Forall2 written_as blocks' es').
Proof.
  intros R R' envs envs' r file blocks es bs w wp rp s n out j O He El E Re Eo Lo. pose proof O as (Bf & Lf & _).
  destruct (pC91_tagfilter (envs r) file bs w wp rp s n out j Bf Lf He E Re Eo Lo) as [P|(s' & R1 & D1 & E1)]; [left; exact P|right].
  destruct (pC88_filtered_file_exact R R' envs envs' r file blocks es bs 1 (fun _ => false) false s' O He El E R1 D1) as (m & o & Hm & _ & Eo1 & H). rewrite E1 in Eo1. injection Eo1 as <-.
  destruct H as (bl & es' & H1 & H2 & H3).
  { unfold zlen in *. rewrite firstn_length. lia. }
  exists m, bl, es'. auto.
Qed.
(** C91, the decompression, for files without empty contents (as C87). *)
Lemma pC91_decompress_partial : forall (R R' : Type) (envs : R -> Z -> zenv) (envs' : R' -> Z -> zenv) r file blocks bs workers wp rp s n j,
  osm_file envs file blocks -> (forall i, env_ok (envs r i)) -> contents_ok (envs r) file ->
  read_file file = Ok bs -> reachable (dc_cfg (envs r) wp rp) bs workers s ->
  let out := concat (map snd (firstn n (s_got s))) in zlen out < 2^63 ->
  (exists msg, read_file (firstn j out) = Panic msg) \/
  (exists m, (m <= List.length blocks)%nat /\ osm_file envs' (firstn j out) (firstn m blocks)).
Proof.
  intros R R' envs envs' r file blocks bs w wp rp s n j O He C E Re out Lo. destruct (osm_contents envs r file blocks O He C) as (pl & (bs' & E' & F2) & F & Hb & blobs & HF & HB). rewrite E in E'. injection E' as <-. pose proof O as (Bf & Lf & _).
  pose proof (pC37_file_indexed file bs Bf Lf E) as IX.
  destruct (pC37_keeps (envs r) (mkNSI [] [] 0) false 0 (fun _ => false) (fun _ => false) (fun _ => false) (fun _ => false) wp rp bs) as (_ & _ & _ & _ & _ & K).
  destruct (pC37_prefix _ _ (dc_cfg (envs r) wp rp) blk_Index bs w s eq_refl IX K Re) as (m & G). apply (mapm_firstn _ _ _ n) in G. rewrite firstn_firstn in G.
  set (m' := Nat.min n m) in *. clearbody m'. set (msgs := firstn n (s_got s)) in *. clearbody msgs.
  assert (Kn : Forall (fun p => known_type (fst p)) pl).
  { pose proof (read_file_known file bs Bf Lf E) as Kb. clear -F2 Kb. induction F2 as [|b p bs pl (T & _) F2 IH]; [constructor|].
    apply Forall_cons_iff in Kb as [K1 Kb]. constructor; [rewrite <- T; exact K1|auto]. }
  assert (Fr : forall k ms, mapm (c_work (dc_cfg (envs r) wp rp)) (firstn k bs) = Ok ms ->
    is_file (concat (map snd ms)) (map (fun p => (fst p, raw_blob (snd p))) (firstn k pl)) /\ bytes (concat (map snd ms))).
  { intros k ms Gk. pose proof (Forall2_firstn _ k _ _ F2) as F2k. pose proof (Forall_firstn _ k _ F) as Fk. pose proof (Forall_firstn _ k _ Kn) as Kk.
    destruct (frames_file (firstn k pl) Fk Kk) as (outs & Eo & I & B).
    assert (EQ : map snd ms = outs).
    { rewrite <- (mapm_frames (envs r) (firstn k bs) (firstn k pl) F2k Fk) in Eo. revert Gk Eo. cbn [dc_cfg c_work]. generalize ms, (firstn k bs). clear. intros got l. revert got outs.
      induction l as [|b l IH]; intros got outs G Eo; cbn [mapm] in *; [injection G as <-; injection Eo as <-; reflexivity|]. destruct (decompress_block _ b); cbn [bind] in *; try discriminate G.
      destruct (mapm _ l) as [r1| |]; cbn [bind] in G; try discriminate G. destruct (mapm _ l) as [r2| |]; cbn [bind] in Eo; try discriminate Eo. injection G as <-. injection Eo as <-. cbn [map snd]. f_equal. eapply IH; reflexivity. }
    rewrite EQ. auto. }
  destruct (Fr m' msgs G) as (I & B). fold out in I, B.
  destruct (pC35_truncation out _ j B Lo I) as [P|(bs' & q & _ & Fq & _)]; [left; exact P|right].
  pose proof (mapm_firstn _ _ _ q G) as Gq. rewrite firstn_firstn in Gq.
  destruct (pC37_keeps (envs r) (mkNSI [] [] 0) false 0 (fun _ => false) (fun _ => false) (fun _ => false) (fun _ => false) (fun _ => false) false bs) as (_ & _ & _ & _ & _ & K').
  destruct (replay (dc_cfg (envs r) (fun _ => false) false) blk_Index bs (Nat.min q m') (firstn q msgs) eq_refl (fun _ => eq_refl) eq_refl IX K' Gq) as (s' & R1 & D1 & G1).
  destruct (pC87_decompressed_file_partial R R' envs envs' r file blocks bs 1 (fun _ => false) false s' O He C E R1 D1) as (k & Hk & _ & H). cbn zeta in H. rewrite G1 in H.
  destruct (Fr _ _ Gq) as (Iq & _). rewrite firstn_map, firstn_firstn in Fq.
  assert (EQ : concat (map snd (firstn q msgs)) = firstn j out).
  { apply (is_file_prefix _ _ _ (concat (map snd (skipn q msgs))) (skipn j out) Iq Fq). rewrite firstn_skipn, <- concat_app, <- map_app, firstn_skipn. reflexivity. }
  rewrite EQ in H. exists k. split; [exact Hk|]. apply H. unfold zlen in *. rewrite firstn_length. lia.
Qed.

(** The conditions of C91 hold for a run over the file of C88's example; the first 30 bytes of its output cannot be read, the
    first 19 are the header. *)
Lemma pC91_ex : exists bs s out, osm_file (fun (_ : unit) (_ : Z) => ex_env) ty_file fl_blocks /\ env_ok ex_env /\ Forall2 elements_are fl_blocks [None; Some fl_e1; Some fl_e2] /\
  read_file ty_file = Ok bs /\ reachable (tf_cfg (fun _ => ex_env) (fun _ => false) false) bs 1 s /\
  tagfilter_writer (firstn 3 (s_got s)) [] = Ok out /\ zlen out < 2^63 /\ read_file (firstn 30 out) = Panic SliceOutOfRange /\
  (bs' <- read_file (firstn 19 out) ;; Ok (map seen bs')) = Ok [(0, (bytes_of "OSMHeader", [1; 2]))].
Proof.
  destruct pC88_ex as (_ & _ & _ & H1 & _ & H2 & _).
  destruct pC81_ex as (bs & s & out & _ & _ & He & Ef & R & _ & _ & Eo & EQ).
  assert (L : tagfilter_writer (firstn 3 (s_got s)) [] = Ok out).
  { rewrite <- Eo. f_equal. apply firstn_all2. pose proof (pC37_prefix _ _ (tf_cfg (fun _ => ex_env) (fun _ => false) false) blk_Index bs 1 s eq_refl) as P.
    assert (Lb : List.length bs = 3%nat) by (pose proof (f_equal (fun x => match x with Ok l => List.length l | _ => 0%nat end) Ef) as X; cbn beta iota in X; rewrite <- X; vm_compute; reflexivity).
    destruct P as (m & P); [|exact (proj1 (proj2 (proj2 (proj2 (proj2 (pC37_keeps (fun _ => ex_env) (mkNSI [] [] 0) false 0 (fun _ => false) (fun _ => false) (fun _ => false) (fun _ => false) (fun _ => false) false bs))))))|exact R|].
    - pose proof pC81_ex as (_ & _ & _ & B & Z & _). exact (pC37_file_indexed _ _ B Z Ef).
    - apply mapm_length in P. rewrite P, firstn_length. lia. }
  exists bs, s, out. split; [exact H1|]. split; [exact He|]. split; [exact H2|]. split; [exact Ef|]. split; [exact R|]. split; [exact L|]. subst out. split; [vm_compute; reflexivity|]. split; vm_compute; reflexivity.
Qed.
