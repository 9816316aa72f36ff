(** * SwThms: C105, output files under every operating system. *)
From Verif Require Import Base PbModel TModel HLModel FrModel FrSpec ZlModel IoModel IoSpec NiModel WiModel RiModel RwModel TfModel TrModel TmModel PgModel SlModel SwModel SwSpec.
From Verif Require Import BaseLemmas TMsg2 FrProofs IoThms.

Section writer.
Context (o : os) (fine : Prop) (panics : list panic).
Definition ready (s : ofile) : Prop := at_end (of_file s) /\ List.length (of_hdr s) = 4%nat.
(** from [s], a step adds an initial part of [out] to the file, all of it if it ends normally *)
Definition adds (out : list Z) (s : ofile) (run : ofile * res unit) : Prop :=
  let (s', r) := run in
  ready s' /\ (exists part rest, out = part ++ rest /\ f_data (of_file s') = f_data (of_file s) ++ part /\ (r = Ok tt -> rest = [])) /\
  (fine -> r = Ok tt) /\ (r = Ok tt \/ exists p, r = Panic p /\ In p panics).
Lemma adds_seq : forall out1 out2 s (m : tio ofile unit) (k : unit -> tio ofile unit), adds out1 s (snd (m s)) ->
  (forall s1, ready s1 -> adds out2 s1 (snd (k tt s1))) -> adds (out1 ++ out2) s (snd (tio_bind m k s)).
Proof.
  intros out1 out2 s m k A K. unfold tio_bind. destruct (m s) as [d [s1 r]]. cbn [snd] in A. destruct A as (R & (p & q & E & D & Q) & F & X).
  destruct r as [u|x|].
  - destruct u. specialize (K s1 R). rewrite (Q eq_refl), app_nil_r in E. cbn [snd]. destruct (snd (k tt s1)) as [s2 r2]. destruct K as (R2 & (p2 & q2 & E2 & D2 & Q2) & F2 & X2).
    split; [exact R2|]. split; [|split; [exact F2|exact X2]]. exists (p ++ p2), q2. split; [rewrite E, E2, app_assoc; reflexivity|]. split; [rewrite D2, D, app_assoc; reflexivity|exact Q2].
  - cbn [snd]. split; [exact R|]. split; [|split; [exact F|exact X]]. exists p, (q ++ out2). split; [rewrite E, app_assoc; reflexivity|]. split; [exact D|discriminate].
  - destruct X as [X|(y & X & _)]; discriminate X.
Qed.
Lemma adds_say : forall s ds, ready s -> adds [] s (snd (@say ofile ds s)).
Proof.
  intros s ds R. cbn [say snd]. split; [exact R|]. split; [|split; [reflexivity|left; reflexivity]]. exists [], []. split; [reflexivity|]. split; [rewrite app_nil_r; reflexivity|reflexivity].
Qed.
Lemma adds_ok : forall s, ready s -> adds [] s (snd (@give ofile unit (Ok tt) s)).
Proof. intros s R. exact (adds_say s [] R). Qed.
Lemma adds_loop : forall M skip skipped idx (put : M -> tio ofile unit) (bytes_of_m : M -> list Z) msgs,
  (forall m s, In m msgs -> skip m = false -> ready s -> adds (bytes_of_m m) s (snd (put m s))) ->
  forall s, ready s -> adds (flat_map bytes_of_m (filter (fun m => negb (skip m)) msgs)) s (snd (w_loop skip skipped idx put msgs s)).
Proof.
  intros M skip skipped idx put bm msgs. induction msgs as [|m r IH]; intros H s R; cbn [w_loop filter flat_map].
  - apply (adds_seq [] [] s); [apply adds_say, R|]. intros s1 R1. apply adds_ok, R1.
  - match goal with |- adds ?l _ _ => change l with ([] ++ l) end. apply adds_seq; [apply adds_say, R|]. intros s1 R1.
    assert (H' : forall m0 s0, In m0 r -> skip m0 = false -> ready s0 -> adds (bm m0) s0 (snd (put m0 s0))) by (intros m0 s0 I; apply H; right; exact I).
    destruct (skip m) eqn:S; cbn [negb].
    + match goal with |- adds ?l _ _ => change l with ([] ++ l) end. apply adds_seq; [apply adds_say, R1|]. intros s2 R2. apply IH; assumption.
    + cbn [flat_map]. apply adds_seq; [|intros s2 R2; apply IH; assumption].
      match goal with |- adds ?l _ _ => change l with ([] ++ l) end. apply adds_seq; [apply adds_say, R1|]. intros s2 R2.
      rewrite <- (app_nil_r (bm m)). apply adds_seq; [apply H; [left; reflexivity|exact S|exact R2]|]. intros s3 R3. apply adds_say, R3.
Qed.
Lemma adds_call : (fine -> calls_succeed o) -> In IOError panics -> forall s, ready s -> adds [] s (snd (act (of_call o) s)).
Proof.
  intros C I s [R1 R2]. cbn [act snd of_call]. unfold of_call. destruct (os_fail o (of_k s)) eqn:E.
  - split; [split; assumption|]. split; [exists [], []; split; [reflexivity|split; [cbn [of_file]; rewrite app_nil_r; reflexivity|discriminate]]|].
    split; [intros F; rewrite (C F) in E; discriminate E|]. right. exists IOError. split; [reflexivity|exact I].
  - split; [split; assumption|]. split; [exists [], []; split; [reflexivity|split; [cbn [of_file]; rewrite app_nil_r; reflexivity|reflexivity]]|].
    split; [reflexivity|left; reflexivity].
Qed.
Lemma adds_write : (fine -> writes_progress o) -> In IOError panics -> In (PanicMsg "zero write") panics -> forall buf s, ready s -> adds buf s (snd (act (of_write o buf) s)).
Proof.
  intros C I J buf s [R1 R2]. cbn [act snd]. unfold of_write. destruct (pC68_write o (of_k s) (of_file s) buf R1) as (k & f & r & E & A & N & (part & (rest & Ep) & D) & W & G & P).
  rewrite E. split; [split; [exact A|exact R2]|]. split.
  - exists part, rest. split; [exact Ep|]. split; [exact D|]. intros ->. specialize (W eq_refl). cbn [of_file] in *. rewrite W in D. apply app_inv_head in D. rewrite Ep in D.
    rewrite <- (app_nil_r part) in D at 2. apply app_inv_head in D. exact D.
  - split; [intros F; exact (G (C F))|]. destruct r as [[]|p|]; [left; reflexivity| |contradiction]. right. exists p. split; [reflexivity|]. destruct (P p eq_refl) as [-> | ->]; assumption.
Qed.
Lemma adds_write_words : (fine -> writes_whole o) -> In IOError panics -> In (PanicMsg "torn write") panics -> forall ws s, ready s ->
  adds (SliceAsByteSlice ws) s (snd (act (of_write_words o ws) s)).
Proof.
  intros C I J ws s [R1 R2]. cbn [act snd]. unfold of_write_words. destruct (pC68_write_words o (of_k s) (of_file s) ws R1) as (k & f & r & E & A & N & (part & (rest & Ep) & D) & W & G & P).
  rewrite E. split; [split; [exact A|exact R2]|]. split.
  - exists part, rest. split; [exact Ep|]. split; [exact D|]. intros ->. specialize (W eq_refl). cbn [of_file] in *. rewrite W in D. apply app_inv_head in D. rewrite Ep in D.
    rewrite <- (app_nil_r part) in D at 2. apply app_inv_head in D. exact D.
  - split; [intros F; exact (G (C F))|]. destruct r as [[]|p|]; [left; reflexivity| |contradiction]. right. exists p. split; [reflexivity|]. destruct (P p eq_refl) as [-> | ->]; assumption.
Qed.
(** the bytes of a frame *)
Definition frame_bytes (b : Block) : list Z :=
  let data := vis (blk_Data b) in
  (be32_bytes (u32 (zlen (bh_enc (mkBlobHeader (blk_Type b) (s32 (zlen data)))))) ++ bh_enc (mkBlobHeader (blk_Type b) (s32 (zlen data)))) ++ data.
Lemma header_put : forall b hdr, List.length hdr = 4%nat -> let data := vis (blk_Data b) in let h := bh_enc (mkBlobHeader (blk_Type b) (s32 (zlen data))) in
  be32_put (BlobHeader_Write (mkBlobHeader (blk_Type b) (s32 (zlen data))) hdr)
    (u32 (zlen (BlobHeader_Write (mkBlobHeader (blk_Type b) (s32 (zlen data))) hdr) - 4)) = Ok (be32_bytes (u32 (zlen h)) ++ h).
Proof.
  intros b hdr H data h. pose proof (write_frame_eq hdr (blk_Type b) [] H) as E. unfold data in *. clear E. rewrite BlobHeader_Write_eq.
  destruct hdr as [|x1 [|x2 [|x3 [|x4 [|]]]]]; try discriminate H. cbn [app be32_put]. do 4 f_equal; unfold h, data; f_equal; f_equal; unfold zlen; cbn [List.length]; lia.
Qed.
Lemma adds_frame : (fine -> writes_progress o) -> In IOError panics -> In (PanicMsg "zero write") panics -> forall b s, ready s -> adds (frame_bytes b) s (snd (put_frame o b s)).
Proof.
  intros C I J b s R. unfold put_frame. cbv zeta. unfold tio_bind at 1. rewrite header_put by exact (proj2 R). cbn [fst snd app].
  set (h := bh_enc (mkBlobHeader (blk_Type b) (s32 (zlen (vis (blk_Data b)))))).
  unfold frame_bytes. cbv zeta. fold h. match goal with |- adds ?l _ _ => change l with ([] ++ l) end.
  apply adds_seq.
  - cbn [act snd]. split; [split; [exact (proj1 R)|reflexivity]|]. split; [|split; [reflexivity|left; reflexivity]]. exists [], []. split; [reflexivity|]. split; [cbn [of_file]; rewrite app_nil_r; reflexivity|reflexivity].
  - intros s1 R1. apply adds_seq; [apply adds_write; assumption|]. intros s2 R2. apply adds_write; assumption.
Qed.
End writer.

Lemma whole_blocks skip : forall bs hdr acc, List.length hdr = 4%nat ->
  write_blocks skip hdr bs acc = Ok (acc ++ flat_map frame_bytes (filter (fun b => negb (skip && seqb (blk_Type b) tFiller)) bs)).
Proof.
  induction bs as [|b bs IH]; intros hdr acc H; cbn [write_blocks filter flat_map]; [rewrite app_nil_r; reflexivity|].
  destruct (skip && seqb (blk_Type b) tFiller); cbn [negb]; [apply IH, H|]. rewrite write_frame_eq by exact H. cbn [bind]. cbn [flat_map]. rewrite IH.
  - unfold frame_bytes at 2. rewrite <- !app_assoc. reflexivity.
  - reflexivity.
Qed.
Lemma leaves_of : forall out fine panics run, adds fine panics out of0 run -> leaves out fine panics run.
Proof.
  intros out fine panics [s r] (R & (p & q & E & D & Q) & F & X). cbn [of_file of0 f_data app] in D. unfold leaves. rewrite D. split; [exists q; exact E|].
  split; [intros K; rewrite (Q K), app_nil_r in E; symmetry; exact E|]. split; assumption.
Qed.
Lemma ready0 : ready of0. Proof. split; reflexivity. Qed.

(** C105.  The output files of decompress, of the first step of relindex, of rewritenodes and of tagfilter, for everything the operating system may answer
    (writes may be partial or fail at any moment) and for all messages: the writer ends, with the whole output in the file or with a panic that says that a call
    failed and an initial part of the output in the file.  It ends normally if the calls succeed (and, for relindex, whose words are written with a single
    call each, writes are not partial).  What the whole output is for rewritenodes and tagfilter, see C34 and C81. *)
Lemma pC105_files : forall o,
  (forall msgs, leaves (dc_whole msgs) (writes_progress o /\ calls_succeed o) [IOError; PanicMsg "zero write"] (snd (dc_output o msgs of0))) /\
  (forall msgs, has_words msgs ->
    leaves (ri_whole msgs) (writes_whole o /\ calls_succeed o) [IOError; PanicMsg "torn write"] (snd (ri_output o msgs of0))) /\
  (forall msgs, exists out, rewriter_writer msgs [] = Ok out /\
    leaves out (writes_progress o /\ calls_succeed o) [IOError; PanicMsg "zero write"] (snd (rw_output o msgs of0))) /\
  (forall msgs, exists out, tagfilter_writer msgs [] = Ok out /\
    leaves out (writes_progress o /\ calls_succeed o) [IOError; PanicMsg "zero write"] (snd (tf_output o msgs of0))).
Proof.
  intros o. split; [|split; [|split]].
  - intros msgs. apply leaves_of. unfold dc_output.
    assert (A : forall s, ready s -> adds (writes_progress o /\ calls_succeed o) [IOError; PanicMsg "zero write"] [] s (snd (act (of_call o) s)))
      by (apply adds_call; [intros [_ X]; exact X|left; reflexivity]).
    replace (dc_whole msgs) with ([] ++ [] ++ flat_map snd (filter (fun m => negb ((fun _ : Z * list Z => false) m)) msgs) ++ []).
    2:{ cbn [app]. rewrite app_nil_r. unfold dc_whole. clear. induction msgs as [|m r IH]; [reflexivity|]. cbn [map List.concat]. rewrite <- IH. reflexivity. }
    apply adds_seq; [apply A, ready0|]. intros s1 R1. apply adds_seq; [apply adds_say, R1|]. intros s2 R2.
    apply adds_seq; [|intros s3 R3; apply A, R3]. apply adds_loop; [|exact R2]. intros m s _ _ R. apply adds_write; [intros [X _]; exact X|left; reflexivity|right; left; reflexivity|exact R].
  - intros msgs HW. apply leaves_of. unfold ri_output.
    assert (A : forall s, ready s -> adds (writes_whole o /\ calls_succeed o) [IOError; PanicMsg "torn write"] [] s (snd (act (of_call o) s)))
      by (apply adds_call; [intros [_ X]; exact X|left; reflexivity]).
    replace (ri_whole msgs) with ([] ++ [] ++ flat_map (fun m => SliceAsByteSlice (words_of m)) (filter (fun m => negb (negb (seqb (rm_Type m) tRelationData))) msgs) ++ []).
    2:{ cbn [app]. rewrite app_nil_r. unfold ri_whole. f_equal. apply filter_ext. intros m. rewrite negb_involutive. reflexivity. }
    apply adds_seq; [apply A, ready0|]. intros s1 R1. apply adds_seq; [apply adds_say, R1|]. intros s2 R2.
    apply adds_seq; [|intros s3 R3; apply A, R3].
    apply (adds_loop _ _ ri_msg (fun m => negb (seqb (rm_Type m) tRelationData)) [] rm_Index _ (fun m => SliceAsByteSlice (words_of m))); [|exact R2].
    intros m s I S R. rewrite negb_false_iff in S. unfold has_words in HW. rewrite Forall_forall in HW. specialize (HW m I S). unfold words_of. destruct (rm_Words m) as [ws|]; [|contradiction].
    apply adds_write_words; [intros [X _]; exact X|left; reflexivity|right; left; reflexivity|exact R].
  - intros msgs. eexists. split; [apply whole_blocks; reflexivity|]. apply leaves_of. unfold rw_output. cbn [app andb].
    assert (A : forall s, ready s -> adds (writes_progress o /\ calls_succeed o) [IOError; PanicMsg "zero write"] [] s (snd (act (of_call o) s)))
      by (apply adds_call; [intros [_ X]; exact X|left; reflexivity]).
    match goal with |- adds _ _ ?l _ _ => replace l with ([] ++ l ++ []) by (cbn [app]; apply app_nil_r) end.
    apply adds_seq; [apply A, ready0|]. intros s1 R1. apply adds_seq; [|intros s3 R3; apply A, R3].
    apply (adds_loop _ _ Block (fun _ => false) [] blk_Index); [|exact R1]. intros m s _ _ R. apply adds_frame; [intros [X _]; exact X|left; reflexivity|right; left; reflexivity|exact R].
  - intros msgs. eexists. split; [apply whole_blocks; reflexivity|]. apply leaves_of. unfold tf_output. cbn [app andb].
    assert (A : forall s, ready s -> adds (writes_progress o /\ calls_succeed o) [IOError; PanicMsg "zero write"] [] s (snd (act (of_call o) s)))
      by (apply adds_call; [intros [_ X]; exact X|left; reflexivity]).
    match goal with |- adds _ _ ?l _ _ => change l with ([] ++ l) end.
    apply adds_seq; [apply A, ready0|]. intros s1 R1.
    apply (adds_loop _ _ Block (fun m => seqb (blk_Type m) tFiller) AddFiller blk_Index); [|exact R1]. intros m s _ _ R. apply adds_frame; [intros [X _]; exact X|left; reflexivity|right; left; reflexivity|exact R].
Qed.
(** C105.  The messages of the relation index workers have words (a file with blocks of other types is refused, C35). *)
Lemma pC105_has_words : forall inBlocks msgs, mapm (fun b => ri_worker (fst b) (snd b)) inBlocks = Ok msgs ->
  Forall (fun b => known_type (blk_Type (snd b))) inBlocks -> has_words msgs.
Proof.
  intros inBlocks. induction inBlocks as [|b r IH]; intros msgs E F; cbn [mapm] in E.
  - injection E as <-. constructor.
  - inversion F as [|? ? Fb Fr]; subst. destruct (ri_worker (fst b) (snd b)) as [m|p|] eqn:W; cbn [bind] in E; try discriminate E.
    destruct (mapm _ r) as [ms|p|] eqn:X; cbn [bind] in E; try discriminate E. injection E as <-. constructor; [|apply (IH ms eq_refl Fr)].
    unfold ri_worker in W. cbv zeta in W. destruct (seqb (blk_Type (snd b)) tOSMData); cbn [negb] in W.
    + repeat match type of W with (bind ?x _ = _) => destruct x; cbn [bind] in W; try discriminate W end. injection W as <-. cbn. discriminate.
    + injection W as <-. cbn [rm_Words rm_Type about_relations]. intros H. exfalso. assert (N : blk_Type (snd b) <> bytes_of "RelationData") by (destruct Fb as [-> | ->]; discriminate). apply N. unfold about_relations in H. cbn [rm_Type] in H.
      unfold seqb in H. destruct (list_eq_dec _ _ _) as [Q|]; [exact Q|discriminate H].
Qed.

(** An example: writes of at most five bytes, and the seventh call fails. *)
Lemma pC105_ex :
  let o := mkOS (fun k n => (5, Nat.eqb k 7)) (fun _ => (1, NoErr)) (fun _ => false) (fun _ => false) in
  let msgs := [mkBlk 0 (exact [1; 2; 3]) (bytes_of "OSMHeader"); mkBlk 1 (exact []) tFiller; mkBlk 2 (exact [4; 5; 6; 7; 8; 9]) tOSMData] in
  let out := [0; 0; 0; 13; 10; 9] ++ bytes_of "OSMHeader" ++ [24; 3; 1; 2; 3; 0; 0; 0; 11; 10; 7] ++ bytes_of "OSMData" ++ [24; 6; 4; 5; 6; 7; 8; 9] in
  tagfilter_writer msgs [] = Ok out /\
  (exists hdr k, snd (tf_output o msgs of0) = (mkOfile k (mkFile (firstn 30 out) 30) hdr, Panic IOError)) /\
  writes_progress (mkOS (fun k n => (5, false)) (fun _ => (1, NoErr)) (fun _ => false) (fun _ => false)).
Proof.
  cbv zeta. split; [vm_compute; reflexivity|]. split; [do 2 eexists; vm_compute; reflexivity|]. intros k n H. split; reflexivity.
Qed.
