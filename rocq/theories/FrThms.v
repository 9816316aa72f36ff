(** * FrThms: proofs of the framing properties (C34, C35). *)
From Verif Require Import Base BaseLemmas PbModel PbSpec PbProofs PbProofs2 TModel TSpec TProofs TMsg TMsg2 HLModel HLProofs FrModel FrSpec FrProofs.

Lemma is_file_covers file blobs : bytes file -> is_file file blobs -> Forall (fun b => known_type (fst b)) blobs ->
  covers file blobs.
Proof.
  revert file. induction blobs as [|[ty data] blobs IH]; intros file Hb Hf Hk; cbn [is_file covers] in *; [exact Hf|].
  destruct Hf as (fb & rest & -> & (sz & hdr & -> & He & Hh) & Hr).
  apply Forall_cons_iff in Hk as [K Hk]. cbn [fst] in K.
  exists sz, hdr, rest. rewrite <- !app_assoc in *. split; [reflexivity|]. split; [exact He|].
  apply bytes_app_inv in Hb as [_ Hb]. apply bytes_app_inv in Hb as [_ Hb]. split; [apply Hh; exact Hb|]. split; [exact K|].
  apply IH; [apply bytes_app_inv in Hb as [_ Hb]; exact Hb|exact Hr|exact Hk].
Qed.

(** C34, splitting: a file of framed blobs is split into exactly those blobs, numbered
    in order. *)
Lemma pC34_split : forall file blobs,
  bytes file -> zlen file < 2^63 -> is_file file blobs -> Forall (fun b => known_type (fst b)) blobs ->
  exists bs, read_file file = Ok bs /\ map seen bs = numbered blobs.
Proof.
  intros file blobs Hb Hl Hf Hk. apply read_file_ok; [exact Hl|]. apply is_file_covers; assumption.
Qed.

Lemma known_bytes ty : known_type ty -> bytes ty /\ zlen ty <= 9.
Proof.
  intros [->| ->]; (split; [|vm_compute; discriminate]); unfold bytes.
  - let t := eval vm_compute in (bytes_of "OSMHeader") in change (bytes_of "OSMHeader") with t.
    repeat (apply Forall_cons; [unfold is_u8; lia|]); apply Forall_nil.
  - let t := eval vm_compute in (bytes_of "OSMData") in change (bytes_of "OSMData") with t.
    repeat (apply Forall_cons; [unfold is_u8; lia|]); apply Forall_nil.
Qed.
Lemma bh_enc_len ty n : zlen ty <= 9 -> zlen (bh_enc (mkBlobHeader ty n)) <= 49.
Proof.
  intros H. unfold bh_enc. cbn [bh_Type bh_DataSize]. rewrite zlen_app.
  assert (zlen (if negb (zlen ty =? 0) then id_buffer blobHeaderType ty else []) <= 29).
  { destruct (negb _); [|change (zlen (@nil Z)) with 0; lia]. unfold id_buffer. rewrite !zlen_app.
    pose proof (venc_zlen (MakeIdType blobHeaderType PbFixedBytes) ltac:(vm_compute; split; discriminate || reflexivity)).
    pose proof (zlen_nonneg ty). pose proof (venc_zlen (u64 (zlen ty)) (u64_range _)). lia. }
  assert (zlen (opt_varint 0 blobHeaderDataSize n) <= 20).
  { unfold opt_varint. destruct (negb (n =? 0)); [|vm_compute; discriminate]. rewrite zlen_app.
    pose proof (venc_zlen (MakeIdType blobHeaderDataSize PbVarInt) ltac:(vm_compute; split; discriminate || reflexivity)).
    pose proof (venc_zlen (u64 n) (u64_range _)). lia. }
  lia.
Qed.
Lemma write_frame_is hdr4 ty data : List.length hdr4 = 4%nat -> known_type ty -> bytes data -> zlen data < 2^31 ->
  exists fb, write_frame hdr4 ty data = Ok fb /\ is_frame fb ty data /\ bytes fb /\ (4 <= List.length fb)%nat.
Proof.
  intros H4 Hk Hb Hl. destruct (known_bytes ty Hk) as [Bt Lt].
  pose proof (zlen_nonneg data).
  rewrite write_frame_eq by assumption. rewrite s32_id by (unfold is_s32; lia).
  pose proof (bh_enc_len ty (zlen data) Lt) as Lh. pose proof (zlen_nonneg (bh_enc (mkBlobHeader ty (zlen data)))).
  rewrite u32_id by (unfold is_u32; lia).
  eexists. split; [reflexivity|].
  assert (BE : big_endian4 (be32_bytes (zlen (bh_enc (mkBlobHeader ty (zlen data))))) (zlen (bh_enc (mkBlobHeader ty (zlen data)))))
    by (apply be32_bytes_ok; unfold is_u32; lia).
  split; [|split; [|cbn; lia]].
  - do 2 eexists. split; [reflexivity|]. split; [exact BE|].
    intros e _. apply ReadBlobHeader_enc; cbn [bh_Type bh_DataSize]; [exact Bt|unfold is_s32; lia|lia].
  - unfold bytes. rewrite !Forall_app. split; [|split; [apply bh_bytes; exact Bt|exact Hb]].
    destruct BE as (a & b & c & d & -> & B & _). exact B.
Qed.

Lemma is_file_app f1 b1 f2 b2 : is_file f1 b1 -> is_file f2 b2 -> is_file (f1 ++ f2) (b1 ++ b2).
Proof.
  revert f1. induction b1 as [|[ty d] b1 IH]; intros f1 H1 H2; cbn [is_file app] in *.
  - subst. exact H2.
  - destruct H1 as (fb & r & -> & F & R). exists fb, (r ++ f2). rewrite <- app_assoc. auto.
Qed.
Lemma write_blocks_is skip bs : forall hdr4 acc blobs, List.length hdr4 = 4%nat ->
  is_file acc blobs -> bytes acc ->
  Forall (fun b => (known_type (blk_Type b) \/ skip = true /\ blk_Type b = bytes_of "Filler") /\
                   bytes (vis (blk_Data b)) /\ zlen (vis (blk_Data b)) < 2^31) bs ->
  exists file, write_blocks skip hdr4 bs acc = Ok file /\ bytes file /\
    is_file file (blobs ++ map (fun b => (blk_Type b, vis (blk_Data b)))
                             (filter (fun b => negb (skip && seqb (blk_Type b) (bytes_of "Filler"))) bs)).
Proof.
  induction bs as [|b bs IH]; intros hdr4 acc blobs H4 Ha Ba Hf; cbn [write_blocks filter].
  - exists acc. cbn [map]. rewrite app_nil_r. auto.
  - apply Forall_cons_iff in Hf as [(K & Hb & Hl) Hf]. fold tFiller.
    destruct (skip && seqb (blk_Type b) tFiller) eqn:Es; cbn [negb].
    + apply IH; assumption.
    + assert (Hk : known_type (blk_Type b)).
      { destruct K as [K|[-> K]]; [exact K|]. rewrite K in Es. discriminate. }
      destruct (write_frame_is hdr4 (blk_Type b) (vis (blk_Data b)) H4 Hk Hb Hl) as (fb & -> & F & Bf & L4). cbn [bind map].
      destruct (IH (firstn 4 fb) (acc ++ fb) (blobs ++ [(blk_Type b, vis (blk_Data b))])) as (file & E & B & I).
      * rewrite firstn_length. lia.
      * apply is_file_app; [exact Ha|]. cbn [is_file]. exists fb, []. rewrite app_nil_r. auto.
      * apply Forall_app; auto.
      * exact Hf.
      * exists file. rewrite <- app_assoc in I. auto.
Qed.

(** C34, writing: for every sequence of blocks (of types OSMHeader or OSMData, with less
    than 2^31 bytes each) the file written by the rewriter's writer is read back as the
    same sequence, renumbered in order; what the blocks' memory holds beyond their
    length does not matter. *)
Lemma pC34_rewriter_writer : forall bs,
  Forall (fun b => known_type (blk_Type b) /\ bytes (vis (blk_Data b)) /\ zlen (vis (blk_Data b)) < 2^31) bs ->
  exists file, rewriter_writer bs [] = Ok file /\
    is_file file (map (fun b => (blk_Type b, vis (blk_Data b))) bs) /\
    (zlen file < 2^63 -> exists bs', read_file file = Ok bs' /\
       map seen bs' = numbered (map (fun b => (blk_Type b, vis (blk_Data b))) bs)).
Proof.
  intros bs H. destruct (write_blocks_is false bs zero4 [] [] eq_refl eq_refl ltac:(constructor)) as (file & E & B & I).
  { eapply Forall_impl; [|exact H]. cbn. intuition. }
  replace (filter _ bs) with bs in I.
  2:{ clear. induction bs as [|b bs IH]; [reflexivity|]. cbn [filter]. cbn [negb andb]. f_equal. exact IH. }
  cbn [app] in I. exists file. split; [exact E|]. split; [exact I|]. intros Hl. apply pC34_split; try assumption.
  apply Forall_map. eapply Forall_impl; [|exact H]. cbn. intuition.
Qed.
(** C34, writing: the same for the tag filter's writer, which leaves out fillers. *)
Lemma pC34_tagfilter_writer : forall bs,
  Forall (fun b => (known_type (blk_Type b) \/ blk_Type b = bytes_of "Filler") /\
                   bytes (vis (blk_Data b)) /\ zlen (vis (blk_Data b)) < 2^31) bs ->
  let kept := map (fun b => (blk_Type b, vis (blk_Data b)))
                (filter (fun b => negb (seqb (blk_Type b) (bytes_of "Filler"))) bs) in
  exists file, tagfilter_writer bs [] = Ok file /\ is_file file kept /\
    (zlen file < 2^63 -> exists bs', read_file file = Ok bs' /\ map seen bs' = numbered kept).
Proof.
  intros bs H kept. destruct (write_blocks_is true bs zero4 [] [] eq_refl eq_refl ltac:(constructor)) as (file & E & B & I).
  { eapply Forall_impl; [|exact H]. cbn. intuition. }
  cbn [app andb] in I. fold kept in I.
  exists file. split; [exact E|]. split; [exact I|]. intros Hl. apply pC34_split; try assumption.
  unfold kept. apply Forall_map. apply Forall_forall. intros b Hin. apply filter_In in Hin as [Hin Hnf].
  eapply Forall_forall in H; [|exact Hin]. destruct H as [[K|K] _]; [exact K|]. rewrite K in Hnf. discriminate.
Qed.
Lemma pC34_ex :
  let bs := [mkBlk 7 (exact [1; 2]) (bytes_of "OSMHeader"); mkBlk 7 (mkslice [] [3]) (bytes_of "OSMData");
             mkBlk 0 (mkslice [3] [4; 5]) (bytes_of "OSMData")] in
  Forall (fun b => known_type (blk_Type b) /\ bytes (vis (blk_Data b)) /\ zlen (vis (blk_Data b)) < 2^31) bs /\
  exists file, rewriter_writer bs [] = Ok file /\ zlen file < 2^63 /\
    (bs' <- read_file file ;; Ok (map seen bs')) =
      Ok [(0, (bytes_of "OSMHeader", [1; 2])); (1, (bytes_of "OSMData", [])); (2, (bytes_of "OSMData", [3]))].
Proof.
  split.
  - unfold known_type, bytes, is_u8.
    repeat (apply Forall_cons; [cbn [blk_Type blk_Data exact vis]; split; [auto|split; [|vm_compute; reflexivity]];
      repeat (apply Forall_cons; [lia|]); apply Forall_nil|]). apply Forall_nil.
  - eexists. split; [vm_compute; reflexivity|]. split; [vm_compute; reflexivity|]. vm_compute. reflexivity.
Qed.

(** C35.  For every file: splitting it terminates; if it does not panic, the blocks
    account for every byte of the file, in order, and have known types. *)
Lemma pC35_total_and_exact : forall file, bytes file -> zlen file < 2^63 ->
  read_file file <> Diverge /\
  forall bs, read_file file = Ok bs ->
    exists blobs, covers file blobs /\ map seen bs = numbered blobs.
Proof.
  intros file Hb Hl. split; [|intros bs; apply read_file_inv; assumption].
  unfold read_file. pose proof (file_loop_total file Hb Hl (S (List.length file)) [] file 0 [] eq_refl ltac:(lia)) as T.
  change (zlen (@nil Z)) with 0 in T. destruct (loop _ _ _ _) as [[[? ?] ?]| |]; cbn [bind]; congruence.
Qed.

Lemma firstn_split {A} (l r : list A) k : firstn k (l ++ r) = l ++ firstn (k - List.length l) r \/
  exists s, s <> [] /\ l = firstn k l ++ s /\ firstn k (l ++ r) = firstn k l.
Proof.
  destruct (Nat.le_gt_cases (List.length l) k) as [H|H].
  - left. rewrite firstn_app, firstn_all2 by lia. reflexivity.
  - right. exists (skipn k l). split; [|split; [symmetry; apply firstn_skipn|]].
    + intros E. apply (f_equal (@List.length A)) in E. rewrite skipn_length in E. cbn in E. lia.
    + rewrite firstn_app. replace (k - List.length l)%nat with 0%nat by lia. rewrite firstn_O, app_nil_r. reflexivity.
Qed.
(** a prefix of a well-formed file that the splitter accepts is a number of whole frames *)
Lemma covers_prefix blobs : forall file k blobs', bytes file -> is_file file blobs -> covers (firstn k file) blobs' ->
  exists n, blobs' = firstn n blobs /\ is_file (firstn k file) (firstn n blobs).
Proof.
  induction blobs as [|[ty data] blobs IH]; intros file k blobs' Hb Hf Hc; cbn [is_file] in Hf.
  - subst file. rewrite firstn_nil in *. exists 0%nat. destruct blobs' as [|[ty' d'] b']; [split; reflexivity|].
    cbn [covers] in Hc. destruct Hc as (sz & hdr & r & E & He & _). apply big_endian4_len in He.
    destruct sz; [discriminate He|discriminate E].
  - destruct blobs' as [|[ty' d'] b'].
    + cbn [covers] in Hc. exists 0%nat. split; [reflexivity|exact Hc].
    + cbn [covers] in Hc. destruct Hc as (sz' & hdr' & r' & E & He' & Hh' & Hk' & Hc').
      destruct Hf as (fb & rest & -> & (sz & hdr & -> & He & Hh) & Hr).
      assert (Ex : exists t, (sz ++ hdr ++ data) ++ rest = (sz' ++ hdr' ++ d' ++ r') ++ t).
      { rewrite <- E. exists (skipn k ((sz ++ hdr ++ data) ++ rest)). symmetry. apply firstn_skipn. }
      destruct Ex as [t Ex]. rewrite <- !app_assoc in Ex.
      pose proof (big_endian4_len _ _ He) as L1. pose proof (big_endian4_len _ _ He') as L2.
      apply app_eq_len in Ex as [<- Ex]; [|lia].
      assert (Lh : zlen hdr = zlen hdr').
      { destruct He as (a & b & c & d & -> & _ & ->). destruct He' as (a' & b1 & c' & d1 & E1 & _ & ->).
        injection E1 as -> -> -> ->. reflexivity. }
      apply app_eq_len in Ex as [<- Ex]; [|exact Lh].
      rewrite <- !app_assoc in *.
      assert (Bt : bytes (d' ++ r')).
      { assert (B2 : bytes (firstn k (sz ++ hdr ++ data ++ rest))).
        { unfold bytes in *. rewrite <- (firstn_skipn k (sz ++ hdr ++ data ++ rest)), Forall_app in Hb. apply Hb. }
        rewrite E in B2. apply bytes_app_inv in B2 as [_ B2]. apply bytes_app_inv in B2 as [_ B2]. exact B2. }
      rewrite (Hh _ Bt) in Hh'. injection Hh' as <- Ld.
      apply app_eq_len in Ex as [<- Ex]; [|exact Ld].
      assert (E2 : firstn k (sz ++ hdr ++ data ++ rest) = sz ++ hdr ++ data ++ firstn (k - List.length (sz ++ hdr ++ data)) rest).
      { pose proof (firstn_split (sz ++ hdr ++ data) rest k) as [F|(s & Hs & F1 & F2)].
        - rewrite <- !app_assoc in F. exact F.
        - exfalso. rewrite <- !app_assoc in F2. rewrite E in F2.
          apply Hs. apply zlen_0. apply (f_equal zlen) in F1. apply (f_equal zlen) in F2. rewrite !zlen_app in *.
          pose proof (zlen_nonneg s). pose proof (zlen_nonneg r'). lia. }
      rewrite E2 in E.
      assert (Er : r' = firstn (k - List.length (sz ++ hdr ++ data)) rest).
      { apply app_inv_head in E. apply app_inv_head in E. apply app_inv_head in E. congruence. }
      rewrite Er in Hc'.
      destruct (IH rest (k - List.length (sz ++ hdr ++ data))%nat b') as (n & -> & I); [|exact Hr|exact Hc'|].
      { do 3 (apply bytes_app_inv in Hb as [_ Hb]). exact Hb. }
      exists (S n). cbn [firstn is_file]. split; [reflexivity|].
      exists (sz ++ hdr ++ data), (firstn (k - List.length (sz ++ hdr ++ data)) rest).
      split; [rewrite E2, <- !app_assoc; reflexivity|]. split; [|exact I].
      exists sz, hdr. split; [reflexivity|]. split; [exact He|exact Hh].
Qed.
(** C35.  A file of frames cut off anywhere: either the cut is between two frames, and
    exactly the blobs before it are delivered, or the splitter panics. *)
Lemma pC35_truncation : forall file blobs k,
  bytes file -> zlen file < 2^63 -> is_file file blobs ->
  (exists m, read_file (firstn k file) = Panic m) \/
  (exists bs n, read_file (firstn k file) = Ok bs /\ is_file (firstn k file) (firstn n blobs) /\
                map seen bs = numbered (firstn n blobs)).
Proof.
  intros file blobs k Hb Hl Hf.
  assert (Bk : bytes (firstn k file)).
  { unfold bytes in *. rewrite <- (firstn_skipn k file), Forall_app in Hb. apply Hb. }
  assert (Lk : zlen (firstn k file) < 2^63).
  { eapply Z.le_lt_trans; [|exact Hl]. unfold zlen. rewrite firstn_length. lia. }
  destruct (pC35_total_and_exact (firstn k file) Bk Lk) as [T X].
  destruct (read_file (firstn k file)) as [bs|m|]; [|left; eauto|congruence].
  right. destruct (X bs eq_refl) as (blobs' & Hc & M).
  destruct (covers_prefix blobs file k blobs' Hb Hf Hc) as (n & -> & I). exists bs, n. auto.
Qed.
(** C35.  A frame whose type is neither OSMHeader nor OSMData is rejected, wherever it
    is in the file. *)
Lemma pC35_unknown_type : forall file blobs,
  bytes file -> zlen file < 2^63 -> is_file file blobs -> ~ Forall (fun b => known_type (fst b)) blobs ->
  exists m, read_file file = Panic m.
Proof.
  intros file blobs Hb Hl Hf Hk. destruct (pC35_total_and_exact file Hb Hl) as [T X].
  destruct (read_file file) as [bs|m|]; [|eauto|congruence].
  exfalso. apply Hk. destruct (X bs eq_refl) as (blobs' & Hc & _).
  assert (F : firstn (List.length file) file = file) by apply firstn_all. rewrite <- F in Hc.
  destruct (covers_prefix blobs file _ blobs' Hb Hf Hc) as (n & -> & I). rewrite F in I, Hc.
  clear -Hc I Hf Hb. revert n file Hb Hc I Hf. induction blobs as [|[ty d] blobs IH]; intros n file Hb Hc I Hf; [constructor|].
  destruct n as [|n]; cbn [firstn covers is_file] in *.
  - subst file. destruct Hf as (fb & r & E & (sz & hdr & -> & He & _) & _). apply big_endian4_len in He.
    destruct sz; [discriminate He|discriminate E].
  - destruct Hc as (sz & hdr & r & E & He & Hh & Hk & Hc). constructor; [exact Hk|].
    destruct Hf as (fb & rest & E1 & (sz1 & hdr1 & -> & He1 & Hh1) & Hf).
    destruct I as (fb2 & rest2 & E2 & (sz2 & hdr2 & -> & He2 & Hh2) & I).
    assert (Eq : forall s1 h1 r1 s2 h2 r2, big_endian4 s1 (zlen h1) -> big_endian4 s2 (zlen h2) ->
      s1 ++ h1 ++ d ++ r1 = s2 ++ h2 ++ d ++ r2 -> r1 = r2).
    { intros s1 h1 r1 s2 h2 r2 B1 B2 Q. pose proof (big_endian4_len _ _ B1). pose proof (big_endian4_len _ _ B2).
      apply app_eq_len in Q as [<- Q]; [|lia]. apply app_eq_len in Q as [<- Q].
      - apply app_inv_head in Q. exact Q.
      - destruct B1 as (a & b & c & d1 & -> & _ & ->). destruct B2 as (a' & b1 & c' & d2 & X1 & _ & ->).
        injection X1 as -> -> -> ->. reflexivity. }
    assert (r = rest) by (apply (Eq sz hdr r sz1 hdr1 rest); auto; rewrite <- E, E1, <- !app_assoc; reflexivity).
    assert (r = rest2) by (apply (Eq sz hdr r sz2 hdr2 rest2); auto; rewrite <- E, E2, <- !app_assoc; reflexivity).
    subst rest rest2. apply (IH n r); auto. rewrite E in Hb. do 3 (apply bytes_app_inv in Hb as [_ Hb]). exact Hb.
Qed.
Lemma pC35_ex :
  let file := [0; 0; 0; 13; 10; 9] ++ bytes_of "OSMHeader" ++ [24; 2; 7; 8] in
  bytes file /\ is_file file [(bytes_of "OSMHeader", [7; 8])] /\
  (bs <- read_file file ;; Ok (map seen bs)) = Ok [(0, (bytes_of "OSMHeader", [7; 8]))] /\
  read_file (firstn 18 file) = Panic SliceOutOfRange /\ read_file (firstn 3 file) = Panic IndexOutOfRange /\
  read_file ([0; 0; 0; 7; 10; 3] ++ bytes_of "FOO" ++ [24; 0]) = Panic (PanicMsg "bh.Type").
Proof.
  cbn zeta. split; [|split; [|split; [vm_compute; reflexivity|split; [vm_compute; reflexivity|split; vm_compute; reflexivity]]]].
  - unfold bytes, is_u8. vm_compute bytes_of. cbn [app]. repeat (apply Forall_cons; [lia|]). apply Forall_nil.
  - cbn [is_file]. exists ([0; 0; 0; 13; 10; 9] ++ bytes_of "OSMHeader" ++ [24; 2; 7; 8]), []. split; [reflexivity|]. split; [|reflexivity].
    exists [0; 0; 0; 13], (bh_enc (mkBlobHeader (bytes_of "OSMHeader") 2)). split; [reflexivity|]. split.
    + exists 0, 0, 0, 13. split; [reflexivity|]. split; [|vm_compute; reflexivity].
      unfold bytes, is_u8. repeat (apply Forall_cons; [lia|]). apply Forall_nil.
    + intros e _. apply ReadBlobHeader_enc; cbn [bh_Type bh_DataSize]; [apply known_bytes; left; reflexivity|vm_compute; split; discriminate || reflexivity|vm_compute; reflexivity].
Qed.
