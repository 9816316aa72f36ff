(** * FrProofs: framing. *)
From Verif Require Import Base BaseLemmas PbModel PbSpec PbProofs PbProofs2 TModel TSpec TProofs TMsg TMsg2 T2Proofs T2Thms HLModel HLProofs FrModel FrSpec.

Lemma bytes_app_inv a b : bytes (a ++ b) -> bytes a /\ bytes b.
Proof. apply Forall_app. Qed.

Lemma big_endian4_get sz n r : big_endian4 sz n -> be32_get (sz ++ r) = Ok n.
Proof. intros (b0 & b1 & b2 & b3 & -> & _ & ->). cbn. f_equal. lia. Qed.
Lemma big_endian4_len sz n : big_endian4 sz n -> zlen sz = 4.
Proof. intros (b0 & b1 & b2 & b3 & -> & _). reflexivity. Qed.
Lemma big_endian4_bound sz n : big_endian4 sz n -> 0 <= n < 2^32.
Proof.
  intros (b0 & b1 & b2 & b3 & -> & H & ->). unfold bytes in H. rewrite !Forall_cons_iff in H.
  unfold is_u8 in H. lia.
Qed.
Lemma be32_bytes_ok v : is_u32 v -> big_endian4 (be32_bytes v) v.
Proof.
  intros H. unfold be32_bytes, big_endian4, u8. do 4 eexists. split; [reflexivity|]. split.
  - unfold bytes. repeat constructor; apply u8_range.
  - rewrite !Z.shiftr_div_pow2 by lia. unfold is_u32 in H.
    pose proof (Z.div_mod v (2^8) ltac:(lia)). pose proof (Z.div_mod (v / 2^8) (2^8) ltac:(lia)).
    pose proof (Z.div_mod (v / 2^16) (2^8) ltac:(lia)).
    rewrite Z.div_div in * by lia.
    change (2^8 * 2^8) with (2^16) in *.
    replace (v / 2^16 / 2^8) with (v / 2^24) in * by (rewrite Z.div_div by lia; reflexivity).
    assert (v / 2^24 mod 2^8 = v / 2^24).
    { apply Z.mod_small. split; [apply Z.div_pos; lia|]. apply Z.div_lt_upper_bound; lia. }
    lia.
Qed.

Lemma exact_slice pre mid post :
  sslice (exact (pre ++ mid ++ post)) (zlen pre) (zlen pre + zlen mid) = Ok (mkslice mid post).
Proof.
  rewrite (sslice_mid (exact (pre ++ mid ++ post)) pre mid post eq_refl). cbn. rewrite app_nil_r. reflexivity.
Qed.

Lemma known_seqb ty : known_type ty -> negb (seqb ty tOSMHeader) && negb (seqb ty tOSMData) = false.
Proof.
  intros [->| ->].
  - reflexivity.
  - reflexivity.
Qed.
Lemma known_seqb_inv ty : negb (seqb ty tOSMHeader) && negb (seqb ty tOSMData) = false -> known_type ty.
Proof.
  unfold known_type. destruct (seqb_spec ty tOSMHeader) as [->|]; [left; reflexivity|].
  destruct (seqb_spec ty tOSMData) as [->|]; [right; reflexivity|discriminate].
Qed.

(** one frame in the middle of a file *)
Lemma read_frame_ok pre sz hdr data post ty :
  big_endian4 sz (zlen hdr) ->
  ReadBlobHeader (mkslice hdr (data ++ post)) = Ok (mkBlobHeader ty (zlen data)) ->
  known_type ty -> zlen (pre ++ sz ++ hdr ++ data ++ post) < 2^63 ->
  read_frame (pre ++ sz ++ hdr ++ data ++ post) (zlen pre) =
  Ok (ty, mkslice data post, zlen (pre ++ sz ++ hdr ++ data)).
Proof.
  intros Hs Hh Hk Hl. unfold read_frame.
  set (file := pre ++ sz ++ hdr ++ data ++ post) in *.
  pose proof (big_endian4_len _ _ Hs) as Ls.
  pose proof (zlen_nonneg pre). pose proof (zlen_nonneg hdr). pose proof (zlen_nonneg data). pose proof (zlen_nonneg post).
  assert (Lf : zlen file = zlen pre + 4 + zlen hdr + zlen data + zlen post).
  { unfold file. rewrite !zlen_app, Ls. lia. }
  assert (E1 : sslice (exact file) (zlen pre) (zlen file) = Ok (mkslice (sz ++ hdr ++ data ++ post) [])).
  { replace (zlen file) with (zlen pre + zlen (sz ++ hdr ++ data ++ post)) by (rewrite !zlen_app, Lf, Ls; lia).
    pose proof (exact_slice pre (sz ++ hdr ++ data ++ post) []) as X. rewrite app_nil_r in X. exact X. }
  rewrite E1. cbn [bind vis]. rewrite (big_endian4_get _ _ _ Hs). cbn [bind].
  rewrite !(u64_id (zlen pre + 4)) by (unfold is_u64; lia).
  rewrite !(u64_id (zlen pre + 4 + zlen hdr)) by (unfold is_u64; lia).
  assert (E2 : sslice (exact file) (zlen pre + 4) (zlen pre + 4 + zlen hdr) = Ok (mkslice hdr (data ++ post))).
  { pose proof (exact_slice (pre ++ sz) hdr (data ++ post)) as X. rewrite zlen_app, Ls, <- app_assoc in X. exact X. }
  rewrite E2. cbn [bind]. rewrite Hh. cbn [bind bh_Type bh_DataSize]. rewrite known_seqb by assumption.
  rewrite (u64_id (zlen data)) by (unfold is_u64; lia).
  rewrite !u64_id by (unfold is_u64; lia).
  assert (E3 : sslice (exact file) (zlen pre + 4 + zlen hdr) (zlen pre + 4 + zlen hdr + zlen data) = Ok (mkslice data post)).
  { pose proof (exact_slice (pre ++ sz ++ hdr) data post) as X. rewrite !zlen_app, Ls, <- !app_assoc in X.
    rewrite <- X. f_equal; lia. }
  rewrite E3. cbn [bind]. rewrite !zlen_app, Ls. do 2 f_equal. lia.
Qed.

Lemma ReadBlobHeader_size b bh : ReadBlobHeader b = Ok bh -> is_s32 (bh_DataSize bh).
Proof.
  unfold ReadBlobHeader, read_msg, read_fuel. intros H.
  destruct (loop _ _ _ _) as [[n st]| |] eqn:E; try discriminate. cbn [bind] in H. injection H as <-.
  apply (loop_inv (fun s : Z * BlobHeader => is_s32 (bh_DataSize (snd s)))) in E; [exact (proj1 E)| |unfold is_s32; cbn; lia].
  intros [nx s] [nx' s'] Hi _ Hb. unfold msg_body in Hb.
  destruct (DecodeVarInt b nx) as [[id k]| |]; try discriminate. cbn [bind] in Hb.
  unfold bh_handler in Hb. destruct (id =? _).
  - destruct (DecodeString b k) as [[? ?]| |]; try discriminate. cbn [bind] in Hb. injection Hb as <- <-. exact Hi.
  - destruct (id =? _); [|discriminate]. unfold DecodeI32 in Hb. destruct (DecodeVarInt b k) as [[v k']| |]; try discriminate.
    cbn [bind] in Hb. injection Hb as <- <-. cbn. apply s32_range.
Qed.

(** what a successful read of one frame means *)
Lemma sslice_split file i j out : sslice (exact file) i j = Ok out ->
  exists pre, file = pre ++ vis out ++ ext out /\ zlen pre = i /\ zlen (vis out) = j - i.
Proof.
  intros H. pose proof H as H'. apply sslice_ok in H' as (H1 & H2 & H3).
  unfold sslice in H. destruct (_ && _); [|discriminate]. injection H as <-. cbn [vis ext exact] in *.
  unfold scap, slen in H2. cbn in H2. rewrite app_nil_r in *.
  exists (firstn (Z.to_nat i) file). split; [|split; [unfold zlen; rewrite firstn_length; lia|exact H3]].
  rewrite <- (firstn_skipn (Z.to_nat i) file) at 1. f_equal.
  rewrite <- (firstn_skipn (Z.to_nat (j - i)) (skipn (Z.to_nat i) file)) at 1. f_equal.
  replace (Z.to_nat j) with (Z.to_nat (j - i) + Z.to_nat i)%nat by lia.
  clear. generalize (Z.to_nat i), (Z.to_nat (j - i)). intros a b. revert file.
  induction a as [|a IH]; intros file; [rewrite Nat.add_0_r; reflexivity|].
  destruct file as [|x file]; [rewrite !skipn_nil; reflexivity|].
  rewrite Nat.add_succ_r. cbn [skipn]. apply IH.
Qed.
Lemma app_eq_len {A} (a b c d : list A) : a ++ b = c ++ d -> zlen a = zlen c -> a = c /\ b = d.
Proof.
  revert c. induction a as [|x a IH]; intros [|y c] E L; cbn in E; auto.
  - rewrite zlen_cons in L. pose proof (zlen_nonneg c). change (zlen []) with 0 in L. lia.
  - rewrite zlen_cons in L. pose proof (zlen_nonneg a). change (zlen []) with 0 in L. lia.
  - injection E as -> E. rewrite !zlen_cons in L. destruct (IH c E ltac:(lia)) as [-> ->]. auto.
Qed.
Lemma read_frame_inv pre rest ty data at' :
  bytes (pre ++ rest) -> zlen (pre ++ rest) < 2^63 ->
  read_frame (pre ++ rest) (zlen pre) = Ok (ty, data, at') ->
  exists sz hdr, rest = sz ++ hdr ++ vis data ++ ext data /\ big_endian4 sz (zlen hdr) /\
    ReadBlobHeader (mkslice hdr (vis data ++ ext data)) = Ok (mkBlobHeader ty (zlen (vis data))) /\
    known_type ty /\ at' = zlen (pre ++ sz ++ hdr ++ vis data).
Proof.
  intros Hb Hl H. unfold read_frame in H.
  set (file := pre ++ rest) in *.
  pose proof (zlen_nonneg pre). pose proof (zlen_nonneg rest).
  assert (Lf : zlen file = zlen pre + zlen rest) by (unfold file; apply zlen_app).
  assert (E1 : sslice (exact file) (zlen pre) (zlen file) = Ok (mkslice rest [])).
  { rewrite Lf. pose proof (exact_slice pre rest []) as X. rewrite app_nil_r in X. exact X. }
  rewrite E1 in H. cbn [bind vis] in H.
  destruct rest as [|b0 [|b1 [|b2 [|b3 r]]]]; try discriminate. cbn [be32_get bind] in H.
  set (n := b3 + 2^8 * b2 + 2^16 * b1 + 2^24 * b0) in *.
  assert (Hbe : big_endian4 [b0; b1; b2; b3] n).
  { exists b0, b1, b2, b3. split; [reflexivity|]. apply bytes_app_inv in Hb as [_ Hb].
    change (b0 :: b1 :: b2 :: b3 :: r) with ([b0; b1; b2; b3] ++ r) in Hb. apply bytes_app_inv in Hb as [Hb _].
    split; [exact Hb|]. unfold n. lia. }
  pose proof (big_endian4_bound _ _ Hbe) as Bn.
  change (zlen (b0 :: b1 :: b2 :: b3 :: r)) with (zlen ([b0; b1; b2; b3] ++ r)) in Lf. rewrite zlen_app in Lf.
  change (zlen [b0; b1; b2; b3]) with 4 in Lf. pose proof (zlen_nonneg r).
  rewrite !(u64_id (zlen pre + 4)) in H by (unfold is_u64; lia).
  rewrite !(u64_id (zlen pre + 4 + n)) in H by (unfold is_u64; lia).
  destruct (sslice (exact file) (zlen pre + 4) (zlen pre + 4 + n)) as [hb| |] eqn:E2; try discriminate.
  cbn [bind] in H.
  destruct (ReadBlobHeader hb) as [bh| |] eqn:E3; try discriminate. cbn [bind] in H.
  destruct (negb (seqb (bh_Type bh) tOSMHeader) && negb (seqb (bh_Type bh) tOSMData)) eqn:Ek; [discriminate|].
  destruct (sslice (exact file) (zlen pre + 4 + n) (u64 (zlen pre + 4 + n + u64 (bh_DataSize bh)))) as [d| |] eqn:E4; try discriminate.
  cbn [bind] in H. injection H as <- <- <-.
  apply sslice_split in E2 as (p2 & F2 & L2 & V2).
  apply sslice_split in E4 as (p4 & F4 & L4 & V4).
  assert (P2 : p2 = pre ++ [b0; b1; b2; b3] /\ vis hb ++ ext hb = r).
  { assert (Q : (pre ++ [b0; b1; b2; b3]) ++ r = p2 ++ (vis hb ++ ext hb)) by (rewrite <- F2; unfold file; rewrite <- app_assoc; reflexivity).
    apply app_eq_len in Q as [<- <-]; [auto|]. rewrite zlen_app, L2. reflexivity. }
  destruct P2 as [-> Hr].
  assert (P4 : p4 = pre ++ [b0; b1; b2; b3] ++ vis hb /\ vis d ++ ext d = ext hb).
  { assert (Q : (pre ++ [b0; b1; b2; b3] ++ vis hb) ++ ext hb = p4 ++ (vis d ++ ext d)).
    { rewrite <- F4, F2. rewrite <- !app_assoc. reflexivity. }
    apply app_eq_len in Q as [<- <-]; [auto|]. rewrite !zlen_app, L4, V2. change (zlen [b0; b1; b2; b3]) with 4. lia. }
  destruct P4 as [-> Hd].
  exists [b0; b1; b2; b3], (vis hb).
  split; [rewrite Hd, Hr; reflexivity|].
  split; [replace (zlen (vis hb)) with n by lia; exact Hbe|].
  assert (Du : zlen (vis d) = u64 (bh_DataSize bh) /\ u64 (zlen pre + 4 + n + u64 (bh_DataSize bh)) = zlen pre + 4 + n + u64 (bh_DataSize bh)).
  { assert (Ld : zlen file = zlen pre + 4 + n + zlen (vis d) + zlen (ext d)).
    { rewrite F4 at 1. rewrite !zlen_app. change (zlen [b0; b1; b2; b3]) with 4. lia. }
    pose proof (zlen_nonneg (vis d)). pose proof (zlen_nonneg (ext d)).
    pose proof (u64_range (bh_DataSize bh)) as R. unfold is_u64 in R.
    destruct (Z.lt_ge_cases (zlen pre + 4 + n + u64 (bh_DataSize bh)) (2^64)) as [L|L].
    - rewrite (u64_id (zlen pre + 4 + n + u64 (bh_DataSize bh))) in * by (unfold is_u64; lia). split; [lia|reflexivity].
    - exfalso. assert (u64 (zlen pre + 4 + n + u64 (bh_DataSize bh)) = zlen pre + 4 + n + u64 (bh_DataSize bh) - 2^64).
      { unfold u64 at 1. symmetry. apply Z.mod_unique with 1; lia. }
      lia. }
  destruct Du as [D1 D2].
  split; [|split; [apply known_seqb_inv; exact Ek|]].
  - rewrite Hd. destruct hb as [v e]. cbn [vis ext] in *. rewrite E3. destruct bh as [bt bs]. cbn [bh_Type bh_DataSize] in *.
    f_equal. f_equal. pose proof (ReadBlobHeader_size _ _ E3) as Bs. cbn in Bs.
    assert (u64 bs < 2^63).
    { rewrite <- D1. eapply Z.le_lt_trans; [|exact Hl]. fold file. rewrite F4. rewrite !zlen_app.
      pose proof (zlen_nonneg (ext d)). pose proof (zlen_nonneg v). change (zlen [b0; b1; b2; b3]) with 4. lia. }
    rewrite u64_alt in * by (unfold is_s32, is_s64 in *; lia). unfold is_s32 in Bs.
    destruct (Z.ltb_spec bs 0); lia.
  - rewrite !zlen_app. change (zlen [b0; b1; b2; b3]) with 4. lia.
Qed.

Lemma covers_len rest blobs : covers rest blobs -> 4 * zlen blobs <= zlen rest.
Proof.
  revert rest. induction blobs as [|[ty data] blobs IH]; intros rest; cbn [covers].
  - intros ->. reflexivity.
  - intros (sz & hdr & r & -> & Hs & _ & _ & Hc). specialize (IH _ Hc). rewrite zlen_cons, !zlen_app.
    rewrite (big_endian4_len _ _ Hs). pose proof (zlen_nonneg hdr). pose proof (zlen_nonneg data). lia.
Qed.

Lemma numbered_app {A} (l1 l2 : list A) : numbered (l1 ++ l2) =
  numbered l1 ++ combine (map (fun k => Z.of_nat (List.length l1 + k)) (seq 0 (List.length l2))) l2.
Proof.
  unfold numbered. rewrite app_length, seq_app, map_app, Nat.add_0_l.
  replace (map Z.of_nat (seq (List.length l1) (List.length l2)))
    with (map (fun k => Z.of_nat (List.length l1 + k)) (seq 0 (List.length l2))).
  - generalize (map (fun k => Z.of_nat (List.length l1 + k)) (seq 0 (List.length l2))). intros m.
    assert (L : List.length (map Z.of_nat (seq 0 (List.length l1))) = List.length l1) by (rewrite map_length, seq_length; reflexivity).
    revert L. generalize (map Z.of_nat (seq 0 (List.length l1))). intros k. revert l1.
    induction k as [|x k IH]; intros [|y l1] L; try discriminate; cbn; [reflexivity|]. f_equal. apply IH. cbn in L; lia.
  - rewrite <- (map_map (fun k => (List.length l1 + k)%nat) Z.of_nat). f_equal.
    clear. generalize (List.length l1), (List.length l2). intros a b. revert a. induction b as [|b IH]; intros a; [reflexivity|].
    cbn [seq map]. rewrite Nat.add_0_r. f_equal. rewrite <- seq_shift, map_map. rewrite <- (IH (S a)).
    apply map_ext. intros. lia.
Qed.
Lemma numbered_snoc {A} (l : list A) a : numbered (l ++ [a]) = numbered l ++ [(zlen l, a)].
Proof. rewrite numbered_app. cbn. rewrite Nat.add_0_r. reflexivity. Qed.
Lemma numbered_length {A} (l : list A) : List.length (numbered l) = List.length l.
Proof. unfold numbered. rewrite combine_length, map_length, seq_length, Nat.min_id. reflexivity. Qed.

Lemma file_loop_ok file : zlen file < 2^63 -> forall blobs pre rest done_ sent fuel,
  file = pre ++ rest -> covers rest blobs ->
  map seen sent = numbered done_ -> 4 * zlen done_ <= zlen pre ->
  (List.length rest < fuel)%nat ->
  exists at' i' sent', loop fuel (file_cond file) (file_body file) (zlen pre, zlen done_, sent) = Ok (at', i', sent') /\
    map seen sent' = numbered (done_ ++ blobs).
Proof.
  intros Hl. induction blobs as [|[ty data] blobs IH]; intros pre rest done_ sent fuel Hf Hc Hs Hd Hfu; cbn [covers] in Hc.
  - subst rest. rewrite app_nil_r in Hf. subst pre.
    exists (zlen file), (zlen done_), sent. rewrite app_nil_r. split; [|exact Hs].
    destruct fuel as [|fuel]; [lia|]. cbn [loop]. unfold file_cond. rewrite Z.ltb_irrefl. reflexivity.
  - destruct Hc as (sz & hdr & r & -> & He & Hh & Hk & Hc).
    pose proof (big_endian4_len _ _ He) as Ls.
    destruct fuel as [|fuel]; [lia|]. cbn [loop].
    pose proof (zlen_nonneg hdr). pose proof (zlen_nonneg data). pose proof (zlen_nonneg r). pose proof (zlen_nonneg pre).
    assert (Lf : zlen file = zlen pre + 4 + zlen hdr + zlen data + zlen r) by (rewrite Hf, !zlen_app, Ls; lia).
    unfold file_cond at 1. destruct (Z.ltb_spec (zlen pre) (zlen file)); [|lia].
    unfold file_body at 1.
    pose proof (read_frame_ok pre sz hdr data r ty He Hh Hk ltac:(rewrite <- Hf; exact Hl)) as RF. rewrite <- Hf in RF.
    rewrite RF.
    cbn [bind].
    destruct (IH (pre ++ sz ++ hdr ++ data) r (done_ ++ [(ty, data)]) (sent ++ [mkBlk (zlen done_) (mkslice data r) ty]) fuel)
      as (at' & i' & sent' & E & M).
    + rewrite Hf, <- !app_assoc. reflexivity.
    + exact Hc.
    + rewrite map_app, numbered_snoc, Hs. reflexivity.
    + rewrite !zlen_app, Ls. change (zlen [(ty, data)]) with 1. lia.
    + rewrite !app_length in Hfu. assert (0 < List.length sz)%nat by (unfold zlen in Ls; lia). lia.
    + exists at', i', sent'. split; [|rewrite M, <- app_assoc; reflexivity].
      replace (u64 (zlen done_ + 1)) with (zlen (done_ ++ [(ty, data)])).
      2:{ rewrite zlen_app. change (zlen [(ty, data)]) with 1. pose proof (zlen_nonneg done_).
          rewrite u64_id by (unfold is_u64; lia). reflexivity. }
      exact E.
Qed.
Lemma read_file_ok file blobs : zlen file < 2^63 -> covers file blobs ->
  exists bs, read_file file = Ok bs /\ map seen bs = numbered blobs.
Proof.
  intros Hl Hc. destruct (file_loop_ok file Hl blobs [] file [] [] (S (List.length file)) eq_refl Hc eq_refl ltac:(reflexivity) ltac:(lia))
    as (at' & i' & bs & E & M).
  exists bs. split; [|exact M]. unfold read_file. change (zlen (@nil Z)) with 0 in E. change (zlen (@nil (list Z * list Z))) with 0 in E.
  rewrite E. reflexivity.
Qed.

Lemma file_loop_inv file : bytes file -> zlen file < 2^63 -> forall fuel pre rest done_ sent at' i' sent',
  file = pre ++ rest -> map seen sent = numbered done_ -> 4 * zlen done_ <= zlen pre ->
  loop fuel (file_cond file) (file_body file) (zlen pre, zlen done_, sent) = Ok (at', i', sent') ->
  exists blobs, covers rest blobs /\ map seen sent' = numbered (done_ ++ blobs).
Proof.
  intros Hb Hl. induction fuel as [|fuel IH]; intros pre rest done_ sent at' i' sent' Hf Hs Hd H; cbn [loop] in H;
    unfold file_cond at 1 in H; pose proof (zlen_nonneg rest).
  - destruct (Z.ltb_spec (zlen pre) (zlen file)) as [|Hge]; [discriminate|]. injection H as <- <- <-.
    exists []. rewrite app_nil_r. split; [|exact Hs]. cbn. apply zlen_0. rewrite Hf, zlen_app in Hge. lia.
  - destruct (Z.ltb_spec (zlen pre) (zlen file)) as [|Hge].
    2:{ injection H as <- <- <-.
        exists []. rewrite app_nil_r. split; [|exact Hs]. cbn. apply zlen_0. rewrite Hf, zlen_app in Hge. lia. }
    unfold file_body at 1 in H.
    destruct (read_frame file (zlen pre)) as [[[ty data] at1]| |] eqn:E; try discriminate. cbn [bind] in H.
    rewrite Hf in E. apply read_frame_inv in E as (sz & hdr & Hr & He & Hh & Hk & ->); [|rewrite <- Hf; assumption..].
    pose proof (big_endian4_len _ _ He) as Ls.
    pose proof (zlen_nonneg pre). pose proof (zlen_nonneg hdr). pose proof (zlen_nonneg (vis data)). pose proof (zlen_nonneg done_).
    assert (zlen pre + 4 <= zlen file) by (rewrite Hf, Hr, !zlen_app, Ls; pose proof (zlen_nonneg (ext data)); lia).
    replace (u64 (zlen done_ + 1)) with (zlen (done_ ++ [(ty, vis data)])) in H.
    2:{ rewrite zlen_app. change (zlen [(ty, vis data)]) with 1. rewrite u64_id by (unfold is_u64; lia). reflexivity. }
    apply (IH _ (ext data)) in H as (blobs & Hc & M).
    + exists ((ty, vis data) :: blobs). split; [|rewrite M, <- app_assoc; reflexivity].
      cbn [covers]. exists sz, hdr, (ext data). auto.
    + rewrite Hf, Hr, <- !app_assoc. reflexivity.
    + rewrite map_app, numbered_snoc, Hs. reflexivity.
    + rewrite !zlen_app, Ls. change (zlen [(ty, vis data)]) with 1. lia.
Qed.
Lemma read_file_inv file bs : bytes file -> zlen file < 2^63 -> read_file file = Ok bs ->
  exists blobs, covers file blobs /\ map seen bs = numbered blobs.
Proof.
  intros Hb Hl H. unfold read_file in H.
  destruct (loop _ _ _ _) as [[[at' i'] sent']| |] eqn:E; try discriminate. cbn [bind] in H. injection H as <-.
  apply (file_loop_inv file Hb Hl _ [] file [] [] at' i' sent' eq_refl eq_refl ltac:(reflexivity) E).
Qed.

Lemma sslice_all b i j out : sslice b i j = Ok out -> exists pre, vis b ++ ext b = pre ++ vis out ++ ext out.
Proof.
  intros H. pose proof H as H'. apply sslice_ok in H' as (H1 & H2 & H3).
  assert (X : sslice (exact (vis b ++ ext b)) i j = Ok out).
  { unfold sslice in *. destruct ((0 <=? i) && (i <=? j) && (j <=? scap b)) eqn:E; [|discriminate].
    unfold scap, slen in E. cbn [vis ext exact]. unfold scap, slen. cbn [vis ext exact List.length]. rewrite app_length, app_nil_r.
    replace ((0 <=? i) && (i <=? j) && (j <=? Z.of_nat (List.length (vis b) + List.length (ext b)) + Z.of_nat 0)) with true by lia.
    exact H. }
  apply sslice_split in X as (pre & -> & _). eauto.
Qed.
Lemma read_frame_total pre rest : bytes (pre ++ rest) -> zlen (pre ++ rest) < 2^63 ->
  read_frame (pre ++ rest) (zlen pre) <> Diverge.
Proof.
  intros Hb Hl H. unfold read_frame in H.
  destruct (sslice (exact (pre ++ rest)) (zlen pre) (zlen (pre ++ rest))) as [h| |] eqn:E1; try discriminate;
    [|unfold sslice in E1; destruct (_ && _); discriminate].
  cbn [bind] in H. destruct (be32_get (vis h)) as [n| |] eqn:E2; try discriminate;
    [|unfold be32_get in E2; destruct (vis h) as [|? [|? [|? [|? ?]]]]; discriminate].
  cbn [bind] in H.
  destruct (sslice (exact (pre ++ rest)) (u64 (zlen pre + 4)) _) as [hb| |] eqn:E3; try discriminate;
    [|unfold sslice in E3; destruct (_ && _); discriminate].
  cbn [bind] in H.
  assert (G : go_slice hb).
  { apply sslice_all in E3 as (p & E3). cbn in E3. rewrite app_nil_r in E3. rewrite E3 in Hb, Hl.
    apply bytes_app_inv in Hb as [_ Hb]. apply bytes_app_inv in Hb as [Hb1 Hb2]. rewrite zlen_app in Hl. pose proof (zlen_nonneg p).
    split; [exact Hb1|]. split; [exact Hb2|].
    unfold scap, slen. rewrite zlen_app in Hl. unfold zlen in Hl. lia. }
  destruct (ReadBlobHeader hb) as [bh| |] eqn:E4; try discriminate.
  - cbn [bind] in H. destruct (_ && _) in H; [discriminate|].
    destruct (sslice (exact (pre ++ rest)) _ _) as [hb2| |] eqn:E5 in H; try discriminate.
    unfold sslice in E5; destruct (_ && _) in E5; discriminate.
  - exact (proj1 (proj2 (pC11_readers_terminate_partial hb G)) E4).
Qed.
Lemma file_loop_total file : bytes file -> zlen file < 2^63 -> forall fuel pre rest done_ sent,
  file = pre ++ rest -> (List.length rest < fuel)%nat ->
  loop fuel (file_cond file) (file_body file) (zlen pre, done_, sent) <> Diverge.
Proof.
  intros Hb Hl. induction fuel as [|fuel IH]; intros pre rest done_ sent Hf Hlt; [lia|].
  cbn [loop]. destruct (file_cond file _) eqn:Ec; [|discriminate].
  unfold file_body at 1.
  destruct (read_frame file (zlen pre)) as [[[ty data] at1]| |] eqn:E; cbn [bind].
  - rewrite Hf in E. apply read_frame_inv in E as (sz & hdr & Hr & He & Hh & Hk & ->); [|rewrite <- Hf; assumption..].
    apply (IH _ (ext data)); [rewrite Hf, Hr, <- !app_assoc; reflexivity|].
    pose proof (big_endian4_len _ _ He) as Ls. unfold zlen in Ls. rewrite Hr, !app_length in Hlt. lia.
  - discriminate.
  - exfalso. revert E. rewrite Hf. apply read_frame_total; rewrite <- Hf; assumption.
Qed.

(** ** writers *)
Lemma write_frame_eq hdr4 ty data : List.length hdr4 = 4%nat ->
  write_frame hdr4 ty data =
  Ok (be32_bytes (u32 (zlen (bh_enc (mkBlobHeader ty (s32 (zlen data)))))) ++ bh_enc (mkBlobHeader ty (s32 (zlen data))) ++ data).
Proof.
  intros H. unfold write_frame. rewrite BlobHeader_Write_eq.
  destruct hdr4 as [|a [|b [|c [|d [|]]]]]; try discriminate. cbn [app be32_put bind].
  rewrite <- app_assoc. do 4 f_equal.
  rewrite !zlen_cons. f_equal. lia.
Qed.
