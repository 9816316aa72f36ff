(** * IoThms: writes, copies and words (C68-C70). *)
From Verif Require Import Base PbSpec IoModel IoSpec.
From Verif Require Import BaseLemmas.

Lemma clip_bounds n hi : 0 <= hi -> 0 <= clip n hi <= hi.
Proof. unfold clip. lia. Qed.
Lemma put_at_end f c : at_end f -> f_data (f_put f c) = f_data f ++ c /\ at_end (f_put f c).
Proof.
  unfold at_end, f_put. cbn [f_data f_pos]. intros ->.
  replace (Z.to_nat (zlen (f_data f))) with (List.length (f_data f)) by (unfold zlen; lia).
  rewrite firstn_all. rewrite skipn_all2 by lia. rewrite app_nil_r. split; [reflexivity|]. rewrite zlen_app. reflexivity.
Qed.
Lemma zlen_firstn {A} (l : list A) n : 0 <= n <= zlen l -> zlen (firstn (Z.to_nat n) l) = n.
Proof. intros H. unfold zlen in *. rewrite firstn_length. lia. Qed.
Lemma zlen_skipn {A} (l : list A) n : 0 <= n <= zlen l -> zlen (skipn (Z.to_nat n) l) = zlen l - n.
Proof. intros H. unfold zlen in *. rewrite skipn_length. lia. Qed.

Lemma fwrite_spec o : forall fuel k f buf, at_end f -> (List.length buf < fuel)%nat ->
  exists k' f' r, fwrite_loop fuel o k f (zlen buf) buf = (k', f', r) /\ at_end f' /\
  exists a b, buf = a ++ b /\ f_data f' = f_data f ++ a /\
    match r with Ok _ => b = [] | Panic p => p = IOError \/ p = PanicMsg "zero write" | Diverge => False end /\
    (writes_progress o -> r = Ok tt).
Proof.
  induction fuel as [|fuel IH]; intros k f buf Hf Hl; [lia|]. cbn [fwrite_loop].
  destruct (Z.ltb_spec 0 (zlen buf)) as [P|P].
  - unfold File_Write. destruct (os_write o k (zlen buf)) as [n err] eqn:Eo.
    pose proof (clip_bounds n (zlen buf) ltac:(lia)) as C. set (n' := clip n (zlen buf)) in *.
    destruct (put_at_end f (firstn (Z.to_nat n') buf) Hf) as (D & A).
    destruct err.
    + do 3 eexists. split; [reflexivity|]. split; [exact A|]. exists (firstn (Z.to_nat n') buf), (skipn (Z.to_nat n') buf).
      split; [symmetry; apply firstn_skipn|]. split; [exact D|]. split; [left; reflexivity|].
      intros W. specialize (W k (zlen buf) P). rewrite Eo in W. cbn in W. destruct W; discriminate.
    + destruct (Z.eqb_spec n' 0) as [E|E].
      * do 3 eexists. split; [reflexivity|]. split; [exact A|]. exists (firstn (Z.to_nat n') buf), (skipn (Z.to_nat n') buf).
        split; [symmetry; apply firstn_skipn|]. split; [exact D|]. split; [right; reflexivity|].
        intros W. specialize (W k (zlen buf) P). rewrite Eo in W. cbn in W. unfold n', clip in E. lia.
      * rewrite <- (zlen_skipn buf n' C).
        destruct (IH (S k) (f_put f (firstn (Z.to_nat n') buf)) (skipn (Z.to_nat n') buf) A) as (k' & f' & r & Er & A' & a & b & Eb & D' & R & W).
        { rewrite skipn_length. unfold zlen in *. lia. }
        exists k', f', r. split; [exact Er|]. split; [exact A'|]. exists (firstn (Z.to_nat n') buf ++ a), b.
        split; [rewrite <- app_assoc, <- Eb; symmetry; apply firstn_skipn|]. split; [rewrite D', D, app_assoc; reflexivity|]. split; [exact R|exact W].
  - do 3 eexists. split; [reflexivity|]. split; [exact Hf|]. exists [], [].
    assert (buf = []) by (destruct buf; [reflexivity|unfold zlen in P; cbn in P; lia]). subst buf.
    split; [reflexivity|]. split; [symmetry; apply app_nil_r|]. split; [reflexivity|]. intros _. reflexivity.
Qed.
Lemma FWrite_ok o k f buf : at_end f -> exists k' f' r, FWrite o k f buf = (k', f', r) /\ at_end f' /\
  exists a b, buf = a ++ b /\ f_data f' = f_data f ++ a /\
    match r with Ok _ => b = [] | Panic p => p = IOError \/ p = PanicMsg "zero write" | Diverge => False end /\
    (writes_progress o -> r = Ok tt).
Proof. intros H. unfold FWrite. apply fwrite_spec; [exact H|lia]. Qed.

(** C68.  Writing a buffer to a file being appended to, for every operating system:
    the call always ends, the file has grown by an initial part of the buffer, by the whole
    buffer if the call returns; it returns if every write makes progress without error; if
    it does not return it panics with the error or "zero write". *)
Lemma pC68_write : forall o k f buf, at_end f ->
  exists k' f' r, FWrite o k f buf = (k', f', r) /\ at_end f' /\ r <> Diverge /\
    (exists part, prefix part buf /\ f_data f' = f_data f ++ part) /\
    (r = Ok tt -> f_data f' = f_data f ++ buf) /\
    (writes_progress o -> r = Ok tt) /\
    (forall p, r = Panic p -> p = IOError \/ p = PanicMsg "zero write").
Proof.
  intros o k f buf H. destruct (FWrite_ok o k f buf H) as (k' & f' & r & E & A & a & b & Eb & D & R & W).
  exists k', f', r. split; [exact E|]. split; [exact A|]. split; [intros ->; exact R|].
  split; [exists a; split; [exists b; exact Eb|exact D]|]. split; [intros ->; subst b; rewrite app_nil_r in Eb; subst buf; exact D|].
  split; [exact W|]. intros p ->. exact R.
Qed.
(** C68, words.  Index and header words are written by a single call; for every operating
    system: the file has grown by an initial part of the words' bytes, by all of them if the call returns; it
    returns if the write is complete and without error; a write that is not complete never
    goes unnoticed. *)
Lemma pC68_write_words : forall o k f ws, at_end f ->
  exists k' f' r, FWriteSlice o k f ws = (k', f', r) /\ at_end f' /\ r <> Diverge /\
    (exists part, prefix part (SliceAsByteSlice ws) /\ f_data f' = f_data f ++ part) /\
    (r = Ok tt -> f_data f' = f_data f ++ SliceAsByteSlice ws) /\
    (writes_whole o -> r = Ok tt) /\
    (forall p, r = Panic p -> p = IOError \/ p = PanicMsg "torn write").
Proof.
  intros o k f ws A. unfold FWriteSlice, File_Write. destruct (os_write o k (zlen (SliceAsByteSlice ws))) as [n err] eqn:E.
  pose proof (zlen_nonneg (SliceAsByteSlice ws)) as N. pose proof (clip_bounds n _ N) as C. set (m := clip n (zlen (SliceAsByteSlice ws))) in *.
  destruct (put_at_end f (firstn (Z.to_nat m) (SliceAsByteSlice ws)) A) as [P1 P2].
  assert (PR : exists part, prefix part (SliceAsByteSlice ws) /\ f_data (f_put f (firstn (Z.to_nat m) (SliceAsByteSlice ws))) = f_data f ++ part)
    by (eexists; split; [|exact P1]; eexists; symmetry; apply firstn_skipn).
  assert (W : writes_whole o -> m = zlen (SliceAsByteSlice ws) /\ err = false)
    by (intros W; rewrite W in E; injection E as <- <-; split; [unfold m, clip; lia|reflexivity]).
  destruct err; [do 3 eexists; split; [reflexivity|]; repeat split; try assumption; try discriminate|].
  - intros Hw. destruct (W Hw). discriminate.
  - intros p Hp. injection Hp as <-. auto.
  - destruct (Z.eqb_spec m (zlen (SliceAsByteSlice ws))) as [Em|Em]; do 3 eexists; (split; [reflexivity|]); repeat split; try assumption; try discriminate.
    + intros _. rewrite P1. f_equal. apply firstn_all2. unfold zlen in Em. lia.
    + intros Hw. destruct (W Hw). contradiction.
    + intros p Hp. injection Hp as <-. auto.
Qed.

Lemma pC68_ex :
  let o := mkOS (fun k n => (Z.of_nat k mod 3 + 1, false)) (fun _ => (1, NoErr)) (fun _ => false) (fun _ => false) in
  writes_progress o /\ FWrite o 0 (mkFile [9] 1) [1; 2; 3; 4; 5] = (3%nat, mkFile [9; 1; 2; 3; 4; 5] 6, Ok tt) /\
  FWrite (mkOS (fun k n => (match k with O => 2 | _ => 0 end, false)) (fun _ => (1, NoErr)) (fun _ => false) (fun _ => false)) 0 (mkFile [] 0) [1; 2; 3]
    = (2%nat, mkFile [1; 2] 2, Panic (PanicMsg "zero write")) /\
  FWriteSlice o 0 (mkFile [9] 1) [258] = (1%nat, mkFile [9; 2] 2, Panic (PanicMsg "torn write")).
Proof.
  cbn zeta. split; [|repeat split; vm_compute; reflexivity]. intros k n Hn. cbn [os_write fst snd]. pose proof (Z.mod_pos_bound (Z.of_nat k) 3). split; [lia|reflexivity].
Qed.

(** ** C69 *)
Lemma FRead_spec o k f size : 0 < size -> 0 <= f_pos f <= zlen (f_data f) ->
  exists k' f' r, FRead o k f size = (k', f', r) /\ f_data f' = f_data f /\
    f_pos f <= f_pos f' <= zlen (f_data f) /\
    match r with
    | Ok b => skipn (Z.to_nat (f_pos f)) (f_data f) = b ++ skipn (Z.to_nat (f_pos f')) (f_data f) /\ zlen b = f_pos f' - f_pos f
              /\ (reads_progress o -> b = [] -> f_pos f = zlen (f_data f))
    | Panic p => p = IOError /\ ~ reads_progress o
    | Diverge => False
    end.
Proof.
  intros Hs Hp. unfold FRead. destruct (os_read o k) as [n err] eqn:Eo.
  set (left := skipn (Z.to_nat (f_pos f)) (f_data f)).
  assert (Ll : zlen left = zlen (f_data f) - f_pos f) by (apply zlen_skipn; exact Hp).
  pose proof (clip_bounds n (Z.min size (zlen left)) ltac:(lia)) as C. set (n' := clip n (Z.min size (zlen left))) in *.
  assert (Q : skipn (Z.to_nat (f_pos f + n')) (f_data f) = skipn (Z.to_nat n') left).
  { unfold left. rewrite <- (firstn_skipn (Z.to_nat (f_pos f)) (f_data f)) at 1.
    rewrite skipn_app. rewrite (skipn_all2 (firstn _ _)) by (rewrite firstn_length; lia). cbn [app].
    f_equal. rewrite firstn_length. unfold zlen in *. lia. }
  assert (G : left = firstn (Z.to_nat n') left ++ skipn (Z.to_nat (f_pos f + n')) (f_data f) /\
              zlen (firstn (Z.to_nat n') left) = (f_pos f + n') - f_pos f /\
              (reads_progress o -> firstn (Z.to_nat n') left = [] -> f_pos f = zlen (f_data f))).
  { rewrite Q. split; [symmetry; apply firstn_skipn|]. split; [rewrite zlen_firstn by lia; lia|].
    intros W E. assert (zlen (firstn (Z.to_nat n') left) = 0) by (rewrite E; reflexivity). rewrite zlen_firstn in H by lia.
    specialize (W k). rewrite Eo in W. cbn in W. unfold n', clip in H. lia. }
  destruct err; do 3 eexists; (split; [reflexivity|]); cbn [f_data f_pos]; (split; [reflexivity|]); (split; [lia|]);
    [exact G|exact G|]. split; [reflexivity|]. intros W. specialize (W k). rewrite Eo in W. cbn in W. destruct W; congruence.
Qed.
Lemma copy_spec o size : 0 < size -> forall fuel k fd fs, at_end fd -> 0 <= f_pos fs <= zlen (f_data fs) ->
  (Z.to_nat (zlen (f_data fs) - f_pos fs) < fuel)%nat ->
  exists k' fd' fs' r, copy_loop fuel o k fd fs size = (k', fd', fs', r) /\ at_end fd' /\ f_data fs' = f_data fs /\ r <> Diverge /\
  exists part, prefix part (skipn (Z.to_nat (f_pos fs)) (f_data fs)) /\ f_data fd' = f_data fd ++ part /\
   (writes_progress o -> reads_progress o -> r = Ok tt /\
      (never_cancelled o -> part = skipn (Z.to_nat (f_pos fs)) (f_data fs))).
Proof.
  intros Hs. induction fuel as [|fuel IH]; intros k fd fs Hd Hp Hl; [lia|]. cbn [copy_loop].
  destruct (os_cancelled o k) eqn:Ec.
  { do 4 eexists. split; [reflexivity|]. split; [exact Hd|]. split; [reflexivity|]. split; [discriminate|]. exists [].
    split; [eexists; reflexivity|]. split; [symmetry; apply app_nil_r|]. intros _ _. split; [reflexivity|]. intros N. specialize (N k). congruence. }
  unfold FCopy.
  destruct (FRead_spec o (S k) fs size Hs Hp) as (k1 & fs1 & r1 & -> & Ds & Ps & R1).
  destruct r1 as [buf|p|]; [|destruct R1 as (-> & NR)|contradiction].
  2:{ do 4 eexists. split; [reflexivity|]. split; [exact Hd|]. split; [exact Ds|]. split; [discriminate|]. exists [].
    split; [eexists; reflexivity|]. split; [symmetry; apply app_nil_r|]. intros _ W. contradiction. }
  destruct R1 as (Eq & Lb & Z0).
  destruct (FWrite_ok o k1 fd buf Hd) as (k2 & fd2 & r2 & -> & A2 & a & b & Eb & D2 & R2 & W2).
  destruct r2 as [u|p|]; [|..].
  - subst b. rewrite app_nil_r in Eb. subst a. destruct (Z.eqb_spec (zlen buf) 0) as [E0|E0].
    + do 4 eexists. split; [reflexivity|]. split; [exact A2|]. split; [exact Ds|]. split; [discriminate|]. exists buf.
      assert (buf = []) by (destruct buf; [reflexivity|unfold zlen in E0; cbn in E0; lia]). subst buf.
      split; [eexists; reflexivity|]. split; [exact D2|]. intros _ Wr. split; [reflexivity|]. intros _.
      rewrite (Z0 Wr eq_refl). replace (Z.to_nat (zlen (f_data fs))) with (List.length (f_data fs)) by (unfold zlen; lia). symmetry. apply skipn_all.
    + destruct (IH k2 fd2 fs1 A2 ltac:(rewrite Ds; lia) ltac:(rewrite Ds; pose proof (zlen_nonneg buf); lia))
        as (k' & fd' & fs' & r & -> & A' & Ds' & ND & part & Pp & Dp & Wp).
      do 4 eexists. split; [reflexivity|]. split; [exact A'|]. split; [congruence|]. split; [exact ND|]. exists (buf ++ part).
      rewrite Ds in Pp, Wp. rewrite Eq. split; [destruct Pp as (r' & ->); exists r'; apply app_assoc|].
      split; [rewrite Dp, D2, app_assoc; reflexivity|]. intros Ww Wr. destruct (Wp Ww Wr) as (-> & F). split; [reflexivity|].
      intros N. rewrite (F N). reflexivity.
  - do 4 eexists. split; [reflexivity|]. split; [exact A2|]. split; [exact Ds|]. split; [discriminate|]. exists a.
    split; [rewrite Eq, Eb, <- app_assoc; eexists; reflexivity|]. split; [exact D2|]. intros Ww. specialize (W2 Ww). discriminate.
  - contradiction.
Qed.

(** C69.  Copying file [src] from its start to the end of [dst], for every operating
    system: the loop ends; the destination has grown by an initial part of the source; if
    reads and writes make progress the loop returns, and if moreover the run is never found
    cancelled the whole source is copied. *)
Lemma pC69_copy : forall o k dst src fuel, at_end dst -> (List.length src < fuel)%nat ->
  exists k' dst' src' r, copy_loop fuel o k dst (mkFile src 0) copyBufferSize = (k', dst', src', r) /\ r <> Diverge /\
    at_end dst' /\ f_data src' = src /\
    exists part, prefix part src /\ f_data dst' = f_data dst ++ part /\
      (writes_progress o -> reads_progress o -> r = Ok tt /\ (never_cancelled o -> part = src)).
Proof.
  intros o k dst src fuel Hd Hl.
  destruct (copy_spec o copyBufferSize ltac:(unfold copyBufferSize; lia) fuel k dst (mkFile src 0) Hd) as (k' & dst' & src' & r & E & A & Ds & ND & part & P & D & W).
  - cbn [f_pos f_data]. pose proof (zlen_nonneg src). lia.
  - cbn [f_pos f_data]. unfold zlen. lia.
  - exists k', dst', src', r. split; [exact E|]. split; [exact ND|]. split; [exact A|]. split; [exact Ds|]. exists part. auto.
Qed.
Lemma pC69_ex :
  let o := mkOS (fun k n => (Z.of_nat k mod 2 + 1, false)) (fun k => (Z.of_nat k mod 3 + 1, NoErr)) (fun _ => false) (fun _ => false) in
  let o' := mkOS (fun k n => (9, false)) (fun k => (2, NoErr)) (fun _ => false) (fun k => (5 <? Z.of_nat k)) in
  writes_progress o /\ reads_progress o /\
  copy_loop 8 o 0 (mkFile [0; 0] 2) (mkFile [1; 2; 3; 4; 5] 0) copyBufferSize = (10%nat, mkFile [0; 0; 1; 2; 3; 4; 5] 7, mkFile [1; 2; 3; 4; 5] 5, Ok tt) /\
  copy_loop 8 o' 0 (mkFile [0; 0] 2) (mkFile [1; 2; 3; 4; 5] 0) copyBufferSize = (7%nat, mkFile [0; 0; 1; 2; 3; 4] 6, mkFile [1; 2; 3; 4; 5] 4, Ok tt).
Proof.
  cbn zeta. split; [|split; [|split; vm_compute; reflexivity]].
  - intros k n Hn. cbn [os_write fst snd]. pose proof (Z.mod_pos_bound (Z.of_nat k) 2). split; [lia|reflexivity].
  - intros k. cbn [os_read fst snd]. pose proof (Z.mod_pos_bound (Z.of_nat k) 3). split; [lia|discriminate].
Qed.

(** ** C70 *)
Lemma le64_bytes w : bytes (le64 w).
Proof. unfold le64. repeat constructor; apply Z.mod_pos_bound; lia. Qed.
Lemma le64_length w : List.length (le64 w) = 8%nat.
Proof. reflexivity. Qed.
Lemma le64_get_le64 w : le64_get (le64 w) = u64 w.
Proof.
  unfold le64, le64_get, u8, u64. rewrite !Z.shiftr_div_pow2 by lia.
  assert (S : forall n, 0 <= n -> w / 2^n mod 2^8 + 2^8 * (w / 2^(n+8) mod 2^(56 - n)) = w / 2^n mod 2^(64 - n) \/ True) by (intros; right; exact I).
  assert (Q : forall a m, 0 < m -> a mod 2^8 + 2^8 * (a / 2^8 mod m) = a mod (2^8 * m)).
  { intros a m Hm. rewrite Z.rem_mul_r by lia. reflexivity. }
  assert (D : forall a, 0 <= a -> w / 2^(a + 8) = w / 2^a / 2^8).
  { intros a Ha. rewrite Z.pow_add_r, Z.div_div; try lia. }
  change (2^56) with (2^(48 + 8)). rewrite (D 48) by lia. rewrite (Q (w / 2^48) (2^8)) by lia.
  change (2^48) with (2^(40 + 8)) at 1. change (2^48) with (2^(40 + 8)). rewrite (D 40) by lia. rewrite Q by lia.
  change (2^40) with (2^(32 + 8)). rewrite (D 32) by lia. rewrite Q by lia.
  change (2^32) with (2^(24 + 8)). rewrite (D 24) by lia. rewrite Q by lia.
  change (2^24) with (2^(16 + 8)). rewrite (D 16) by lia. rewrite Q by lia.
  change (2^16) with (2^(8 + 8)). rewrite (D 8) by lia. rewrite Q by lia.
  rewrite Q by lia. reflexivity.
Qed.
Lemma flat_len ws : List.length (SliceAsByteSlice ws) = (8 * List.length ws)%nat.
Proof. induction ws as [|w ws IH]; [reflexivity|]. cbn [SliceAsByteSlice flat_map]. rewrite app_length, le64_length. unfold SliceAsByteSlice in IH. rewrite IH. cbn [List.length]. lia. Qed.
Lemma pieces_flat ws rest : pieces 8 (List.length ws) (SliceAsByteSlice ws ++ rest) = map le64 ws.
Proof.
  induction ws as [|w ws IH]; [reflexivity|]. cbn [List.length pieces map].
  change (SliceAsByteSlice (w :: ws)) with (le64 w ++ SliceAsByteSlice ws). rewrite <- app_assoc.
  rewrite firstn_app, (le64_length w), Nat.sub_diag, firstn_O, app_nil_r, firstn_all2 by (rewrite le64_length; lia).
  rewrite skipn_app, (le64_length w), Nat.sub_diag, skipn_O, skipn_all2 by (rewrite le64_length; lia). cbn [app]. rewrite IH. reflexivity.
Qed.
Lemma div8 ws (rest : list Z) : zlen rest < 8 -> Z.to_nat (zlen (SliceAsByteSlice ws ++ rest) / 8) = List.length ws.
Proof.
  intros H. rewrite zlen_app. unfold zlen at 1. rewrite flat_len. pose proof (zlen_nonneg rest).
  replace (Z.of_nat (8 * List.length ws) + zlen rest) with (Z.of_nat (List.length ws) * 8 + zlen rest) by lia.
  rewrite Z.div_add_l by lia. rewrite Z.div_small by lia. lia.
Qed.
Lemma words_back ws rest : zlen rest < 8 -> ByteSliceAsInt64Slice (SliceAsByteSlice ws ++ rest) = map s64 ws.
Proof.
  intros H. unfold ByteSliceAsInt64Slice. rewrite div8 by exact H. rewrite pieces_flat, map_map. apply map_ext. intros w.
  rewrite le64_get_le64. unfold s64, u64. rewrite Zplus_mod_idemp_l. reflexivity.
Qed.
Lemma uwords_back ws rest : zlen rest < 8 -> ByteSliceAsUint64Slice (SliceAsByteSlice ws ++ rest) = map u64 ws.
Proof.
  intros H. unfold ByteSliceAsUint64Slice. rewrite div8 by exact H. rewrite pieces_flat, map_map. apply map_ext. intros w. apply le64_get_le64.
Qed.
Lemma SliceAsByteSlice_bytes ws : bytes (SliceAsByteSlice ws).
Proof. induction ws as [|w ws IH]; [constructor|]. apply Forall_app. split; [apply le64_bytes|exact IH]. Qed.
Lemma SliceAsByteSlice_app a b : SliceAsByteSlice (a ++ b) = SliceAsByteSlice a ++ SliceAsByteSlice b.
Proof. apply flat_map_app. Qed.
Lemma le64_nth w i : (i < 8)%nat -> nth i (le64 w) 0 = w / 2^(8 * Z.of_nat i) mod 2^8.
Proof.
  intros H. unfold le64. rewrite !Z.shiftr_div_pow2 by lia.
  do 8 (destruct i as [|i]; [unfold u8; cbn [nth]; try (rewrite Z.div_1_r); reflexivity|]). lia.
Qed.

(** C70.  Words to bytes: eight bytes per word, least significant first.  Back: the same
    words, whatever up to seven bytes follow.  Bytes to words: one word for every eight
    bytes, a trailing part ignored; word [j] has the value of bytes [8j..8j+7], least
    significant first. *)
Lemma pC70_words_to_bytes : forall ws, bytes (SliceAsByteSlice ws) /\ zlen (SliceAsByteSlice ws) = 8 * zlen ws /\
  forall j i w, nth_error ws j = Some w -> (i < 8)%nat ->
    nth (8 * j + i) (SliceAsByteSlice ws) 0 = w / 2^(8 * Z.of_nat i) mod 2^8.
Proof.
  intros ws. split; [apply SliceAsByteSlice_bytes|]. split; [unfold zlen; rewrite flat_len; lia|].
  induction ws as [|v ws IH]; intros j i w Hj Hi; [destruct j; discriminate|].
  change (SliceAsByteSlice (v :: ws)) with (le64 v ++ SliceAsByteSlice ws). destruct j as [|j].
  - cbn [nth_error] in Hj. injection Hj as ->. rewrite app_nth1 by (rewrite le64_length; lia). apply le64_nth; lia.
  - cbn [nth_error] in Hj. rewrite app_nth2 by (rewrite le64_length; lia). rewrite le64_length.
    replace (8 * S j + i - 8)%nat with (8 * j + i)%nat by lia. apply IH; assumption.
Qed.
Lemma pC70_roundtrip : forall ws rest, zlen rest < 8 ->
  (Forall is_s64 ws -> ByteSliceAsInt64Slice (SliceAsByteSlice ws ++ rest) = ws) /\
  (Forall is_u64 ws -> ByteSliceAsUint64Slice (SliceAsByteSlice ws ++ rest) = ws).
Proof.
  intros ws rest H. split; intros T.
  - rewrite words_back by exact H. induction T as [|w ws Hw T IH]; [reflexivity|]. cbn [map]. rewrite IH, s64_id by exact Hw. reflexivity.
  - rewrite uwords_back by exact H. induction T as [|w ws Hw T IH]; [reflexivity|]. cbn [map]. rewrite IH, u64_id by exact Hw. reflexivity.
Qed.
Lemma pieces_nth n : forall b j, (j < n)%nat -> nth_error (pieces 8 n b) j = Some (firstn 8 (skipn (8 * j) b)).
Proof.
  induction n as [|n IH]; intros b j H; [lia|]. cbn [pieces]. destruct j as [|j]; [reflexivity|]. cbn [nth_error].
  rewrite IH by lia. do 2 f_equal. clear. revert b. induction (8 * j)%nat as [|m IHm] eqn:E in j |- *; intros b.
  - replace (8 * S j)%nat with 8%nat by lia. reflexivity.
  - replace (8 * S j)%nat with (8 + 8 * j)%nat by lia. rewrite E.
    clear. generalize (S m). intros k. revert b. change (8 + k)%nat with (S (S (S (S (S (S (S (S k)))))))).
    intros b. do 8 (destruct b as [|? b]; [cbn [skipn]; destruct k; reflexivity|cbn [skipn]]). reflexivity.
Qed.
Lemma pieces_length n : forall s b, List.length (pieces s n b) = n.
Proof. induction n; intros s b; cbn [pieces List.length]; [reflexivity|]. rewrite IHn. reflexivity. Qed.
Lemma nth_skipn' {A} (l : list A) k i d : nth i (skipn k l) d = nth (k + i) l d.
Proof. revert l. induction k as [|k IH]; intros l; [reflexivity|]. destruct l as [|a l]; [cbn [skipn]; destruct i; reflexivity|]. cbn [skipn Nat.add nth]. apply IH. Qed.
Lemma pC70_bytes_to_words : forall b,
  zlen (ByteSliceAsInt64Slice b) = zlen b / 8 /\ zlen (ByteSliceAsUint64Slice b) = zlen b / 8 /\
  forall j, 8 * (Z.of_nat j + 1) <= zlen b ->
    nth_error (ByteSliceAsInt64Slice b) j = Some (s64 (word_at b j)) /\ nth_error (ByteSliceAsUint64Slice b) j = Some (word_at b j).
Proof.
  intros b. pose proof (zlen_nonneg b) as N. assert (0 <= zlen b / 8) by (apply Z.div_pos; lia).
  unfold ByteSliceAsInt64Slice, ByteSliceAsUint64Slice.
  assert (L : forall {A} (g : list Z -> A), zlen (map g (pieces 8 (Z.to_nat (zlen b / 8)) b)) = zlen b / 8)
    by (intros A g; unfold zlen at 1; rewrite map_length, pieces_length; lia).
  split; [apply L|]. split; [apply L|]. clear L. intros j Hj. rewrite !nth_error_map, !pieces_nth.
  2: assert (Z.of_nat j + 1 <= zlen b / 8) by (apply Z.div_le_lower_bound; lia); lia.
  assert (E : le64_get (firstn 8 (skipn (8 * j) b)) = word_at b j).
  { unfold word_at. cbn [seq fold_right]. rewrite <- !(nth_skipn' b (8 * j)).
    assert (L : (8 <= List.length (skipn (8 * j) b))%nat) by (rewrite skipn_length; unfold zlen in Hj; lia).
    remember (skipn (8 * j) b) as c eqn:Ec. clear Ec. do 8 (destruct c as [|? c]; [cbn in L; lia|]). cbn [firstn le64_get nth Z.of_nat].
    change (8 * Z.of_nat 0) with 0. change (8 * Z.of_nat 1) with 8. change (8 * Z.of_nat 2) with 16. change (8 * Z.of_nat 3) with 24.
    change (8 * Z.of_nat 4) with 32. change (8 * Z.of_nat 5) with 40. change (8 * Z.of_nat 6) with 48. change (8 * Z.of_nat 7) with 56. lia. }
  cbn [option_map]. rewrite E. auto.
Qed.
Lemma word_get b j : 8 * (Z.of_nat j + 1) <= zlen b -> le64_get (firstn 8 (skipn (8 * j) b)) = word_at b j.
Proof.
  intros Hj. unfold word_at. cbn [seq fold_right]. rewrite <- !(nth_skipn' b (8 * j)).
  assert (L : (8 <= List.length (skipn (8 * j) b))%nat) by (rewrite skipn_length; unfold zlen in Hj; lia).
  remember (skipn (8 * j) b) as c eqn:Ec. clear Ec. do 8 (destruct c as [|? c]; [cbn in L; lia|]). cbn [firstn le64_get nth Z.of_nat].
  change (8 * Z.of_nat 0) with 0. change (8 * Z.of_nat 1) with 8. change (8 * Z.of_nat 2) with 16. change (8 * Z.of_nat 3) with 24.
  change (8 * Z.of_nat 4) with 32. change (8 * Z.of_nat 5) with 40. change (8 * Z.of_nat 6) with 48. change (8 * Z.of_nat 7) with 56. lia.
Qed.
Lemma skipn_plus {A} (l : list A) : forall x y, skipn x (skipn y l) = skipn (y + x) l.
Proof.
  induction l as [|a l IH]; intros x y; [rewrite !skipn_nil; reflexivity|]. destruct y as [|y]; [reflexivity|]. cbn [skipn Nat.add]. apply IH.
Qed.
Lemma pieces_nth16 n : forall b j, (j < n)%nat -> nth_error (pieces 16 n b) j = Some (firstn 16 (skipn (16 * j) b)).
Proof.
  induction n as [|n IH]; intros b [|j] H; try lia; cbn [pieces nth_error]; [reflexivity|].
  rewrite IH by lia. do 2 f_equal. rewrite skipn_plus. f_equal. lia.
Qed.
(** C70.  Bytes to pairs of words (the elements of the node index): one pair for every sixteen bytes, the
    first word first. *)
Lemma pC70_bytes_to_pairs : forall b,
  zlen (ByteSliceAsPairSlice b) = zlen b / 16 /\
  forall j, 16 * (Z.of_nat j + 1) <= zlen b ->
    nth_error (ByteSliceAsPairSlice b) j = Some (word_at b (2 * j), word_at b (2 * j + 1)).
Proof.
  intros b. pose proof (zlen_nonneg b) as N. assert (0 <= zlen b / 16) by (apply Z.div_pos; lia). unfold ByteSliceAsPairSlice. split.
  - unfold zlen at 1. rewrite map_length, pieces_length. lia.
  - intros j Hj. rewrite nth_error_map, pieces_nth16.
    2: assert (Z.of_nat j + 1 <= zlen b / 16) by (apply Z.div_le_lower_bound; lia); lia.
    cbn [option_map]. rewrite <- !word_get by lia. do 2 f_equal.
    + rewrite firstn_firstn. replace (8 * (2 * j))%nat with (16 * j)%nat by lia. reflexivity.
    + rewrite skipn_firstn_comm. replace (16 - 8)%nat with 8%nat by lia.
      replace (8 * (2 * j + 1))%nat with (16 * j + 8)%nat by lia. f_equal. f_equal.
      apply skipn_plus.
Qed.

Lemma pC70_ex :
  SliceAsByteSlice [258; -1] = [2; 1; 0; 0; 0; 0; 0; 0; 255; 255; 255; 255; 255; 255; 255; 255] /\
  ByteSliceAsInt64Slice [2; 1; 0; 0; 0; 0; 0; 0; 255; 255; 255; 255; 255; 255; 255; 255; 7; 7] = [258; -1] /\ Forall is_s64 [258; -1] /\
  ByteSliceAsPairSlice (SliceAsByteSlice [258; 7; 9; 2^64 - 1] ++ [1; 2]) = [(258, 7); (9, 2^64 - 1)].
Proof. split; [vm_compute; reflexivity|]. split; [vm_compute; reflexivity|]. split; [repeat constructor; unfold is_s64; lia|vm_compute; reflexivity]. Qed.
