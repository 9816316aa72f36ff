(** * XdThms: C24, C66 and C67 exactly. *)
From Verif Require Import Base PbSpec PbModel TModel HLModel HLSpec FrModel FrSpec ZlModel ZlSpec ZlThms.
From Verif Require Import BaseLemmas HLProofs HLProofs2 HLThms FrProofs FrThms ZlThms.

(** C24, exactly: the table is the empty string and then the others by decreasing number of additions, ties
    by bytes, if and only if the empty string was never added, or was added more often than every other
    string. *)
Lemma pC24_exact : forall L, zlen L < 2^32 - 1 ->
  exists stb, (stb <- foldm AddString L NewStringTableBuilder ;; Finalize stb) = Ok stb /\
    ((exists r, ToStringTable stb = [] :: r /\
        StronglySorted (fun a b => occurrences L b < occurrences L a \/ occurrences L a = occurrences L b /\ bytes_lt a b) r) <->
     ~ In [] L \/ forall s, s <> [] -> In s L -> occurrences L s < occurrences L []).
Proof.
  intros L Hl. destruct (pC24_order L) as (stb & E & Hs & _). exists stb. split; [exact E|].
  destruct (pC23_index_bijection L Hl) as (stb' & E' & ND & Hin & _). rewrite E in E'. injection E' as <-.
  set (t := ToStringTable stb) in *. clearbody t.
  pose proof (occ_nonneg L []) as O1. pose proof (occ_le L []) as O2.
  assert (W0 : In [] L -> 1 <= occurrences L []).
  { intros I. unfold occurrences. assert (X : In [] (filter (fun x => if list_eq_dec Z.eq_dec x [] then true else false) L)) by (apply filter_In; split; [exact I|destruct (list_eq_dec Z.eq_dec [] []); [reflexivity|congruence]]).
    destruct (filter _ L); [destruct X|]. unfold zlen. cbn [List.length]. lia. }
  assert (NW : forall s, s <> [] -> ((match s with [] => 2^32 - 1 | _ => 0 end) + occurrences L s) mod 2^32 = occurrences L s).
  { intros s N. pose proof (occ_nonneg L s). pose proof (occ_le L s). destruct s; [congruence|]. rewrite Z.add_0_l. apply Z.mod_small. lia. }
  assert (EW : In [] L -> ((2^32 - 1) + occurrences L []) mod 2^32 = occurrences L [] - 1).
  { intros I. specialize (W0 I). replace (2^32 - 1 + occurrences L []) with (occurrences L [] - 1 + 1 * 2^32) by lia. rewrite Z.mod_add by lia. apply Z.mod_small. lia. }
  assert (REST : forall r, t = [] :: r -> StronglySorted (fun a b => occurrences L b < occurrences L a \/ occurrences L a = occurrences L b /\ bytes_lt a b) r).
  { intros r Er. rewrite Er in Hs, ND. apply StronglySorted_inv in Hs as [Hs _]. apply NoDup_cons_iff in ND as [Hne _].
    clear - Hs Hne NW. induction Hs as [|a r Hs IH Hf]; [constructor|]. constructor; [apply IH; intros X; apply Hne; right; exact X|].
    apply Forall_forall. intros b Hb. eapply Forall_forall in Hf; [|exact Hb]. unfold heavier in Hf. cbn zeta in Hf.
    assert (a <> []) by (intros ->; apply Hne; left; reflexivity). assert (b <> []) by (intros ->; apply Hne; right; exact Hb).
    rewrite !NW in Hf by assumption. exact Hf. }
  split.
  - intros (r & Er & _). destruct (in_dec (list_eq_dec Z.eq_dec) [] L) as [I|N]; [|left; exact N]. right. intros s Ns Is.
    assert (Ir : In s r). { assert (X : In s t) by (apply Hin; right; exact Is). rewrite Er in X. destruct X as [X|X]; [congruence|exact X]. }
    rewrite Er in Hs. apply StronglySorted_inv in Hs as [_ Hf]. eapply Forall_forall in Hf; [|exact Ir].
    unfold heavier in Hf. cbn zeta in Hf. rewrite (NW s Ns), (EW I) in Hf. destruct Hf as [Hf|[Hf _]]; lia.
  - intros H. destruct t as [|x r] eqn:Et.
    { assert (X : In [] []) by (apply Hin; left; reflexivity). destruct X. }
    destruct (list_eq_dec Z.eq_dec x []) as [->|Nx]; [exists r; split; [reflexivity|apply REST; reflexivity]|]. exfalso.
    assert (I0 : In [] r). { assert (X : In [] (x :: r)) by (apply Hin; left; reflexivity). destruct X as [X|X]; [congruence|exact X]. }
    assert (Ix : In x L). { assert (X : In x ([] :: L)) by (apply Hin; left; reflexivity). destruct X as [X|X]; [congruence|exact X]. }
    apply StronglySorted_inv in Hs as [_ Hf]. eapply Forall_forall in Hf; [|exact I0]. unfold heavier in Hf. cbn zeta in Hf. rewrite (NW x Nx) in Hf.
    assert (Lx : bytes_lt x [] -> False) by (intros X; inversion X).
    destruct (in_dec (list_eq_dec Z.eq_dec) [] L) as [I|N].
    + rewrite (EW I) in Hf. destruct H as [H|H]; [contradiction|]. specialize (H x Nx Ix). destruct Hf as [Hf|[_ Hf]]; [lia|auto].
    + assert (Z0 : occurrences L [] = 0).
      { unfold occurrences. destruct (filter _ L) as [|y l] eqn:F; [reflexivity|]. assert (X : In y (y :: l)) by (left; reflexivity). rewrite <- F in X. apply filter_In in X as (X & Y).
        destruct (list_eq_dec Z.eq_dec y []) as [->|]; [contradiction|discriminate]. }
      rewrite Z0, Z.add_0_r, Z.mod_small in Hf by lia. pose proof (occ_le L x). destruct Hf as [Hf|[_ Hf]]; [lia|auto].
Qed.
(** Both sides: the empty string added twice and "a" once; both once. *)
Lemma pC24_exact_ex :
  (exists stb, (stb <- foldm AddString [[]; [97]; []] NewStringTableBuilder ;; Finalize stb) = Ok stb /\ ToStringTable stb = [[]; [97]]) /\
  (exists stb, (stb <- foldm AddString [[]; [97]] NewStringTableBuilder ;; Finalize stb) = Ok stb /\ ToStringTable stb = [[97]; []]).
Proof. split; eexists; (split; [vm_compute; reflexivity|vm_compute; reflexivity]). Qed.

(** the blob the tool writes for a payload *)
Definition out_blob (raw : list Z) : list Z := match raw with [] => [] | _ => raw_blob raw end.
Lemma dblock_any env b raw : payload env b raw -> decompress_block env b = write_frame zero4 (blk_Type b) (out_blob raw).
Proof.
  intros P. destruct raw as [|x raw]; [|apply (dblock env b (x :: raw) P); discriminate].
  destruct P as (bl & s & E1 & E2 & E3). unfold decompress_block. rewrite E1. cbn [bind]. rewrite E2. cbn [bind].
  unfold Blob_Write. cbn [blob_RawFunc blob_Raw blob_RawSize blob_ZLibData].
  assert (S0 : slen s = 0) by (rewrite slen_zlen, E3; reflexivity). rewrite S0. change (0 <? 0) with false. cbn match. reflexivity.
Qed.
Lemma out_blob_ok raw : bytes raw -> zlen raw < 2^31 - 20 -> bytes (out_blob raw) /\ zlen (out_blob raw) < 2^31.
Proof.
  intros B L. destruct raw as [|x raw]; [split; [constructor|unfold zlen; cbn; lia]|].
  split; [apply raw_blob_bytes; exact B|]. pose proof (raw_blob_len (x :: raw)). unfold out_blob. lia.
Qed.
Lemma mapm_any envs bs pl :
  Forall2 (fun b p => blk_Type b = fst p /\ payload (envs (blk_Index b)) b (snd p)) bs pl ->
  mapm (fun b => decompress_block (envs (blk_Index b)) b) bs = mapm (fun p => write_frame zero4 (fst p) (out_blob (snd p))) pl.
Proof.
  intros H. induction H as [|b p bs pl (E1 & E2) H IH]; [reflexivity|].
  cbn [mapm]. rewrite (dblock_any _ _ _ E2), E1. destruct (write_frame _ _ _); cbn [bind]; [|reflexivity..]. rewrite IH. reflexivity.
Qed.
Definition moderate (p : list Z * list Z) : Prop := bytes (snd p) /\ zlen (snd p) < 2^31 - 20.
Lemma any_file pl : Forall moderate pl -> Forall (fun p => known_type (fst p)) pl ->
  exists outs, mapm (fun p => write_frame zero4 (fst p) (out_blob (snd p))) pl = Ok outs /\
    is_file (concat outs) (map (fun p => (fst p, out_blob (snd p))) pl) /\ bytes (concat outs).
Proof.
  induction pl as [|[ty raw] pl IH]; intros F K.
  - exists []. cbn. repeat split. constructor.
  - apply Forall_cons_iff in F as [(F2 & F3) F]. apply Forall_cons_iff in K as [K1 K]. cbn [fst snd] in *.
    destruct (IH F K) as (outs & E & I & B). destruct (out_blob_ok raw F2 F3) as (O1 & O2).
    destruct (write_frame_is zero4 ty (out_blob raw) eq_refl K1 O1 ltac:(lia)) as (fb & Ew & Fr & Bf & _).
    exists (fb :: outs). cbn [mapm fst snd]. rewrite Ew. cbn [bind]. rewrite E. cbn [bind concat map is_file].
    split; [reflexivity|]. split; [exists fb, (concat outs); auto|]. unfold bytes in *. apply Forall_app. auto.
Qed.
Lemma no_empty_read bs pl n : map seen bs = combine (map Z.of_nat (seq n (List.length pl))) (map (fun p => (fst p, out_blob (snd p))) pl) ->
  ~ Forall (fun p : list Z * list Z => snd p <> []) pl ->
  exists b, In b bs /\ vis (blk_Data b) = [].
Proof.
  revert bs n. induction pl as [|[ty raw] pl IH]; intros bs n M NF; [exfalso; apply NF; constructor|].
  destruct bs as [|b bs]; [discriminate|]. cbn [map List.length seq combine] in M. unfold FrSpec.seen at 1 in M. cbn [fst snd] in M. injection M as _ _ M3 M.
  destruct raw as [|x raw]; [exists b; split; [left; reflexivity|exact M3]|].
  destruct (IH bs (S n) M) as (b' & Hb & Hv); [|exists b'; split; [right; exact Hb|exact Hv]].
  intros F. apply NF. constructor; [discriminate|exact F].
Qed.
Lemma empty_unreadable env b : vis (blk_Data b) = [] -> (forall raw, ~ payload env b raw) /\ exists m, decompress_block env b = Panic m.
Proof.
  intros E. destruct b as [i [v e] ty]. cbn [blk_Data vis] in *. subst v.
  assert (R : ReadBlob (mkslice [] e) Blob0 = Ok Blob0) by reflexivity.
  split.
  - intros raw (bl & s & E1 & E2 & _). cbn [blk_Data] in E1. rewrite R in E1. injection E1 as <-. discriminate E2.
  - eexists. unfold decompress_block. cbn [blk_Data]. rewrite R. cbn [bind]. reflexivity.
Qed.
Lemma known_pl envs file bs pl : bytes file -> zlen file < 2^63 -> read_file file = Ok bs ->
  Forall2 (fun b p => blk_Type b = fst p /\ payload (envs (blk_Index b)) b (snd p)) bs pl -> Forall (fun p => known_type (fst p)) pl.
Proof.
  intros Hb Hl E F2. pose proof (read_file_known file bs Hb Hl E) as K. clear -F2 K. induction F2 as [|b p bs pl (T & _) F2 IH]; [constructor|].
  apply Forall_cons_iff in K as [K1 K]. constructor; [rewrite <- T; exact K1|auto].
Qed.
(** the blocks of the output *)
Lemma out_read envs file pl : bytes file -> zlen file < 2^63 -> contents envs file pl -> Forall moderate pl ->
  exists out, decompress envs file = Ok out /\ bytes out /\ (zlen out < 2^63 -> exists bs', read_file out = Ok bs' /\
    map seen bs' = combine (map Z.of_nat (seq 0 (List.length pl))) (map (fun p => (fst p, out_blob (snd p))) pl)).
Proof.
  intros Hb Hl (bs & E & F2) F. pose proof (known_pl envs file bs pl Hb Hl E F2) as K.
  destruct (any_file pl F K) as (outs & Eo & I & B). exists (concat outs). split; [|split; [exact B|]].
  - unfold decompress. rewrite E. cbn [bind]. rewrite (mapm_any envs bs pl F2), Eo. reflexivity.
  - intros L. destruct (pC34_split (concat outs) _ B L I) as (bs' & E' & M); [apply Forall_map; exact K|].
    exists bs'. split; [exact E'|]. unfold numbered in M. rewrite map_length in M. exact M.
Qed.

(** C66, exactly: every file whose payloads are below 2^31-20 bytes is decompressed; the output has the same
    sequence of types and payloads if and only if none of them is empty, and otherwise cannot be read
    as a sequence of payloads at all, in whatever environment. *)
Lemma pC66_exact : forall envs file pl,
  bytes file -> zlen file < 2^63 -> contents envs file pl ->
  Forall (fun p => bytes (snd p) /\ zlen (snd p) < 2^31 - 20) pl ->
  exists out, decompress envs file = Ok out /\ (zlen out < 2^63 -> forall envs',
    (contents envs' out pl <-> Forall (fun p => snd p <> []) pl) /\
    ((exists pl', contents envs' out pl') <-> Forall (fun p => snd p <> []) pl)).
Proof.
  intros envs file pl Hb Hl C F. destruct (out_read envs file pl Hb Hl C F) as (out & D & B & R). exists out. split; [exact D|].
  intros L envs'. destruct (R L) as (bs' & E' & M).
  assert (Up : Forall (fun p => snd p <> []) pl -> contents envs' out pl).
  { intros NE. destruct (pC66_same_contents_partial envs file pl Hb Hl C) as (out' & D' & C').
    - apply Forall_forall. intros p Hp. split; [exact (proj1 (Forall_forall _ _) NE p Hp)|exact (proj1 (Forall_forall _ _) F p Hp)].
    - rewrite D in D'. injection D' as <-. apply C'. exact L. }
  assert (Down : (exists pl', contents envs' out pl') -> Forall (fun p => snd p <> []) pl).
  { intros (pl' & bs2 & E2 & F2). rewrite E' in E2. injection E2 as <-.
    destruct (Forall_dec (fun p : list Z * list Z => snd p <> [])) with (l := pl) as [Y|N]; [intros [a [|y b]]; [right; cbn; congruence|left; discriminate]|exact Y|].
    exfalso. destruct (no_empty_read bs' pl 0 M N) as (b & Hb' & Hv).
    assert (X : forall bs pl', In b bs -> Forall2 (fun b p => blk_Type b = fst p /\ payload (envs' (blk_Index b)) b (snd p)) bs pl' -> exists raw, payload (envs' (blk_Index b)) b raw).
    { clear. intros bs pl' Hb F. induction F as [|b' p bs pl (_ & P) F IH]; [destruct Hb|]. destruct Hb as [->|Hb]; [exists (snd p); exact P|auto]. }
    destruct (X bs' pl' Hb' F2) as (raw & P). destruct (empty_unreadable (envs' (blk_Index b)) b Hv) as (Q & _). exact (Q raw P). }
  split; split; [intros H; apply Down; exists pl; exact H|exact Up|exact Down|intros H; exists pl; apply Up; exact H].
Qed.
(** C67, exactly: decompressing the output again reproduces it byte for byte if and only if no payload is
    empty, and panics otherwise, in whatever environment. *)
Lemma pC67_exact : forall envs file pl out,
  bytes file -> zlen file < 2^63 -> contents envs file pl ->
  Forall (fun p => bytes (snd p) /\ zlen (snd p) < 2^31 - 20) pl ->
  decompress envs file = Ok out -> zlen out < 2^63 -> forall envs',
  (decompress envs' out = Ok out <-> Forall (fun p => snd p <> []) pl) /\
  ((exists m, decompress envs' out = Panic m) <-> ~ Forall (fun p => snd p <> []) pl).
Proof.
  intros envs file pl out Hb Hl C F D L envs'. destruct (out_read envs file pl Hb Hl C F) as (out' & D' & B & R).
  rewrite D in D'. injection D' as <-. destruct (R L) as (bs' & E' & M).
  assert (Up : Forall (fun p => snd p <> []) pl -> decompress envs' out = Ok out).
  { intros NE. apply (pC67_idempotent_partial envs file pl out Hb Hl C); [|exact D|exact L].
    apply Forall_forall. intros p Hp. split; [exact (proj1 (Forall_forall _ _) NE p Hp)|exact (proj1 (Forall_forall _ _) F p Hp)]. }
  assert (Pan : ~ Forall (fun p => snd p <> []) pl -> exists m, decompress envs' out = Panic m).
  { intros N. destruct (no_empty_read bs' pl 0 M N) as (b & Hb' & Hv).
    unfold decompress. rewrite E'. cbn [bind].
    assert (X : forall pl' n bs, Forall moderate pl' -> Forall (fun p => known_type (fst p)) pl' ->
      map seen bs = combine (map Z.of_nat (seq n (List.length pl'))) (map (fun p => (fst p, out_blob (snd p))) pl') -> In b bs ->
      exists m, mapm (fun b => decompress_block (envs' (blk_Index b)) b) bs = Panic m).
    { clear - Hv. induction pl' as [|[ty raw] pl' IH]; intros n bs F K M Hb; [destruct bs; [destruct Hb|discriminate M]|].
      destruct bs as [|b' bs]; [destruct Hb|]. cbn [map List.length seq combine] in M. unfold FrSpec.seen at 1 in M. cbn [fst snd] in M. injection M as _ M2 M3 M.
      apply Forall_cons_iff in F as [(F2 & F3) F]. apply Forall_cons_iff in K as [K1 K]. cbn [fst snd] in *. cbn [mapm].
      destruct raw as [|x raw].
      - destruct (empty_unreadable (envs' (blk_Index b')) b' M3) as (_ & m & Em). rewrite Em. exists m. reflexivity.
      - assert (P : payload (envs' (blk_Index b')) b' (x :: raw)).
        { destruct (blk_Data b') as [v e] eqn:Ed. cbn [vis out_blob] in M3. subst v. eexists. eexists.
          split; [rewrite Ed; apply raw_blob_read; [exact F2|lia]|]. split; reflexivity. }
        rewrite (dblock_any _ _ _ P), M2. destruct (out_blob_ok (x :: raw) F2 F3) as (O1 & O2).
        destruct (write_frame_is zero4 ty (out_blob (x :: raw)) eq_refl K1 O1 ltac:(lia)) as (fb & Ew & _). rewrite Ew. cbn [bind].
        destruct Hb as [->|Hb]; [rewrite Hv in M3|].
        + exfalso. destruct (blk_Data b) as [v e] eqn:Ed. cbn [vis] in Hv. subst v. destruct P as (bl & s & R1 & R2 & _). rewrite Ed in R1.
          assert (R : ReadBlob (mkslice [] e) Blob0 = Ok Blob0) by reflexivity. rewrite R in R1. injection R1 as <-. discriminate R2.
        + destruct (IH (S n) bs F K M Hb) as (m & Em). rewrite Em. exists m. reflexivity. }
    destruct C as (bs & E & F2). destruct (X pl 0%nat bs' F (known_pl envs file bs pl Hb Hl E F2) M Hb') as (m & Em). rewrite Em. exists m. reflexivity. }
  destruct (Forall_dec (fun p : list Z * list Z => snd p <> [])) with (l := pl) as [Y|N]; [intros [a [|y b]]; [right; cbn; congruence|left; discriminate]|..].
  - split; [split; auto|]. split; [|contradiction]. intros (m & E). rewrite (Up Y) in E. discriminate E.
  - destruct (Pan N) as (m & E). split; [|split; [auto|intros _; exists m; exact E]]. split; [intros X; rewrite E in X; discriminate X|contradiction].
Qed.
(** The file of C66_ex has no empty payload; one with an empty payload exists by C66_empty_payload_refuted. *)
Lemma pC66_exact_ex : contents ex_zenv ex_zfile [(bytes_of "OSMHeader", [7; 8]); (bytes_of "OSMData", [1; 2; 3])] /\
  Forall (fun p : list Z * list Z => snd p <> []) [(bytes_of "OSMHeader", [7; 8]); (bytes_of "OSMData", [1; 2; 3])] /\
  contents ex_zenv ([0; 0; 0; 11; 10; 7] ++ bytes_of "OSMData" ++ [24; 2] ++ [10; 0]) [(bytes_of "OSMData", [])].
Proof.
  split; [exact (proj1 pC66_ex)|]. split; [repeat constructor; discriminate|].
  eexists. split; [vm_compute; reflexivity|]. constructor; [|constructor].
  split; [reflexivity|]. eexists. eexists. split; [vm_compute; reflexivity|]. split; [vm_compute; reflexivity|]. vm_compute. reflexivity.
Qed.
