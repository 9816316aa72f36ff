(** * NiProofs3: the writer and the file. *)
From Verif Require Import Base PbSpec TModel FrModel ZlModel MtModel IoModel IoSpec NiModel NiSpec.
From Verif Require Import BaseLemmas IoThms NiProofs NiProofs2.
From Verif Require HLModel HLProofs.

(** ** writing without trouble *)
Definition app_file (f : file) (c : list Z) : file := mkFile (f_data f ++ c) (zlen (f_data f ++ c)).
Lemma app_file_at_end f c : at_end (app_file f c).
Proof. reflexivity. Qed.
Lemma app_file_data f c : f_data (app_file f c) = f_data f ++ c.
Proof. reflexivity. Qed.
Lemma put_app f c : at_end f -> f_put f c = app_file f c.
Proof.
  intros H. destruct (put_at_end f c H) as (D & A). unfold at_end in A. destruct (f_put f c) as [d p] eqn:E. cbn [f_data f_pos] in *.
  unfold app_file. rewrite <- D, A. reflexivity.
Qed.
Lemma clip_id n : 0 <= n -> clip n n = n.
Proof. unfold clip. lia. Qed.
Lemma firstn_zlen {A} (l : list A) : firstn (Z.to_nat (zlen l)) l = l.
Proof. unfold zlen. rewrite Nat2Z.id. apply firstn_all. Qed.
Lemma FWriteSlice_whole o k f data : writes_whole o -> at_end f ->
  FWriteSlice o k f data = (S k, app_file f (SliceAsByteSlice data), Ok tt).
Proof.
  intros W A. unfold FWriteSlice, File_Write. rewrite W. rewrite clip_id by apply zlen_nonneg. rewrite Z.eqb_refl, firstn_zlen.
  rewrite (put_app f _ A). reflexivity.
Qed.
Lemma whole_progress o : writes_whole o -> writes_progress o.
Proof. intros W k n Hn. rewrite W. cbn [fst snd]. auto. Qed.

(** ** ranges to words *)
Lemma place_app a : forall off b, place off (a ++ b) = place off a ++ place (off + total (place off a)) b.
Proof.
  induction a as [|[f l] a IH]; intros off b; cbn [app place total]; [rewrite Z.add_0_r; reflexivity|].
  cbn [r_count]. rewrite IH. rewrite <- (Z.add_assoc off (l - f + 1)). reflexivity.
Qed.
Lemma storable_app a : forall off b, storable off (a ++ b) <-> storable off a /\ storable (off + total (place off a)) b.
Proof.
  induction a as [|[f l] a IH]; intros off b; cbn [app place total storable r_count]; [rewrite Z.add_0_r; tauto|].
  rewrite IH, <- (Z.add_assoc off (l - f + 1)). tauto.
Qed.
Lemma storable_total rs : forall off, storable off rs -> zlen rs <= total (place off rs).
Proof.
  induction rs as [|[f l] rs IH]; intros off H; [unfold zlen; cbn [List.length place total]; lia|].
  cbn [storable place total r_count] in *. rewrite zlen_cons. destruct H as (A & B & C & D & E). specialize (IH _ E). lia.
Qed.
Lemma storable_bound rs : forall off, 0 <= off -> storable off rs -> rs <> [] -> off + total (place off rs) < 2^40 + 2^24.
Proof.
  induction rs as [|[f l] rs IH]; intros off H0 H N; [congruence|]. cbn [storable place total r_count] in *. destruct H as (A & B & C & D & E).
  destruct rs as [|x rs].
  - cbn [place total]. lia.
  - specialize (IH (off + (l - f + 1)) ltac:(lia) E ltac:(discriminate)). lia.
Qed.
Lemma ni_ranges_spec rs : forall out off cnt, 0 <= off -> storable off rs -> 0 <= cnt -> cnt + zlen rs < 2^63 ->
  ni_ranges rs out off cnt = Ok (out ++ flat_map words_of (place off rs), off + total (place off rs), cnt + zlen rs).
Proof.
  induction rs as [|[f l] rs IH]; intros out off cnt H0 H Hc Hn; cbn [ni_ranges place flat_map total].
  - rewrite app_nil_r. unfold zlen. cbn [List.length]. change (Z.of_nat 0) with 0. rewrite !Z.add_0_r. reflexivity.
  - cbn [storable] in H. destruct H as (A & B & C & D & E). rewrite zlen_cons in Hn.
    assert (U : u64 (u64 (l - f) + 1) = l - f + 1).
    { rewrite (u64_id (l - f)) by (unfold is_u64; lia). apply u64_id. unfold is_u64. lia. }
    rewrite U. rewrite NewCountOffset_ok by lia. cbn [bind].
    rewrite (u64_id (off + _)) by (unfold is_u64; lia). pose proof (zlen_nonneg rs). rewrite (u64_id (cnt + 1)) by (unfold is_u64; lia).
    rewrite IH by (assumption || lia). cbn [r_count]. unfold words_of at 2. cbn [r_first r_count r_offset]. rewrite <- app_assoc. cbn [app]. rewrite zlen_cons.
    do 2 f_equal; [f_equal|]; lia.
Qed.

(** ** the writer loop *)
Lemma write_batches_ok o msgs : writes_whole o -> well_typed msgs -> forall off cnt w, 0 <= off -> storable off (all_ranges msgs) -> 0 <= cnt ->
  cnt + zlen (all_ranges msgs) < 2^63 -> at_end (w_idx w) -> at_end (w_loc w) ->
  exists w', ni_write_batches o msgs off cnt w = (w', Ok (cnt + zlen (all_ranges msgs))) /\ at_end (w_idx w') /\ at_end (w_loc w') /\
    f_data (w_idx w') = f_data (w_idx w) ++ SliceAsByteSlice (flat_map words_of (place off (all_ranges msgs))) /\
    f_data (w_loc w') = f_data (w_loc w) ++ SliceAsByteSlice (all_locs msgs).
Proof.
  intros W. induction msgs as [|m msgs IH]; intros T off cnt w H0 Hs Hc Hn A1 A2; cbn [ni_write_batches].
  - exists w. unfold all_ranges, all_locs. cbn. rewrite !app_nil_r. unfold zlen. cbn [List.length]. change (Z.of_nat 0) with 0. rewrite Z.add_0_r. auto.
  - assert (T' : well_typed msgs) by (intros x Hx; apply T; right; exact Hx).
    unfold all_ranges, all_locs, batches in *. cbn [flat_map map concat] in *. change tIndexData with (bytes_of "IndexData").
    destruct (HLModel.seqb (nm_Type m) (bytes_of "IndexData")) eqn:Et; cbn [negb].
    + destruct (nm_Batch m) as [[ranges locations]|] eqn:Eb.
      2:{ exfalso. refine (T m (or_introl eq_refl) _ Eb). destruct (HLProofs.seqb_spec (nm_Type m) (bytes_of "IndexData")); [assumption|discriminate]. }
      cbn [app map concat fst snd] in *. rewrite zlen_app in Hn. apply storable_app in Hs. destruct Hs as (Hs1 & Hs2).
      pose proof (zlen_nonneg (concat (map fst (flat_map (fun m => if HLModel.seqb (nm_Type m) (bytes_of "IndexData") then match nm_Batch m with Some b => [b] | None => [] end else []) msgs)))) as Z0.
      pose proof (zlen_nonneg ranges) as Z1. pose proof (storable_total _ _ Hs1) as Z2.
      unfold io_bind at 1, io_lift at 1. rewrite ni_ranges_spec by (assumption || lia). cbn [fst snd app].
      unfold io_bind at 1. unfold idx_WriteSlice. rewrite FWriteSlice_whole by assumption.
      unfold io_bind at 1. unfold loc_WriteSlice. cbn [w_k w_idx w_loc]. rewrite FWriteSlice_whole by assumption.
      edestruct (IH T' (off + total (place off ranges)) (cnt + zlen ranges) (mkW (S (S (w_k w))) (app_file (w_idx w) (SliceAsByteSlice (flat_map words_of (place off ranges)))) (app_file (w_loc w) (SliceAsByteSlice locations))))
        as (w' & E & B1 & B2 & D1 & D2); [lia|exact Hs2|lia|lia|reflexivity|reflexivity|].
      exists w'. rewrite E. split; [rewrite zlen_app, Z.add_assoc; reflexivity|]. split; [exact B1|]. split; [exact B2|].
      cbn [w_idx w_loc] in D1, D2. rewrite !app_file_data in *. rewrite D1, D2. rewrite place_app, flat_map_app, !SliceAsByteSlice_app, !app_assoc. auto.
    + cbn [app] in *. apply IH; assumption.
Qed.

Lemma le64_len_eq x : zlen (le64 x) = 8.
Proof. reflexivity. Qed.

(** ** opening *)
Lemma prefix_words ws : forall part, prefix part (SliceAsByteSlice ws) ->
  exists ws' rest, part = SliceAsByteSlice ws' ++ rest /\ prefix ws' ws /\ zlen rest < 8.
Proof.
  induction ws as [|w ws IH]; intros part (r & E).
  - cbn in E. symmetry in E. apply app_eq_nil in E. destruct E as (-> & _). exists [], []. split; [reflexivity|]. split; [exists []; reflexivity|reflexivity].
  - change (SliceAsByteSlice (w :: ws)) with (le64 w ++ SliceAsByteSlice ws) in E.
    destruct (Nat.lt_ge_cases (List.length part) 8) as [L|G].
    { exists [], part. split; [reflexivity|]. split; [exists (w :: ws); reflexivity|unfold zlen; lia]. }
    assert (E8 : firstn 8 part = le64 w).
    { assert (X : firstn 8 (le64 w ++ SliceAsByteSlice ws) = firstn 8 (part ++ r)) by (rewrite E; reflexivity).
      rewrite (firstn_app 8 part r) in X. replace (8 - List.length part)%nat with 0%nat in X by lia. rewrite firstn_O, app_nil_r in X. rewrite <- X. reflexivity. }
    assert (S8 : SliceAsByteSlice ws = skipn 8 part ++ r).
    { assert (X : skipn 8 (le64 w ++ SliceAsByteSlice ws) = skipn 8 (part ++ r)) by (rewrite E; reflexivity).
      rewrite (skipn_app 8 part r) in X. replace (8 - List.length part)%nat with 0%nat in X by lia. rewrite skipn_O in X. rewrite <- X. reflexivity. }
    destruct (IH (skipn 8 part) (ex_intro _ r S8)) as (ws' & rest & E' & (q & P) & R).
    exists (w :: ws'), rest. split; [|split; [exists q; rewrite P; reflexivity|exact R]].
    rewrite <- (firstn_skipn 8 part), E8, E'. rewrite app_assoc. reflexivity.
Qed.
Lemma lidx_0 {A} (a : A) l : lidx (a :: l) 0 = Ok a.
Proof. apply lidx_spec. split; [lia|reflexivity]. Qed.
Lemma lidx_1 {A} (a b : A) l : lidx (a :: b :: l) 1 = Ok b.
Proof. apply lidx_spec. split; [lia|reflexivity]. Qed.
Lemma open_ok words locs rest : zlen rest < 8 -> 0 <= zlen words / 2 < 2^62 -> zlen words mod 2 = 0 ->
  NewNodeIndex (SliceAsByteSlice (Version :: (zlen words / 2) :: words ++ locs) ++ rest) = Ok (mkNI (map s64 words) (map s64 locs)).
Proof.
  intros Hr Hw Hm. unfold NewNodeIndex.
  assert (M : MMapMap (SliceAsByteSlice (Version :: zlen words / 2 :: words ++ locs) ++ rest) = Ok (SliceAsByteSlice (Version :: zlen words / 2 :: words ++ locs) ++ rest)) by reflexivity.
  rewrite M. cbn [bind]. rewrite words_back by exact Hr. cbn [map].
  change (s64 Version) with 1.
  rewrite lidx_0. cbn [bind]. change (negb (1 =? Version)) with false. cbn match.
  rewrite lidx_1. cbn [bind]. rewrite (s64_id (zlen words / 2)) by (unfold is_s64; lia).
  assert (D : zlen words / 2 * 2 = zlen words) by (pose proof (Z.div_mod (zlen words) 2); lia).
  rewrite D. pose proof (zlen_nonneg words). rewrite (s64_id (zlen words)) by (unfold is_s64; lia).
  unfold lslice at 1. rewrite !zlen_cons. pose proof (zlen_nonneg (map s64 (words ++ locs))).
  replace ((0 <=? 2) && (2 <=? 1 + (1 + zlen (map s64 (words ++ locs)))) && (1 + (1 + zlen (map s64 (words ++ locs))) <=? 1 + (1 + zlen (map s64 (words ++ locs))))) with true by lia.
  cbn [bind]. change (Z.to_nat 2) with 2%nat. cbn [skipn].
  replace (Z.to_nat (1 + (1 + zlen (map s64 (words ++ locs))) - 2)) with (Z.to_nat (zlen (map s64 (words ++ locs)))) by lia. rewrite firstn_zlen.
  rewrite map_app. unfold lslice. rewrite !zlen_app, !zlen_map. pose proof (zlen_nonneg locs).
  replace ((0 <=? 0) && (0 <=? zlen words) && (zlen words <=? zlen words + zlen locs)) with true by lia. cbn [bind].
  replace ((0 <=? zlen words) && (zlen words <=? zlen words + zlen locs) && (zlen words + zlen locs <=? zlen words + zlen locs)) with true by lia. cbn [bind].
  change (Z.to_nat 0) with 0%nat. rewrite skipn_O, Z.sub_0_r. replace (Z.to_nat (zlen words)) with (List.length (map s64 words)) by (rewrite map_length; unfold zlen; lia).
  rewrite firstn_app, Nat.sub_diag, firstn_O, app_nil_r, firstn_all, skipn_app, Nat.sub_diag, skipn_O, skipn_all. cbn [app].
  rewrite firstn_all2; [reflexivity|]. rewrite map_length. unfold zlen. lia.
Qed.

(** ** the whole writer, cancelled or not *)
Lemma words_len rs : zlen (flat_map words_of rs) = 2 * zlen rs.
Proof. induction rs as [|r rs IH]; [reflexivity|]. cbn [flat_map]. rewrite zlen_app, IH, zlen_cons. change (zlen (words_of r)) with 2. lia. Qed.
Lemma place_len rs : forall off, zlen (place off rs) = zlen rs.
Proof. induction rs as [|[f l] rs IH]; intros off; [reflexivity|]. cbn [place]. rewrite !zlen_cons, IH. reflexivity. Qed.
Lemma map_s64_id l : Forall is_s64 l -> map s64 l = l.
Proof. induction 1 as [|x l H _ IH]; [reflexivity|]. cbn [map]. rewrite IH, s64_id by exact H. reflexivity. Qed.
Lemma prefix_Forall {A} (P : A -> Prop) a b : prefix a b -> Forall P b -> Forall P a.
Proof. intros (r & ->) H. apply Forall_app in H. apply H. Qed.

Lemma output_ok o msgs : writes_whole o -> reads_progress o -> calls_succeed o -> well_typed msgs ->
  storable 0 (all_ranges msgs) -> Forall is_s64 (all_locs msgs) ->
  exists w locs', ni_output o msgs w0 = (w, Ok tt) /\
    NewNodeIndex (f_data (w_idx w)) = Ok (index_of (place 0 (all_ranges msgs)) locs') /\
    prefix locs' (all_locs msgs) /\ (never_cancelled o -> locs' = all_locs msgs).
Proof.
  intros W R C T S L64.
  assert (N : zlen (all_ranges msgs) < 2^41).
  { destruct (all_ranges msgs) as [|x rs] eqn:E; [unfold zlen; cbn [List.length]; lia|]. pose proof (storable_total _ _ S).
    pose proof (storable_bound (x :: rs) 0 ltac:(lia) S ltac:(discriminate)). lia. }
  unfold ni_output, ni_output_body.
  assert (C1 : forall w, io_call o w = (mkW (Datatypes.S (w_k w)) (w_idx w) (w_loc w), Ok tt)) by (intros w; unfold io_call; rewrite C; reflexivity).
  unfold io_bind at 1 2. rewrite C1. unfold io_bind at 1. rewrite C1. unfold io_bind at 1. cbn [w_k w_idx w_loc w0].
  unfold idx_WriteSlice at 1. cbn [w_k w_idx w_loc]. rewrite FWriteSlice_whole by (assumption || reflexivity).
  unfold io_bind at 1.
  edestruct (write_batches_ok o msgs W T 0 0) as (w1 & E1 & A1 & A2 & D1 & D2); [lia|exact S|lia|lia| | |]; cycle 2.
  { rewrite E1. unfold io_bind at 1. unfold loc_rewind at 1. rewrite C. unfold io_bind at 1. unfold io_copy at 1. cbn [w_k w_idx w_loc f_data].
    destruct (pC69_copy o (Datatypes.S (w_k w1)) (w_idx w1) (f_data (w_loc w1)) (Datatypes.S (List.length (f_data (w_loc w1)))) A1 ltac:(lia))
      as (k' & dst' & src' & r & E2 & ND & A3 & _ & part & P & D3 & Wp).
    rewrite E2. destruct (Wp (whole_progress o W) R) as (-> & Full).
    unfold io_bind at 1. rewrite C1. unfold io_bind at 1. rewrite C1. unfold io_bind at 1. unfold idx_rewind at 1. rewrite C. cbn [w_k w_idx w_loc].
    unfold io_lift at 1. unfold io_bind at 1. unfold idx_WriteSlice at 1. cbn [w_k w_idx w_loc].
    (* the header *)
    unfold FWriteSlice, File_Write. rewrite W. rewrite clip_id by apply zlen_nonneg. rewrite Z.eqb_refl, firstn_zlen.
    rewrite C1. cbn [w_k w_idx w_loc]. unfold f_put. cbn [f_data f_pos]. change (Z.to_nat 0) with 0%nat. rewrite firstn_O. cbn [app Nat.add].
    cbn [w_k w_idx w_loc] in D1, D2. rewrite app_file_data in D1. cbn [f_data app] in D1, D2.
    rewrite D2 in P. destruct (prefix_words _ _ P) as (ws' & rest & -> & Pw & Lr).
    do 2 eexists. split; [reflexivity|]. cbn [w_idx f_data].
    assert (X : SliceAsByteSlice [Version; 0 + zlen (all_ranges msgs)] ++ skipn (List.length (SliceAsByteSlice [Version; 0 + zlen (all_ranges msgs)])) (f_data dst') =
      SliceAsByteSlice (Version :: zlen (flat_map words_of (place 0 (all_ranges msgs))) / 2 :: flat_map words_of (place 0 (all_ranges msgs)) ++ ws') ++ rest).
    { rewrite D3, D1. rewrite flat_len. change (8 * List.length [Version; (0 + zlen (all_ranges msgs))%Z])%nat with 16%nat.
      replace (skipn 16 ((SliceAsByteSlice [0; 0] ++ SliceAsByteSlice (flat_map words_of (place 0 (all_ranges msgs)))) ++ SliceAsByteSlice ws' ++ rest))
        with (SliceAsByteSlice (flat_map words_of (place 0 (all_ranges msgs))) ++ SliceAsByteSlice ws' ++ rest) by (rewrite <- app_assoc; reflexivity).
      rewrite words_len, place_len. rewrite (Z.mul_comm 2), Z.div_mul by lia. rewrite Z.add_0_l.
      change (Version :: zlen (all_ranges msgs) :: flat_map words_of (place 0 (all_ranges msgs)) ++ ws') with ([Version; zlen (all_ranges msgs)] ++ flat_map words_of (place 0 (all_ranges msgs)) ++ ws').
      rewrite !SliceAsByteSlice_app, <- !app_assoc. reflexivity. }
    rewrite X. rewrite open_ok.
    - split; [|split].
      + unfold index_of. rewrite (map_s64_id ws') by (exact (prefix_Forall _ _ _ Pw L64)). reflexivity.
      + exact Pw.
      + intros NC. specialize (Full NC). rewrite D2 in Full. rewrite <- (app_nil_r (SliceAsByteSlice (all_locs msgs))) in Full.
        assert (LL : List.length ws' = List.length (all_locs msgs)).
        { apply (f_equal (@List.length Z)) in Full. rewrite !app_length, !flat_len in Full. unfold zlen in Lr. cbn [List.length] in Full. lia. }
        destruct Pw as (q & Pq). rewrite Pq in LL |- *. rewrite app_length in LL. destruct q; [symmetry; apply app_nil_r|cbn [List.length] in LL; lia].
    - exact Lr.
    - rewrite words_len, place_len. rewrite (Z.mul_comm 2), Z.div_mul by lia. pose proof (zlen_nonneg (all_ranges msgs)). lia.
    - rewrite words_len. rewrite Z.mul_comm. apply Z.mod_mul. lia. }
  - reflexivity.
  - reflexivity.
Qed.
