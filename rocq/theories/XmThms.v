(** * XmThms: C112 (the memory limit of a rewrite) and a list reader that C06 leaves out. *)
From Verif Require Import Base PbModel PbSpec NiModel NiSpec NiThms RwModel.
From Verif Require Import BaseLemmas PbProofs PbProofs2 PbThms NiProofs NiProofs2 XwThms.

(** C06, the reader of signed lists that are not deltas (nothing here writes those: a list of them is the list of their
    zigzag forms written as unsigned numbers). *)
Lemma pC06_signed_packed : forall pre post e l, bytes pre -> bytes post -> Forall is_s64 l ->
  let w := EncodeBuffer pre (EncodeU64Packed (map EncodeZigZag l) []) in
  zlen (w ++ post) < 2^63 -> DecodeS64Packed (mkslice (w ++ post) e) (zlen pre) = Ok (l, zlen w).
Proof.
  intros pre post e l H1 H2 H w Hl. unfold w, EncodeU64Packed in *. clear w. rewrite enc_values_eq, map_id in *.
  change (concat (map venc (map EncodeZigZag l))) with (p_zz l) in *. change (vencs (map EncodeZigZag l)) with (p_zz l) in *. cbn [app] in *.
  assert (Hp : bytes (p_zz l)) by (unfold p_zz; apply vencs_bytes, zz_u64; exact H).
  assert (Hlp : zlen (p_zz l) < 2^63).
  { unfold EncodeBuffer in Hl. rewrite EncodeVarInt_app, !zlen_app in Hl. pose proof (zlen_nonneg pre). pose proof (zlen_nonneg post). pose proof (zlen_nonneg (venc (u64 (zlen (p_zz l))))). lia. }
  pose proof (reads_S64Packed l H Hlp) as R. rewrite EncodeBuffer_eq in * by assumption. rewrite !zlen_app. unfold lp in R. rewrite <- zlen_app.
  apply (R (mkslice _ e) pre post); cbn [vis].
  - rewrite <- !app_assoc. reflexivity.
  - rewrite !bytes_app. repeat split; try assumption. apply venc_bytes. unfold is_u64. pose proof (zlen_nonneg (p_zz l)). lia.
  - exact Hl.
Qed.
Lemma pC06_signed_packed_ex : DecodeS64Packed (exact [7; 3; 1; 4; 5; 9]) 1 = Ok ([-1; 2; -3], 5).
Proof. reflexivity. Qed.

(** C112.  With a memory limit of [m] MiB the rewrite takes the least number of passes whose equal shares of the
    locations (8 bytes each) are below the limit, and the ranges of a pass, but for its last one, are below it too. *)
Lemma pC112_memory_partial : forall rs locs m n, index_ok rs locs -> zlen locs < 2^60 -> 0 < m < 2^44 ->
  rw_count (LocationCount (index_of rs locs)) (Some m) = Ok n ->
  1 <= n /\ (n - 1) * (m * 2^20) <= 8 * zlen locs < n * (m * 2^20) /\
  forall i sub, 0 <= i < n -> SubIndex (index_of rs locs) i n = Ok sub ->
    exists ranges top, sub = sub_index_of ranges locs top /\ (forall r, In r ranges -> In r rs) /\
      8 * total (removelast ranges) < m * 2^20.
Proof.
  intros rs locs m n Hi Hz Hm E. pose proof Hi as (Hok & Ha & Ht & _). pose proof (zlen_nonneg locs) as Pz.
  unfold rw_count, LocationCount, index_of in E. cbn [ni_locations] in E. change 1048576 with (2^20) in E.
  rewrite (u64_id (m * 2^20)) in E by (unfold is_u64; lia). rewrite (u64_id (zlen locs * 8)) in E by (unfold is_u64; lia).
  destruct (Z.eqb_spec (m * 2^20) 0) as [|N]; [lia|]. assert (T : 2^20 <= m * 2^20) by nia. set (t := m * 2^20) in *.
  assert (Q : 0 <= zlen locs * 8 / t <= zlen locs * 8) by (split; [apply Z.div_pos; lia|apply Z.div_le_upper_bound; nia]).
  rewrite u64_id in E by (unfold is_u64; lia). injection E as <-. set (q := zlen locs * 8 / t) in *.
  pose proof (Z.div_mod (zlen locs * 8) t ltac:(lia)) as D. pose proof (Z.mod_pos_bound (zlen locs * 8) t ltac:(lia)) as B. fold q in D.
  split; [lia|]. split; [nia|]. intros i sub Hr Es.
  assert (Sl : 8 * slice_size locs (q + 1) < t).
  { unfold slice_size. pose proof (Z.mul_div_le (zlen locs) (q + 1) ltac:(lia)). set (s := zlen locs / (q + 1)) in *. nia. }
  destruct (SubIndex_spec rs locs i (q + 1) Hi ltac:(lia) Hr) as (Y & X). cbn zeta in Y, X.
  destruct (size_bounds locs (q + 1) i ltac:(lia) Hr) as (Z1 & Z2 & Z3). set (z := slice_size locs (q + 1)) in *.
  destruct (Nat.lt_ge_cases (cut (z * i) 0 rs) (List.length rs)) as [G1|G1]; [|rewrite X in Es by lia; discriminate].
  destruct (Nat.lt_ge_cases 0 (cut (z * (i + 1)) 0 rs)) as [G2|G2]; [|rewrite X in Es by lia; discriminate].
  destruct (Y (conj G1 G2)) as (l & top & _ & _ & Es'). rewrite Es in Es'. injection Es' as ->.
  exists (pass_ranges rs locs i (q + 1)), top. split; [reflexivity|]. unfold pass_ranges. fold z.
  set (s := cut (z * i) 0 rs) in *. set (e := cut (z * (i + 1)) 0 rs) in *. split.
  { intros r Hin. rewrite <- (firstn_skipn s rs). apply in_or_app. right. rewrite <- (firstn_skipn (e - s) (skipn s rs)). apply in_or_app. left. exact Hin. }
  assert (Hs : z * i <= total (firstn s rs)).
  { destruct (Z.lt_ge_cases (total (firstn s rs)) (z * i)) as [L|L]; [|lia]. exfalso.
    assert (C : (s < s)%nat) by (apply (proj2 (cut_reached locs (z * i) rs 0 s Hok G1)); lia). lia. }
  assert (Le : (e <= List.length rs)%nat) by (unfold e; apply cut_le).
  assert (Ps : forall k, 0 <= total (skipn k rs)).
  { intros k. apply (total_nonneg locs). apply Forall_forall. intros r Hin. apply (proj1 (Forall_forall _ _) Hok). rewrite <- (firstn_skipn k rs). apply in_or_app. right. exact Hin. }
  destruct (Nat.le_gt_cases e s) as [Es2|Es2].
  { replace (e - s)%nat with 0%nat by lia. cbn [firstn removelast total]. lia. }
  assert (He : total (firstn (e - 1) rs) < z * (i + 1)).
  { pose proof (proj1 (cut_reached locs (z * (i + 1)) rs 0 (e - 1) Hok ltac:(lia))) as C. fold e in C. specialize (C ltac:(lia)). lia. }
  assert (F : removelast (firstn (e - s) (skipn s rs)) = firstn (e - 1 - s) (skipn s rs)).
  { replace (e - s)%nat with (Datatypes.S (e - 1 - s)) by lia. apply removelast_firstn. rewrite skipn_length. lia. }
  rewrite F. assert (J : total (firstn (e - 1) rs) = total (firstn s rs) + total (firstn (e - 1 - s) (skipn s rs))).
  { rewrite <- total_app. f_equal. rewrite <- (firstn_skipn s (firstn (e - 1) rs)) at 1. rewrite firstn_firstn, Nat.min_l by lia. f_equal.
    rewrite skipn_firstn_comm. reflexivity. }
  nia.
Qed.

(** ...but the last range of a pass can be any number of bytes (below 128 MiB) over it: here 140000 nodes with
    consecutive ids make a range of over a megabyte, and the first of two passes has all of it. *)
Definition big_rs : list range := [mkRange 1 140000 0; mkRange 150000 3 140000].
Definition big_locs : list Z := repeat (-1) (Z.to_nat 140003).
Lemma big_len : zlen big_locs = 140003.
Proof. unfold big_locs, zlen. rewrite repeat_length. apply Z2Nat.id. lia. Qed.
Opaque big_locs.
Lemma big_ok : index_ok big_rs big_locs.
Proof.
  unfold index_ok. rewrite big_len. split; [|split].
  - repeat constructor; cbn; rewrite ?big_len; lia.
  - intros [|[|i]] [|[|j]] a b L; cbn; try lia; try (destruct i; discriminate); try (destruct j; discriminate). intros [= <-] [= <-]. cbn. lia.
  - cbn. lia.
Qed.
Lemma pC112_memory_refuted : exists rs locs m n sub, index_ok rs locs /\
  rw_count (LocationCount (index_of rs locs)) (Some m) = Ok n /\ (exists sub', SubIndex (index_of rs locs) 1 n = Ok sub') /\
  SubIndex (index_of rs locs) 0 n = Ok sub /\ exists ranges top, sub = sub_index_of ranges locs top /\ m * 2^20 < 8 * total ranges.
Proof.
  destruct (SubIndex_spec big_rs big_locs 0 2 big_ok ltac:(lia) ltac:(lia)) as (Y0 & _).
  destruct (SubIndex_spec big_rs big_locs 1 2 big_ok ltac:(lia) ltac:(lia)) as (Y1 & _). cbn zeta in Y0, Y1.
  unfold pass_ranges, slice_size in Y0, Y1. rewrite big_len in Y0, Y1.
  change (cut (140003 / 2 * 0) 0 big_rs) with 0%nat in Y0. change (cut (140003 / 2 * (0 + 1)) 0 big_rs) with 1%nat in Y0.
  change (cut (140003 / 2 * 1) 0 big_rs) with 1%nat in Y1. change (cut (140003 / 2 * (1 + 1)) 0 big_rs) with 2%nat in Y1.
  destruct Y0 as (l0 & t0 & _ & _ & E0). { cbn; lia. } destruct Y1 as (l1 & t1 & _ & _ & E1). { cbn; lia. }
  exists big_rs, big_locs, 1, 2. eexists. split; [exact big_ok|]. split.
  { unfold rw_count, LocationCount, index_of. cbn [ni_locations]. rewrite big_len. reflexivity. }
  split; [eexists; exact E1|]. split; [exact E0|]. eexists _, _. split; [reflexivity|]. cbn. lia.
Qed.
(** Hypotheses of C112_memory_partial met with two passes: the same index. *)
Lemma pC112_memory_ex : index_ok big_rs big_locs /\ zlen big_locs < 2^60 /\ rw_count (LocationCount (index_of big_rs big_locs)) (Some 1) = Ok 2 /\
  rw_count (LocationCount (index_of big_rs big_locs)) (Some 2) = Ok 1.
Proof.
  split; [exact big_ok|]. unfold rw_count, LocationCount, index_of. cbn [ni_locations]. rewrite big_len. repeat split; reflexivity.
Qed.
