(** * NiProofs2: passes. *)
From Verif Require Import Base PbSpec TModel FrModel ZlModel MtModel IoModel IoSpec NiModel NiSpec.
From Verif Require Import BaseLemmas IoThms NiProofs.

(** ** pairs of words *)
Lemma pieces16 ps rest : pieces 16 (List.length ps) (SliceAsByteSlice (flat_map (fun p : Z * Z => [fst p; snd p]) ps) ++ rest)
  = map (fun p => le64 (fst p) ++ le64 (snd p)) ps.
Proof.
  induction ps as [|[a b] ps IH]; [reflexivity|]. cbn [List.length pieces map flat_map fst snd].
  change (SliceAsByteSlice ([a; b] ++ flat_map (fun p : Z * Z => [fst p; snd p]) ps))
    with (le64 a ++ le64 b ++ SliceAsByteSlice (flat_map (fun p : Z * Z => [fst p; snd p]) ps)).
  rewrite !app_assoc. rewrite <- (app_assoc (le64 a ++ le64 b)). set (tl := SliceAsByteSlice _ ++ rest) in *.
  assert (L : List.length (le64 a ++ le64 b) = 16%nat) by reflexivity.
  rewrite firstn_app, L, Nat.sub_diag, firstn_O, app_nil_r, firstn_all2 by (rewrite L; lia).
  rewrite skipn_app, L, Nat.sub_diag, skipn_O, skipn_all2 by (rewrite L; lia). cbn [app]. rewrite IH. reflexivity.
Qed.
Lemma flat_pairs_len (ps : list (Z * Z)) : List.length (flat_map (fun p : Z * Z => [fst p; snd p]) ps) = (2 * List.length ps)%nat.
Proof. induction ps as [|p ps IH]; [reflexivity|]. cbn [flat_map]. rewrite app_length, IH. cbn [List.length]. lia. Qed.
Lemma pairs_back ps : ByteSliceAsPairSlice (SliceAsByteSlice (flat_map (fun p : Z * Z => [fst p; snd p]) ps)) = map (fun p => (u64 (fst p), u64 (snd p))) ps.
Proof.
  unfold ByteSliceAsPairSlice.
  assert (E : Z.to_nat (zlen (SliceAsByteSlice (flat_map (fun p : Z * Z => [fst p; snd p]) ps)) / 16) = List.length ps).
  { unfold zlen. rewrite flat_len, flat_pairs_len. replace (Z.of_nat (8 * (2 * List.length ps))) with (Z.of_nat (List.length ps) * 16) by lia.
    rewrite Z.div_mul by lia. lia. }
  rewrite E. rewrite <- (app_nil_r (SliceAsByteSlice _)). rewrite pieces16, map_map. apply map_ext. intros [a b]. cbn [fst snd].
  replace (firstn 8 (le64 a ++ le64 b)) with (le64 a) by reflexivity. replace (skipn 8 (le64 a ++ le64 b)) with (le64 b) by reflexivity.
  rewrite !le64_get_le64. reflexivity.
Qed.
Lemma elements_back locs rs : Forall (range_ok locs) rs ->
  map (fun p => mkElem (fst p) (snd p)) (ByteSliceAsPairSlice (SliceAsByteSlice (ni_elements (index_of rs locs)))) = map elem_of rs.
Proof.
  intros H. unfold index_of. cbn [ni_elements].
  replace (map s64 (flat_map words_of rs)) with (flat_map (fun p : Z * Z => [fst p; snd p]) (map (fun r => (s64 (r_first r), s64 (r_offset r * 2^24 + r_count r))) rs)).
  2:{ clear H. induction rs as [|r rs IH]; [reflexivity|]. cbn [map flat_map words_of app fst snd]. rewrite IH. reflexivity. }
  rewrite pairs_back, !map_map. apply map_ext_in. intros r Hr. cbn [fst snd]. unfold elem_of.
  pose proof (proj1 (Forall_forall _ _) H r Hr) as (A & B & C & D & E).
  rewrite !u64_s64, !u64_id by (unfold is_u64; lia). reflexivity.
Qed.

(** ** cutting a list of ranges where the running total reaches a target *)
Fixpoint cut (t tot : Z) (rs : list range) : nat :=
  match rs with [] => O | r :: rs' => if t <=? tot then O else S (cut t (tot + r_count r) rs') end.
Lemma total_app a b : total (a ++ b) = total a + total b.
Proof. induction a as [|r a IH]; cbn [app total]; [lia|]. rewrite IH. lia. Qed.
Lemma total_nonneg locs rs : Forall (range_ok locs) rs -> 0 <= total rs.
Proof. induction 1 as [|r rs H _ IH]; cbn [total]; [lia|]. destruct H as (? & ? & _). lia. Qed.
Lemma ie_Count_elem locs r : range_ok locs r -> ie_Count (elem_of r) = r_count r.
Proof. intros (A & B & _). unfold ie_Count, elem_of. cbn [countOffset]. apply pack_count. lia. Qed.
Lemma cut_le t : forall rs tot, (cut t tot rs <= List.length rs)%nat.
Proof. induction rs as [|r rs IH]; intros tot; cbn [cut List.length]; [lia|]. destruct (t <=? tot); [lia|]. specialize (IH (tot + r_count r)). lia. Qed.
Lemma find_start_cut locs t : forall rs i tot, Forall (range_ok locs) rs -> 0 <= tot -> tot + total rs < 2^64 ->
  find_start (map elem_of rs) i t tot =
    if (cut t tot rs <? List.length rs)%nat then (i + Z.of_nat (cut t tot rs), tot + total (firstn (cut t tot rs) rs)) else (0, tot + total rs).
Proof.
  induction rs as [|r rs IH]; intros i tot Hr H0 H1; cbn [map find_start cut List.length total] in *.
  - change (0 <? 0)%nat with false. cbn match. rewrite Z.add_0_r. reflexivity.
  - pose proof (Forall_inv Hr) as Or. pose proof (Forall_inv_tail Hr) as Hr'.
    destruct (t <=? tot); [cbn [Nat.ltb Nat.leb firstn total]; change (Z.of_nat 0) with 0; rewrite !Z.add_0_r; reflexivity|].
    rewrite (ie_Count_elem locs r Or). destruct Or as (_ & Hc & _). pose proof (total_nonneg locs rs Hr').
    rewrite u64_id by (unfold is_u64; lia). rewrite IH by (assumption || lia).
    replace (S (cut t (tot + r_count r) rs) <? S (List.length rs))%nat with (cut t (tot + r_count r) rs <? List.length rs)%nat by reflexivity.
    destruct (cut t (tot + r_count r) rs <? List.length rs)%nat; cbn [firstn total]; f_equal; lia.
Qed.
Lemma find_end_cut locs t : forall rs i tot, Forall (range_ok locs) rs -> 0 <= tot -> tot + total rs < 2^64 ->
  find_end (map elem_of rs) i t tot = i + Z.of_nat (cut t tot rs).
Proof.
  induction rs as [|r rs IH]; intros i tot Hr H0 H1; cbn [map find_end cut total] in *; [lia|].
  pose proof (Forall_inv Hr) as Or. pose proof (Forall_inv_tail Hr) as Hr'.
  destruct (t <=? tot); [lia|]. rewrite (ie_Count_elem locs r Or). destruct Or as (_ & Hc & _). pose proof (total_nonneg locs rs Hr').
  rewrite u64_id by (unfold is_u64; lia). rewrite IH by (assumption || lia). lia.
Qed.
Lemma cut_mono t1 t2 : t1 <= t2 -> forall rs tot, (cut t1 tot rs <= cut t2 tot rs)%nat.
Proof.
  intros H. induction rs as [|r rs IH]; intros tot; cbn [cut]; [lia|]. destruct (Z.leb_spec t1 tot), (Z.leb_spec t2 tot); try lia.
  specialize (IH (tot + r_count r)). lia.
Qed.
Lemma cut_rest t1 t2 : t1 <= t2 -> forall rs tot,
  (cut t1 tot rs + cut t2 (tot + total (firstn (cut t1 tot rs) rs)) (skipn (cut t1 tot rs) rs))%nat = cut t2 tot rs.
Proof.
  intros H. induction rs as [|r rs IH]; intros tot; cbn [cut]; [reflexivity|].
  destruct (Z.leb_spec t1 tot).
  - cbn [firstn total skipn Nat.add cut]. rewrite Z.add_0_r. reflexivity.
  - destruct (Z.leb_spec t2 tot); [lia|]. cbn [firstn total skipn Nat.add]. rewrite Z.add_assoc. rewrite IH. reflexivity.
Qed.
(** the cut is inside iff the target is reached before the last range *)
Lemma cut_inside locs t l : forall rs tot, Forall (range_ok locs) (rs ++ [l]) ->
  ((cut t tot (rs ++ [l]) < List.length (rs ++ [l]))%nat <-> t <= tot + total rs).
Proof.
  induction rs as [|r rs IH]; intros tot H; cbn [app cut List.length total].
  - destruct (Z.leb_spec t tot); lia.
  - pose proof (Forall_inv_tail H) as H'. pose proof (total_nonneg locs rs (proj1 (proj1 (Forall_app _ _ _) H'))) as P.
    destruct (Forall_inv H) as (_ & Hc & _). destruct (Z.leb_spec t tot); [lia|].
    rewrite Z.add_assoc. rewrite <- (IH (tot + r_count r) H'). lia.
Qed.
Lemma skipn_map' {A B} (f : A -> B) n l : skipn n (map f l) = map f (skipn n l).
Proof. revert l. induction n as [|n IH]; intros [|a l]; cbn [skipn map]; auto. Qed.
Lemma firstn_map' {A B} (f : A -> B) n l : firstn n (map f l) = map f (firstn n l).
Proof. revert l. induction n as [|n IH]; intros [|a l]; cbn [firstn map]; [reflexivity..|]. rewrite IH. reflexivity. Qed.

Lemma len_total locs rs : Forall (range_ok locs) rs -> zlen rs <= total rs.
Proof. induction 1 as [|r rs H _ IH]; [unfold zlen; cbn [List.length total]; lia|]. rewrite zlen_cons. cbn [total]. destruct H as (? & ? & _). lia. Qed.

(** the ranges of pass [i] *)
Definition slice_size (locs : list Z) (n : Z) : Z := zlen locs / n.
Definition pass_ranges (rs : list range) (locs : list Z) (i n : Z) : list range :=
  let s := cut (slice_size locs n * i) 0 rs in
  let e := cut (slice_size locs n * (i + 1)) 0 rs in
  firstn (e - s) (skipn s rs).

Lemma size_bounds locs n i : 1 <= n -> 0 <= i < n -> 0 <= slice_size locs n * i /\ slice_size locs n * (i + 1) <= zlen locs /\ 0 <= slice_size locs n.
Proof.
  intros Hn Hi. pose proof (zlen_nonneg locs). unfold slice_size. assert (0 <= zlen locs / n) by (apply Z.div_pos; lia).
  pose proof (Z.mul_div_le (zlen locs) n ltac:(lia)). repeat split; try nia.
Qed.

Lemma SubIndex_spec rs locs i n : index_ok rs locs -> 1 <= n -> 0 <= i < n ->
  let s := cut (slice_size locs n * i) 0 rs in
  let e := cut (slice_size locs n * (i + 1)) 0 rs in
  ((s < List.length rs)%nat /\ (0 < e)%nat ->
     exists l top, nth_error rs (e - 1) = Some l /\ top = r_first l + r_count l - 1 /\
       SubIndex (index_of rs locs) i n = Ok (sub_index_of (pass_ranges rs locs i n) locs top)) /\
  (~ ((s < List.length rs)%nat /\ (0 < e)%nat) -> SubIndex (index_of rs locs) i n = Panic IndexOutOfRange).
Proof.
  intros (Hok & Hasc & Ht & Hl) Hn Hi s e. destruct (size_bounds locs n i Hn Hi) as (S0 & S1 & S2).
  pose proof (total_nonneg locs rs Hok) as T0.
  unfold SubIndex. rewrite (elements_back locs rs Hok). cbn [index_of ni_locations]. replace (n =? 0) with false by lia.
  fold (slice_size locs n). rewrite (u64_id (slice_size locs n * i)) by (unfold is_u64; lia).
  replace (slice_size locs n * i + slice_size locs n) with (slice_size locs n * (i + 1)) by lia.
  rewrite (u64_id (slice_size locs n * (i + 1))) by (unfold is_u64; lia).
  rewrite (find_start_cut locs _ rs 0 0 Hok) by lia. fold s. rewrite !Z.add_0_l.
  assert (Le : (e <= List.length rs)%nat) by apply cut_le.
  assert (Lse : (s <= e)%nat) by (apply cut_mono; lia).
  destruct (Nat.ltb_spec s (List.length rs)) as [In|Out].
  - rewrite Nat2Z.id, skipn_map'.
    rewrite (find_end_cut locs).
    2:{ rewrite <- (firstn_skipn s rs) in Hok. apply Forall_app in Hok. apply Hok. }
    2:{ apply (total_nonneg locs). rewrite <- (firstn_skipn s rs) in Hok. apply Forall_app in Hok. apply Hok. }
    2:{ rewrite <- total_app, firstn_skipn. lia. }
    assert (E : Z.of_nat s + Z.of_nat (cut (slice_size locs n * (i + 1)) (total (firstn s rs)) (skipn s rs)) = Z.of_nat e).
    { pose proof (cut_rest (slice_size locs n * i) (slice_size locs n * (i + 1)) ltac:(lia) rs 0) as R. rewrite Z.add_0_l in R. fold s in R. fold e in R. lia. }
    rewrite E. unfold lslice. rewrite zlen_map.
    replace ((0 <=? Z.of_nat s) && (Z.of_nat s <=? Z.of_nat e) && (Z.of_nat e <=? zlen rs)) with true by (unfold zlen; lia).
    cbn [bind]. rewrite Nat2Z.id. replace (Z.to_nat (Z.of_nat e - Z.of_nat s)) with (e - s)%nat by lia.
    rewrite skipn_map', firstn_map'. split.
    + intros (_ & E0). destruct (nth_error rs (e - 1)) as [l|] eqn:El; [|apply nth_error_None in El; lia].
      exists l, (r_first l + r_count l - 1). split; [reflexivity|]. split; [reflexivity|].
      assert (B : Z.of_nat e - 1 < 2^63).
      { pose proof (len_total locs rs Hok) as G. unfold zlen in G at 1. lia. }
      rewrite u64_id by (unfold is_u64; lia).
      replace (lidx (map elem_of rs) (Z.of_nat e - 1)) with (Ok (elem_of l)).
      2:{ symmetry. apply lidx_spec. split; [lia|]. replace (Z.to_nat (Z.of_nat e - 1)) with (e - 1)%nat by lia. rewrite nth_error_map, El. reflexivity. }
      cbn [bind]. rewrite (last_elem locs l) by exact (proj1 (Forall_forall _ _) Hok l (nth_error_In _ _ El)). reflexivity.
    + intros N. assert (e = O) by lia. rewrite H. change (u64 (Z.of_nat 0 - 1)) with (2^64 - 1).
      rewrite lidx_panic; [reflexivity|]. rewrite zlen_map.
      pose proof (len_total locs rs Hok) as G. lia.
  - split; [lia|]. intros _. change (Z.to_nat 0) with O. rewrite skipn_O.
    assert (F : find_end (map elem_of rs) 0 (slice_size locs n * (i + 1)) (total rs) = 0).
    { destruct rs as [|r rs']; [reflexivity|]. cbn [map find_end]. replace (slice_size locs n * (i + 1) <=? total (r :: rs')) with true by lia. reflexivity. }
    rewrite F. unfold lslice. rewrite zlen_map. pose proof (zlen_nonneg rs). replace ((0 <=? 0) && (0 <=? 0) && (0 <=? zlen rs)) with true by lia. cbn [bind].
    rewrite lidx_panic; [reflexivity|]. rewrite zlen_map. change (u64 (0 - 1)) with (2^64 - 1).
      pose proof (len_total locs rs Hok) as G. lia.
Qed.

(** the passes one after the other *)
Lemma pass_concat rs locs n k : 1 <= n -> Z.of_nat k <= n ->
  concat (map (fun i => pass_ranges rs locs (Z.of_nat i) n) (seq 0 k)) = firstn (cut (slice_size locs n * Z.of_nat k) 0 rs) rs.
Proof.
  intros Hn. induction k as [|k IH]; intros Hk.
  - cbn [seq map concat]. rewrite Z.mul_0_r. destruct rs; reflexivity.
  - rewrite seq_S, map_app, concat_app, IH by lia. cbn [map concat Nat.add]. rewrite app_nil_r.
    unfold pass_ranges. replace (Z.of_nat k + 1) with (Z.of_nat (S k)) by lia.
    set (s := cut (slice_size locs n * Z.of_nat k) 0 rs). set (e := cut (slice_size locs n * Z.of_nat (S k)) 0 rs).
    assert (s <= e)%nat by (apply cut_mono; destruct (size_bounds locs n 0 Hn ltac:(lia)) as (_ & _ & Q); nia).
    rewrite <- (firstn_skipn s (firstn e rs)) at 1. rewrite firstn_firstn, Nat.min_l by lia. f_equal.
    rewrite firstn_skipn_comm. replace (s + (e - s))%nat with e by lia. reflexivity.
Qed.
