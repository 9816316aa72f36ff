(** * DuThms: the dump tools and command lines, C99-C101. *)
From Verif Require Import Base PbSpec TModel FrModel ZlModel MtModel MtSpec IoModel IoSpec NiModel NiSpec WiModel WiSpec DuModel DuSpec NiThms.
From Verif Require Import BaseLemmas IoThms MtThms NiProofs NiProofs2 NiProofs3 NiProofs4 NiThms.
From Verif Require Import NiSpec DuSpec.

(** ** C99 *)
Lemma u64_zero loc : is_s64 loc -> (u64 loc =? 0) = (loc =? 0).
Proof. unfold is_s64, u64. intros H. destruct (Z.eqb_spec loc 0) as [->|N]; [reflexivity|]. destruct (Z.eqb_spec (loc mod 2^64) 0) as [E|E]; [|reflexivity].
  apply Z.mod_divide in E; [|lia]. destruct E as (k & E). assert (k = 0) by lia. subst k. lia. Qed.

Lemma u64_mod x : u64 x = x mod 2^64.
Proof. reflexivity. Qed.
Section Dump.
  Variables (rs : list range) (locs : list Z) (top : Z) (o : NodeDumpOpts).
  Hypotheses (Hok : Forall (range_ok locs) rs) (Hasc : ascending_ranges rs) (Ht : top_of rs top) (Hl : Forall is_s64 locs).
  Let p := nd_PrintLocations o. Let s := nd_SearchIndex o.
  Let si := sub_index_of rs locs top.

  Lemma dump_id r k idx : nth_error rs k = Some r -> 0 <= idx < r_count r ->
    node_dump_id o si (elem_of r) idx = Ok (id_lines p s (r_first r) idx (nth (Z.to_nat (r_offset r) + Z.to_nat idx) locs 0)).
  Proof.
    intros Hr Hi. pose proof (proj1 (Forall_forall _ _) Hok r (nth_error_In _ _ Hr)) as R. pose proof R as (R1 & R2 & R3 & R4 & R5).
    assert (Iin : NiSpec.in_range r (r_first r + idx)) by (unfold NiSpec.in_range; lia).
    destruct (fetch locs r (r_first r + idx) R Iin) as (loc & En & _ & El). replace (r_offset r + (r_first r + idx - r_first r)) with (r_offset r + idx) in * by lia.
    assert (Nth : nth (Z.to_nat (r_offset r) + Z.to_nat idx) locs 0 = loc).
    { rewrite <- Z2Nat.inj_add by lia. apply (nth_error_nth _ _ 0 En). }
    rewrite Nth. assert (Sl : is_s64 loc) by (apply (proj1 (Forall_forall _ _) Hl); apply (nth_error_In _ _ En)).
    unfold node_dump_id, ie_Offset, FirstID. cbn [elem_of baseId countOffset si_locations]. rewrite pack_offset by lia.
    rewrite (u64_id (r_offset r + idx)) by (unfold is_u64; lia). rewrite (u64_id (r_first r + idx)) by (unfold is_u64; lia).
    destruct (FindNode_spec rs locs (r_first r + idx) Hok Hasc top 0 Ht ltac:(lia)) as (F & _). destruct (F k r Hr Iin) as (loc' & En' & Ef).
    replace (r_offset r + (r_first r + idx - r_first r)) with (r_offset r + idx) in En' by lia. rewrite En in En'. injection En' as <-.
    fold si in Ef. fold p s. unfold id_lines. rewrite <- u64_mod.
    assert (Sloc : lidx (si_locations si) (r_offset r + idx) = Ok loc) by exact El.
    rewrite Sloc, Ef. cbn [bind]. rewrite u64_zero by exact Sl. destruct (DecodeLocation (u64 loc)) as [lng lat].
    destruct p, s, (loc =? 0); cbn [bind andb negb app]; rewrite ?Z.eqb_refl; cbn [negb]; reflexivity.
  Qed.
  Lemma dump_ids r k : nth_error rs k = Some r -> forall n j, (j + n = Z.to_nat (r_count r))%nat ->
    node_dump_ids o si (elem_of r) n (Z.of_nat j) =
    Ok (flat_map (fun i => id_lines p s (r_first r) (Z.of_nat i) (nth (Z.to_nat (r_offset r) + i) locs 0)) (seq j n)).
  Proof.
    intros Hr. induction n as [|n IH]; intros j H; [reflexivity|]. cbn [node_dump_ids seq flat_map].
    rewrite (dump_id r k) by (try assumption; lia). cbn [bind]. replace (Z.of_nat j + 1) with (Z.of_nat (S j)) by lia. rewrite IH by lia. cbn [bind].
    rewrite Nat2Z.id. reflexivity.
  Qed.
  Lemma no_lines : p = false -> s = false -> forall l, listing p s locs l = [].
  Proof.
    intros -> ->. unfold listing, range_lines. induction l as [|r l IH]; [reflexivity|]. cbn [flat_map]. rewrite IH, app_nil_r.
    induction (seq 0 (Z.to_nat (r_count r))) as [|i q IHq]; [reflexivity|]. cbn [flat_map]. rewrite IHq, app_nil_r. unfold id_lines. destruct (DecodeLocation _). reflexivity.
  Qed.
  Lemma dump_elems : forall n cur, (cur + n <= List.length rs)%nat ->
    node_dump_elements o si n (Z.of_nat cur) = Ok (listing p s locs (firstn n (skipn cur rs))).
  Proof.
    induction n as [|n IH]; intros cur H; [reflexivity|]. cbn [node_dump_elements].
    destruct (elem_at rs locs Hok (Z.of_nat cur) ltac:(unfold zlen; lia)) as (r & Er & Rr & El). rewrite Nat2Z.id in Er.
    change (si_element si) with (map elem_of rs). rewrite El. cbn [bind].
    assert (Sk : skipn cur rs = r :: skipn (S cur) rs).
    { clear - Er. revert cur Er. induction rs as [|x l IHl]; intros [|c] E; try discriminate; [cbn in E; injection E as ->; reflexivity|]. cbn [nth_error] in E. cbn [skipn]. rewrite (IHl c E). reflexivity. }
    assert (B : (if nd_SearchIndex o || nd_PrintLocations o then node_dump_ids o si (elem_of r) (Z.to_nat (ie_Count (elem_of r))) 0 else Ok []) = Ok (range_lines p s locs r)).
    { rewrite (ie_Count_elem locs r Rr). change 0 with (Z.of_nat 0) at 1. rewrite (dump_ids r cur Er) by lia. fold s p.
      destruct s eqn:Es; [reflexivity|]. destruct p eqn:Ep; [reflexivity|]. cbn [orb]. pose proof (no_lines Ep Es [r]) as N. unfold listing in N. cbn [flat_map] in N. rewrite app_nil_r in N.
      rewrite Ep, Es in N. rewrite N. reflexivity. }
    rewrite B. cbn [bind]. replace (Z.of_nat cur + 1) with (Z.of_nat (S cur)) by lia. rewrite IH by lia. cbn [bind]. rewrite Sk. cbn [firstn]. reflexivity.
  Qed.
  Lemma dump_asked : (forall st, nd_StartElement o = Some st -> 0 <= st) ->
    (let startElement := match nd_StartElement o with Some s => s | None => 0 end in
     let count := zlen (si_element si) in
     let endElement := match nd_EndElement o with Some e => if e <? count then e else count | None => count end in
     node_dump_elements o si (Z.to_nat (endElement - startElement)) startElement) = Ok (listing p s locs (asked (nd_StartElement o) (nd_EndElement o) rs)).
  Proof.
    intros Hs. cbv zeta. change (si_element si) with (map elem_of rs). rewrite zlen_map.
    set (st := match nd_StartElement o with Some s => s | None => 0 end).
    assert (Hst : 0 <= st) by (unfold st; destruct (nd_StartElement o) as [x|]; [apply Hs; reflexivity|lia]).
    set (e := match nd_EndElement o with Some e => if e <? zlen rs then e else zlen rs | None => zlen rs end).
    assert (He : e <= zlen rs) by (unfold e; destruct (nd_EndElement o) as [x|]; [destruct (Z.ltb_spec x (zlen rs)); lia|lia]).
    assert (A : asked (nd_StartElement o) (nd_EndElement o) rs = skipn (Z.to_nat st) (firstn (Z.to_nat e) rs)).
    { unfold asked, e, st. assert (X : match nd_EndElement o with Some x => firstn (Z.to_nat x) rs | None => rs end =
        firstn (Z.to_nat match nd_EndElement o with Some e => if e <? zlen rs then e else zlen rs | None => zlen rs end) rs).
      { destruct (nd_EndElement o) as [x|]; [destruct (Z.ltb_spec x (zlen rs)); [reflexivity|]|]; unfold zlen in *; rewrite ?Nat2Z.id, ?firstn_all; [|reflexivity].
        apply firstn_all2. lia. }
      rewrite X. destruct (nd_StartElement o); reflexivity. }
    rewrite A. rewrite skipn_firstn_comm.
    replace (Z.to_nat e - Z.to_nat st)%nat with (Z.to_nat (e - st)) by lia.
    rewrite <- (Z2Nat.id st Hst) at 2.
    destruct (Z.le_gt_cases st e) as [L|G]; [apply dump_elems; unfold zlen in He; lia|].
    replace (Z.to_nat (e - st)) with 0%nat by lia. reflexivity.
  Qed.
End Dump.

(** C99.  On an index file, without a part being asked for: every id of the ranges asked for is
    printed, in order, with the value stored for it, once for each of the two options. *)
Lemma pC99_dump : forall o contents rs locs, NewNodeIndex contents = Ok (index_of rs locs) -> index_ok rs locs -> Forall is_s64 locs -> rs <> [] ->
  nd_SubIndexIndex o = None -> (forall st, nd_StartElement o = Some st -> 0 <= st) ->
  node_dump o contents = Ok (listing (nd_PrintLocations o) (nd_SearchIndex o) locs (asked (nd_StartElement o) (nd_EndElement o) rs)).
Proof.
  intros o contents rs locs E Hi Hl N Np Hs. unfold node_dump. rewrite E, Np. cbn [bind].
  destruct (pC48_single_pass rs locs Hi N) as (top & Es & Et). rewrite Es. cbn [bind]. destruct Hi as (H1 & H2 & _).
  apply (dump_asked rs locs top o H1 H2 Et Hl Hs).
Qed.

(** a part *)
Lemma nth_part {A} (l : list A) : forall a b k, (k < a)%nat -> nth_error (firstn a (skipn b l)) k = nth_error l (b + k).
Proof.
  assert (X : forall (l : list A) k m, (k < m)%nat -> nth_error (firstn m l) k = nth_error l k).
  { induction l0 as [|x l0 IH]; intros [|k'] [|m'] H; try lia; try reflexivity. cbn. apply IH. lia. }
  intros a b k H. rewrite X by exact H. clear. revert b. induction l as [|x l IH]; intros [|b]; try reflexivity; [destruct (b + k)%nat; destruct k; reflexivity|]. apply IH.
Qed.
Lemma nth_part_lt {A} (l : list A) a b k z : nth_error (firstn a (skipn b l)) k = Some z -> (k < a)%nat.
Proof. intros H. pose proof (proj1 (nth_error_Some (firstn a (skipn b l)) k) ltac:(congruence)) as Q. rewrite firstn_length in Q. lia. Qed.
Lemma part_top rs locs i n : index_ok rs locs -> 1 <= n -> 0 <= i < n -> forall sub, SubIndex (index_of rs locs) i n = Ok sub ->
  exists top, sub = sub_index_of (pass_ranges rs locs i n) locs top /\ top_of (pass_ranges rs locs i n) top.
Proof.
  intros Hi Hn Hk sub E. destruct (SubIndex_spec rs locs i n Hi Hn Hk) as (Y & N). cbn zeta in Y, N.
  set (st := cut (slice_size locs n * i) 0 rs) in *. set (e := cut (slice_size locs n * (i + 1)) 0 rs) in *.
  assert (D : (st < List.length rs)%nat /\ (0 < e)%nat).
  { destruct (Nat.lt_ge_cases st (List.length rs)) as [G1|G1]; destruct (Nat.lt_ge_cases 0 e) as [G2|G2]; [auto|..]; rewrite N in E; try discriminate; lia. }
  destruct (Y D) as (l & top & El & Et & Es). rewrite E in Es. injection Es as ->. exists top. split; [reflexivity|].
  intros r Hr. unfold pass_ranges in Hr. fold st e in Hr. pose proof Hi as (Hok & Hasc & _).
  apply In_nth_error in Hr. destruct Hr as (k & Hr).
  pose proof (nth_part_lt _ _ _ _ _ Hr) as Kb. pose proof Hr as Hr'. rewrite nth_part in Hr' by exact Kb.
  destruct (Nat.lt_ge_cases (st + k) (e - 1)) as [L|G].
  - pose proof (Hasc (st + k)%nat (e - 1)%nat r l L Hr' El). pose proof (proj1 (Forall_forall _ _) Hok l (nth_error_In _ _ El)) as (_ & Q & _). lia.
  - replace (st + k)%nat with (e - 1)%nat in Hr' by lia. rewrite El in Hr'. injection Hr' as <-. lia.
Qed.
Lemma asc_sub a b (l : list range) : ascending_ranges l -> ascending_ranges (firstn a (skipn b l)).
Proof.
  intros H i j x y L E1 E2.
  assert (X : forall k z, nth_error (firstn a (skipn b l)) k = Some z -> nth_error l (b + k) = Some z).
  { intros k z Hz. rewrite <- Hz. symmetry. apply nth_part. apply (nth_part_lt _ _ _ _ _ Hz). }
  apply (H (b + i)%nat (b + j)%nat); [lia|apply X; exact E1|apply X; exact E2].
Qed.
Lemma dump_one_part p s contents rs locs i n : NewNodeIndex contents = Ok (index_of rs locs) -> index_ok rs locs -> Forall is_s64 locs -> 1 <= n -> 0 <= i < n ->
  forall lines, node_dump (dump_part p s (Some (i, n))) contents = Ok lines <->
    (exists sub, SubIndex (index_of rs locs) i n = Ok sub) /\ lines = listing p s locs (pass_ranges rs locs i n).
Proof.
  intros E Hi Hl Hn Hk lines. unfold node_dump. rewrite E. cbn [bind dump_part nd_SubIndexIndex nd_SubIndexCount option_map fst snd].
  destruct (SubIndex (index_of rs locs) i n) as [sub|pa|] eqn:Es; cbn [bind].
  - destruct (part_top rs locs i n Hi Hn Hk sub Es) as (top & -> & Et). pose proof Hi as (H1 & H2 & _).
    assert (Hok' : Forall (range_ok locs) (pass_ranges rs locs i n)).
    { apply Forall_forall. intros r Hr. apply (proj1 (Forall_forall _ _) H1). unfold pass_ranges in Hr.
      assert (X : forall (l : list range) m x, In x (firstn m l) -> In x l) by (intros l m x Hx; rewrite <- (firstn_skipn m l); apply in_or_app; left; exact Hx).
      apply X in Hr. rewrite <- (firstn_skipn (cut (slice_size locs n * i) 0 rs) rs). apply in_or_app. right. exact Hr. }
    pose proof (dump_asked (pass_ranges rs locs i n) locs top (dump_part p s (Some (i, n))) Hok' (asc_sub _ _ rs H2) Et Hl ltac:(discriminate)) as D.
    match goal with |- (?X = Ok lines) <-> _ => replace X with (Ok (listing p s locs (pass_ranges rs locs i n))) by (symmetry; exact D) end.
    split; [intros Q; injection Q as <-; split; [eexists; reflexivity|reflexivity]|intros (_ & ->); reflexivity].
  - split; [discriminate|intros ((sub & Q) & _); discriminate].
  - split; [discriminate|intros ((sub & Q) & _); discriminate].
Qed.
Lemma listing_concat p s locs l : listing p s locs (concat l) = concat (map (listing p s locs) l).
Proof. unfold listing. induction l as [|a l IH]; [reflexivity|]. cbn [concat map]. rewrite flat_map_app, IH. reflexivity. Qed.
(** C99, parts: if every one of the n parts can be dumped, the parts one after the other are the
    dump of an initial part of the index, each id once and in order; ... *)
Lemma pC99_parts_partial : forall p s contents rs locs n outs, NewNodeIndex contents = Ok (index_of rs locs) -> index_ok rs locs -> Forall is_s64 locs -> 1 <= n ->
  mapm (fun i => node_dump (dump_part p s (Some (i, n))) contents) (map Z.of_nat (seq 0 (Z.to_nat n))) = Ok outs ->
  exists k, concat outs = listing p s locs (firstn k rs).
Proof.
  intros p s contents rs locs n outs E Hi Hl Hn H. apply mapm_map_ok in H.
  exists (cut (slice_size locs n * n) 0 rs).
  assert (G : forall l outs, (forall i, In i l -> (i < Z.to_nat n)%nat) -> Forall2 (fun a c => node_dump (dump_part p s (Some (Z.of_nat a, n))) contents = Ok c) l outs ->
    outs = map (fun i => listing p s locs (pass_ranges rs locs (Z.of_nat i) n)) l).
  { clear H outs. intros l outs Hb F. induction F as [|i c l outs Ei F IH]; [reflexivity|]. cbn [map]. rewrite <- IH by (intros j Hj; apply Hb; right; exact Hj). f_equal.
    apply (dump_one_part p s contents rs locs (Z.of_nat i) n E Hi Hl Hn) in Ei; [apply Ei|]. specialize (Hb i (or_introl eq_refl)). lia. }
  rewrite (G (seq 0 (Z.to_nat n)) outs) by (try exact H; intros i Hx; apply in_seq in Hx; lia).
  rewrite <- (map_map (fun i => pass_ranges rs locs (Z.of_nat i) n) (listing p s locs)), <- listing_concat, pass_concat by lia.
  rewrite Z2Nat.id by lia. reflexivity.
Qed.
(** ... and exactly when the size of a part (locations / n, rounded down) is such that the last
    range starts in the last part, all parts can be dumped and are the dump of the whole. *)
Lemma pC99_parts_whole : forall p s contents rs l locs n, NewNodeIndex contents = Ok (index_of (rs ++ [l]) locs) -> index_ok (rs ++ [l]) locs -> Forall is_s64 locs -> 1 <= n ->
  zlen locs / n * (n - 1) <= total rs < zlen locs / n * n ->
  exists outs whole, mapm (fun i => node_dump (dump_part p s (Some (i, n))) contents) (map Z.of_nat (seq 0 (Z.to_nat n))) = Ok outs /\
    node_dump (dump_part p s None) contents = Ok whole /\ concat outs = whole.
Proof.
  intros p s contents rs l locs n E Hi Hl Hn C. set (all := rs ++ [l]) in *.
  destruct (proj2 (pC48_covers_iff_partial rs l locs n Hi Hn) C) as (subs & Ep & Ec). fold all in Ep, Ec.
  assert (W : node_dump (dump_part p s None) contents = Ok (listing p s locs all)).
  { rewrite (pC99_dump (dump_part p s None) contents all locs E Hi Hl); [reflexivity| |reflexivity|discriminate]. unfold all. destruct rs; discriminate. }
  assert (F : exists outs, mapm (fun i => node_dump (dump_part p s (Some (i, n))) contents) (map Z.of_nat (seq 0 (Z.to_nat n))) = Ok outs).
  { unfold passes in Ep. apply mapm_map_ok in Ep. 
    assert (G : forall q subs, (forall i, In i q -> (i < Z.to_nat n)%nat) -> Forall2 (fun a c => SubIndex (index_of all locs) (Z.of_nat a) n = Ok c) q subs ->
      exists outs, Forall2 (fun a c => node_dump (dump_part p s (Some (Z.of_nat a, n))) contents = Ok c) q outs).
    { clear Ep Ec subs. intros q subs Hb F. induction F as [|i c q subs Ei F IH]; [exists []; constructor|].
      destruct IH as (outs & IH); [intros j Hj; apply Hb; right; exact Hj|]. exists (listing p s locs (pass_ranges all locs (Z.of_nat i) n) :: outs). constructor; [|exact IH].
      apply (dump_one_part p s contents all locs (Z.of_nat i) n E Hi Hl Hn); [specialize (Hb i (or_introl eq_refl)); lia|]. split; [exists c; exact Ei|reflexivity]. }
    destruct (G (seq 0 (Z.to_nat n)) subs ltac:(intros i Hx; apply in_seq in Hx; lia) Ep) as (outs & Fo). exists outs. apply mapm_map_ok. exact Fo. }
  destruct F as (outs & Fo). exists outs, (listing p s locs all). split; [exact Fo|]. split; [exact W|].
  pose proof Fo as Fo'. apply mapm_map_ok in Fo'.
  assert (G : forall q outs, (forall i, In i q -> (i < Z.to_nat n)%nat) -> Forall2 (fun a c => node_dump (dump_part p s (Some (Z.of_nat a, n))) contents = Ok c) q outs ->
    outs = map (fun i => listing p s locs (pass_ranges all locs (Z.of_nat i) n)) q).
  { clear Fo Fo' outs. intros q outs Hb F. induction F as [|i c q outs Ei F IH]; [reflexivity|]. cbn [map]. rewrite <- IH by (intros j Hj; apply Hb; right; exact Hj). f_equal.
    apply (dump_one_part p s contents all locs (Z.of_nat i) n E Hi Hl Hn) in Ei; [apply Ei|]. specialize (Hb i (or_introl eq_refl)). lia. }
  rewrite (G (seq 0 (Z.to_nat n)) outs) by (try exact Fo'; intros i Hx; apply in_seq in Hx; lia).
  rewrite <- (map_map (fun i => pass_ranges all locs (Z.of_nat i) n) (listing p s locs)), <- listing_concat, pass_concat by lia. rewrite Z2Nat.id by lia.
  assert (Cut : cut (slice_size locs n * n) 0 all = List.length all).
  { pose proof (passes_sub all locs n subs Hi Hn Ep) as (M & _). rewrite M, concat_map_map, pass_concat in Ec by lia. rewrite Z2Nat.id in Ec by lia.
    pose proof (f_equal (@List.length _) Ec) as L. rewrite !map_length, firstn_length in L. pose proof (cut_le (slice_size locs n * n) all 0). lia. }
  rewrite Cut, firstn_all. reflexivity.
Qed.

(** from input blocks to the printed lines *)
Lemma indexed_file : forall o inBlocks nss, all_well o -> Forall2 input_block inBlocks nss ->
  let ns := concat nss in
  ascending (map in_id ns) -> Forall (fun n => 2 <= in_id n < 2^63) ns ->
  Forall (fun b => zlen b < 2^23) nss -> 0 < zlen ns < 2^39 ->
  exists w R, ni_index o inBlocks = (w, Ok tt) /\ NewNodeIndex (f_data (w_idx w)) = Ok (index_of (place 0 R) (spans (value_of ns) R)) /\
    index_ok (place 0 R) (spans (value_of ns) R) /\ place 0 R <> [] /\ asc_pairs 1 R /\ (forall n, In n ns -> covered R (in_id n)) /\ Forall is_s64 (spans (value_of ns) R).
Proof.
  intros o bs nss (W1 & W2 & W3 & W4) F ns A I S T. set (V := value_of ns).
  assert (Vv : vals V 1 ns).
  { apply vals_intro; [exact A| |apply value_in; exact A|intros j _; apply value_out].
    intros n Hn. pose proof (proj1 (Forall_forall _ _) I n Hn). cbn beta in H. lia. }
  assert (Ib : Forall (fun n => in_id n < 2^63) ns) by (apply Forall_forall; intros n Hn; pose proof (proj1 (Forall_forall _ _) I n Hn); cbn beta in H; lia).
  destruct (msgs_spec V bs nss F 1 ltac:(lia) Vv Ib S) as (msgs & Em & Wt & Ap & _ & Lc & Cov & Zl & Bd). fold ns in Cov, Zl.
  set (R := all_ranges msgs) in *. assert (Vr : forall id, - 2^63 <= V id <= 0).
  { intros id. unfold V, value_of. destruct (find _ ns) as [n|]; [pose proof (loc_of_ok n); lia|lia]. }
  assert (Sl : zlen (spans V R) <= 2^40) by (rewrite <- Lc; lia).
  assert (St : storable 0 R) by (apply (asc_storable V R 0 1); [lia|assumption|assumption|lia]).
  destruct (output_ok o msgs W1 W2 W3 Wt St) as (w & locs' & Eo & En & _ & El); [rewrite Lc; apply spans_range; exact Vr|].
  rewrite (El W4) in En. clear El. fold R in En. rewrite Lc in En.
  exists w, R. split; [unfold ni_index; rewrite Em; exact Eo|]. split; [exact En|]. split.
  { split; [apply (place_ok V R 0 1); [lia|lia|assumption|assumption|lia|lia]|]. split; [apply (place_ascending R 0 1); assumption|].
    split; [apply (place_total V R 0 1); assumption|lia]. }
  split.
  { assert (R <> []). { intros E. destruct ns as [|n ns']; [unfold zlen in T; cbn [List.length] in T; lia|]. destruct (Cov n (or_introl eq_refl)) as (p & Hp & _). rewrite E in Hp. destruct Hp. }
    destruct R as [|[? ?] ?]; [contradiction|discriminate]. }
  split; [exact Ap|]. split; [exact Cov|]. apply spans_range. exact Vr.
Qed.

Local Notation id_out p s V f := (fun id : Z => id_lines p s f (id - f) (V id)).
Lemma listing_spans p s V : forall R lo pre, asc_pairs lo R -> forall suf,
  listing p s (pre ++ spans V R ++ suf) (place (zlen pre) R) = flat_map (fun q => flat_map (id_out p s V (fst q)) (zrange (fst q) (snd q))) R.
Proof.
  induction R as [|[f l] R IH]; intros lo pre A suf; [reflexivity|]. cbn [asc_pairs place] in *. destruct A as (A1 & A2 & A3).
  unfold listing. cbn [flat_map fst snd]. f_equal.
  - unfold range_lines. cbn [r_first r_count r_offset]. unfold zrange. rewrite flat_map_concat_map, flat_map_concat_map, map_map. f_equal.
    apply map_ext_in. intros i Hi. apply in_seq in Hi. replace (f + Z.of_nat i - f) with (Z.of_nat i) by lia. f_equal.
    change ((f, l) :: R) with ([(f, l)] ++ R). rewrite spans_app, spans_one. cbn [fst snd]. rewrite <- !app_assoc.
    rewrite app_nth2 by (unfold zlen; lia). replace (Z.to_nat (zlen pre) + i - List.length pre)%nat with i by (unfold zlen; lia).
    apply nth_error_nth. rewrite nth_error_app1 by (rewrite map_length; pose proof (zrange_len f l ltac:(lia)) as ZL; unfold zlen in ZL; lia).
    rewrite nth_error_map. replace i with (Z.to_nat (f + Z.of_nat i - f)) at 1 by lia. rewrite zrange_nth by lia. reflexivity.
  - change ((f, l) :: R) with ([(f, l)] ++ R). rewrite spans_app, spans_one. cbn [fst snd]. rewrite <- !app_assoc. rewrite (app_assoc pre).
    replace (zlen pre + (l - f + 1)) with (zlen (pre ++ map V (zrange f l))) by (rewrite zlen_app, zlen_map, zrange_len by lia; lia).
    apply (IH l). exact A3.
Qed.
Lemma ascending_ext (a : list Z) : forall b, ascending a -> ascending b -> (forall x, In x a <-> In x b) -> a = b.
Proof.
  induction a as [|x a IH]; intros [|y b] Ha Hb H; [reflexivity|exfalso; apply (proj2 (H y)); left; reflexivity|exfalso; apply (proj1 (H x)); left; reflexivity|].
  pose proof (ascending_head _ _ Ha) as Ua. pose proof (ascending_head _ _ Hb) as Ub.
  assert (x = y).
  { destruct (proj1 (H x) (or_introl eq_refl)) as [E|E]; [congruence|]. destruct (proj2 (H y) (or_introl eq_refl)) as [E'|E']; [congruence|]. specialize (Ua y E'). specialize (Ub x E). lia. }
  subst y. f_equal. apply IH; [apply Ha|apply Hb|]. intros z. split; intros Hz.
  - destruct (proj1 (H z) (or_intror Hz)) as [->|]; [specialize (Ua z Hz); lia|assumption].
  - destruct (proj2 (H z) (or_intror Hz)) as [->|]; [specialize (Ub z Hz); lia|assumption].
Qed.
Lemma ascending_intro a l : (forall b, In b l -> a < b) -> ascending l -> ascending (a :: l).
Proof. intros H A. split; [|exact A]. destruct l as [|b l]; [exact I|]. apply H. left. reflexivity. Qed.
Lemma ascending_app a b : ascending a -> ascending b -> (forall x y, In x a -> In y b -> x < y) -> ascending (a ++ b).
Proof.
  induction a as [|x a IH]; intros Ha Hb H; [exact Hb|]. cbn [app]. apply ascending_intro.
  - intros y Hy. apply in_app_or in Hy. destruct Hy as [Hy|Hy]; [apply (ascending_head _ _ Ha); exact Hy|]. apply H; [left; reflexivity|exact Hy].
  - apply IH; [apply Ha|exact Hb|]. intros u v Hu Hv. apply H; [right; exact Hu|exact Hv].
Qed.
Lemma ascending_filter f l : ascending l -> ascending (filter f l).
Proof.
  induction l as [|x l IH]; intros H; [exact I|]. cbn [filter]. pose proof (ascending_head _ _ H). destruct (f x); [|apply IH, H].
  apply ascending_intro; [|apply IH, H]. intros b Hb. apply filter_In in Hb. apply H0, Hb.
Qed.
Lemma in_zrange f l x : In x (zrange f l) <-> f <= x <= l.
Proof.
  unfold zrange. rewrite in_map_iff. split; [intros (i & <- & Hi); apply in_seq in Hi; lia|]. intros H. exists (Z.to_nat (x - f)). split; [lia|]. apply in_seq. lia.
Qed.
Lemma zrange_asc f l : ascending (zrange f l).
Proof.
  unfold zrange. generalize (Z.to_nat (l - f + 1)). intros n. assert (G : forall n k, ascending (map (fun i => f + Z.of_nat i) (seq k n))).
  { clear. induction n as [|n IH]; intros k; [exact I|]. cbn [seq map]. apply ascending_intro; [|apply IH]. intros b Hb. apply in_map_iff in Hb. destruct Hb as (i & <- & Hi). apply in_seq in Hi. lia. }
  apply G.
Qed.
Definition ids_of (R : list (Z * Z)) : list Z := flat_map (fun q => zrange (fst q) (snd q)) R.
Lemma in_ids R x : In x (ids_of R) <-> covered R x.
Proof. unfold ids_of, covered. rewrite in_flat_map. split; intros (q & Hq & H); exists q; (split; [exact Hq|]); apply in_zrange; exact H. Qed.
Lemma asc_pairs_lo R : forall lo x, asc_pairs lo R -> covered R x -> lo < x.
Proof.
  induction R as [|[f l] R IH]; intros lo x A (q & Hq & H); [destruct Hq|]. cbn [asc_pairs] in A. destruct A as (A1 & A2 & A3). destruct Hq as [<-|Hq]; [cbn in H; lia|].
  pose proof (IH l x A3 (ex_intro _ q (conj Hq H))). lia.
Qed.
Lemma ids_asc R : forall lo, asc_pairs lo R -> ascending (ids_of R).
Proof.
  induction R as [|[f l] R IH]; intros lo A; [exact I|]. cbn [asc_pairs] in A. destruct A as (A1 & A2 & A3). unfold ids_of. cbn [flat_map fst snd]. apply ascending_app.
  - apply zrange_asc.
  - apply (IH l A3).
  - intros x y Hx Hy. apply in_zrange in Hx. apply in_ids in Hy. pose proof (asc_pairs_lo R l y A3 Hy). lia.
Qed.
Lemma extracted_app a b : extracted (a ++ b) = extracted a ++ extracted b.
Proof. apply flat_map_app. Qed.
Lemma searched_app a b : searched (a ++ b) = searched a ++ searched b.
Proof. apply flat_map_app. Qed.
Definition at_node {A} (V : Z -> Z) (g : Z -> Z * Z -> A) (id : Z) : list A := if V id =? 0 then [] else [g id (DecodeLocation (V id mod 2^64))].
Lemma spans_extracted p s V R :
  extracted (flat_map (fun q => flat_map (id_out p s V (fst q)) (zrange (fst q) (snd q))) R) =
  if p then flat_map (at_node V (fun id c => (id, fst c, snd c))) (ids_of R) else [].
Proof.
  unfold ids_of. induction R as [|[f l] R IH]; [destruct p; reflexivity|]. cbn [flat_map fst snd]. rewrite extracted_app, IH. clear IH.
  assert (G : forall q, extracted (flat_map (id_out p s V f) q) = if p then flat_map (at_node V (fun id c => (id, fst c, snd c))) q else []).
  { induction q as [|x q IH]; [destruct p; reflexivity|]. cbn [flat_map]. rewrite extracted_app, IH. unfold id_lines, at_node. destruct (DecodeLocation _) as [lng lat].
    replace (f + (x - f)) with x by lia. destruct p, s, (V x =? 0); reflexivity. }
  rewrite G. destruct p; [rewrite flat_map_app; reflexivity|reflexivity].
Qed.
Lemma spans_searched p s V R :
  searched (flat_map (fun q => flat_map (id_out p s V (fst q)) (zrange (fst q) (snd q))) R) =
  if s then flat_map (at_node V (fun _ c => c)) (ids_of R) else [].
Proof.
  unfold ids_of. induction R as [|[f l] R IH]; [destruct s; reflexivity|]. cbn [flat_map fst snd]. rewrite searched_app, IH. clear IH.
  assert (G : forall q, searched (flat_map (id_out p s V f) q) = if s then flat_map (at_node V (fun _ c => c)) q else []).
  { induction q as [|x q IH]; [destruct s; reflexivity|]. cbn [flat_map]. rewrite searched_app, IH. unfold id_lines, at_node. destruct (DecodeLocation _) as [lng lat].
    destruct p, s, (V x =? 0); reflexivity. }
  rewrite G. destruct s; [rewrite flat_map_app; reflexivity|reflexivity].
Qed.
Lemma id_no_mismatch p s f i loc : ~ In Mismatch (id_lines p s f i loc).
Proof.
  unfold id_lines. generalize (DecodeLocation (loc mod 2^64)). generalize (loc mod 2^64). intros w [lng lat] H.
  apply in_app_or in H. destruct H as [H|H].
  - destruct p; [|destruct H]. destruct H as [H|[]]. destruct (loc =? 0); discriminate.
  - destruct s; [|destruct H]. destruct H as [H|[]]. destruct (loc =? 0); discriminate.
Qed.
Lemma spans_no_mismatch p s V R : ~ In Mismatch (flat_map (fun q => flat_map (id_out p s V (fst q)) (zrange (fst q) (snd q))) R).
Proof.
  intros H. apply in_flat_map in H. destruct H as (q & _ & H). apply in_flat_map in H. destruct H as (x & _ & H).
  apply id_no_mismatch in H. exact H.
Qed.
Lemma at_nodes {B} (ns : list input_node) (g : Z -> Z * Z -> B) R : ascending (map in_id ns) -> asc_pairs 1 R -> (forall n, In n ns -> covered R (in_id n)) ->
  Forall (fun n => is_s32 (in_lon n) /\ valid_lat (in_lat n)) ns ->
  flat_map (at_node (value_of ns) g) (ids_of R) = map (fun n => g (in_id n) (in_lon n, in_lat n)) ns.
Proof.
  intros A Ap Cov Ok. set (V := value_of ns).
  assert (E : filter (fun id => negb (V id =? 0)) (ids_of R) = map in_id ns).
  { apply ascending_ext; [apply ascending_filter, (ids_asc R 1 Ap)|exact A|]. intros x. rewrite filter_In, in_ids. split.
    - intros (_ & Nz). destruct (in_dec Z.eq_dec x (map in_id ns)) as [I|N]; [exact I|]. unfold V in Nz. rewrite value_out in Nz by exact N. discriminate.
    - intros I. apply in_map_iff in I. destruct I as (n & <- & Hn). split; [apply Cov; exact Hn|]. unfold V. rewrite value_in by assumption. destruct (loc_of_ok n). lia. }
  assert (F : forall l, flat_map (at_node V g) l = map (fun id => g id (DecodeLocation (V id mod 2^64))) (filter (fun id => negb (V id =? 0)) l)).
  { induction l as [|x l IH]; [reflexivity|]. cbn [flat_map filter]. rewrite IH. unfold at_node. destruct (V x =? 0); reflexivity. }
  rewrite F, E, map_map. apply map_ext_in. intros n Hn. unfold V. rewrite value_in by assumption.
  destruct (proj1 (Forall_forall _ _) Ok n Hn) as (L1 & L2). destruct (pC42_location (in_lon n) (in_lat n) L1 L2) as (x & Ex & _ & D).
  destruct (loc_of_ok n) as (L & _). rewrite L in Ex. injection Ex as Ex. rewrite Ex. rewrite u64_mod in D. rewrite D. reflexivity.
Qed.
(** C99.  After indexing any input as in C47 whose nodes have valid coordinates, the dump of the
    index file prints with each option exactly the nodes of the input, in order, with their
    coordinates (and their ids), and no mismatch. *)
Lemma pC99_from_input_partial : forall o inBlocks nss print search, all_well o -> Forall2 input_block inBlocks nss ->
  let ns := concat nss in
  ascending (map in_id ns) -> Forall (fun n => 2 <= in_id n < 2^63) ns -> Forall (fun n => is_s32 (in_lon n) /\ valid_lat (in_lat n)) ns ->
  Forall (fun b => zlen b < 2^23) nss -> 0 < zlen ns < 2^39 ->
  exists w lines, ni_index o inBlocks = (w, Ok tt) /\ node_dump (dump_part print search None) (f_data (w_idx w)) = Ok lines /\
    extracted lines = (if print then map (fun n => (in_id n, in_lon n, in_lat n)) ns else []) /\
    searched lines = (if search then map (fun n => (in_lon n, in_lat n)) ns else []) /\ ~ In Mismatch lines.
Proof.
  intros o bs nss p s W F ns A I C S T. destruct (indexed_file o bs nss W F A I S T) as (w & R & E1 & E2 & Hi & Ne & Ap & Cov & L64).
  fold ns in E2, Hi, Cov, L64.
  exists w. eexists. split; [exact E1|]. split; [apply (pC99_dump (dump_part p s None) _ _ _ E2 Hi L64 Ne eq_refl); discriminate|].
  cbn [dump_part nd_PrintLocations nd_SearchIndex nd_StartElement nd_EndElement asked].
  pose proof (listing_spans p s (value_of ns) R 1 [] Ap []) as LS. cbn [app] in LS. rewrite app_nil_r in LS. change (zlen (@nil Z)) with 0 in LS. rewrite LS.
  rewrite spans_extracted, spans_searched. split; [destruct p; [apply (at_nodes ns (fun id c => (id, fst c, snd c)) R A Ap Cov C)|reflexivity]|].
  split; [destruct s; [apply (at_nodes ns (fun _ c => c) R A Ap Cov C)|reflexivity]|]. apply spans_no_mismatch.
Qed.
(** The nodes of the input of C47_ex, written and dumped. *)
Lemma pC99_from_input_ex : Forall (fun n => is_s32 (in_lon n) /\ valid_lat (in_lat n)) (concat ex_ni_nodes) /\
  exists w lines, ni_index os_well ex_ni_blocks = (w, Ok tt) /\ node_dump (dump_part true true None) (f_data (w_idx w)) = Ok lines /\
    zlen lines = 14 /\ extracted lines = [(2, 1, 10); (3, 2, -20); (5, 3, 30); (9, 4, 40); (10, 9, 7); (20, 0, 8)].
Proof.
  split.
  - unfold ex_ni_nodes. cbn [concat app]. repeat (apply Forall_cons; [unfold is_s32, valid_lat; cbn; lia|]). apply Forall_nil.
  - do 2 eexists. split; [vm_compute; reflexivity|]. split; [vm_compute; reflexivity|]. split; vm_compute; reflexivity.
Qed.
Definition ex_file (rs : list range) (locs : list Z) : list Z := SliceAsByteSlice ([1; zlen rs] ++ ni_elements (index_of rs locs) ++ locs).
(** Ten ranges of one location each, whole from the third on, and in five parts. *)
Lemma pC99_ex : NewNodeIndex (ex_file ex_ten (repeat (-1) 10)) = Ok (index_of ex_ten (repeat (-1) 10)) /\ index_ok ex_ten (repeat (-1) 10) /\ Forall is_s64 (repeat (-1) 10) /\
  (exists lines, node_dump (mkNodeDump true false None None (Some 2) (Some 5) plain) (ex_file ex_ten (repeat (-1) 10)) = Ok lines /\ map (fun x => fst (fst x)) (extracted lines) = [20; 30; 40]) /\
  (exists outs, mapm (fun i => node_dump (dump_part true false (Some (i, 5))) (ex_file ex_ten (repeat (-1) 10))) (map Z.of_nat (seq 0 (Z.to_nat 5))) = Ok outs /\
     map (fun x => fst (fst x)) (extracted (concat outs)) = [0; 10; 20; 30; 40; 50; 60; 70; 80; 90]).
Proof.
  split; [vm_compute; reflexivity|]. split; [exact ex_ten_ok|]. split; [cbn [repeat]; repeat (apply Forall_cons; [unfold is_s64; lia|]); apply Forall_nil|].
  split; eexists; (split; [vm_compute; reflexivity|vm_compute; reflexivity]).
Qed.
(** C99 is false of the code: the ten ranges in three parts: all three can be dumped, and id 90
    is in none of them; in eleven parts the first panics; ... *)
Lemma pC99_parts_refuted :
  (exists outs, mapm (fun i => node_dump (dump_part true true (Some (i, 3))) (ex_file ex_ten (repeat (-1) 10))) (map Z.of_nat (seq 0 (Z.to_nat 3))) = Ok outs /\
     map (fun x => fst (fst x)) (extracted (concat outs)) = [0; 10; 20; 30; 40; 50; 60; 70; 80]) /\
  node_dump (dump_part true true (Some (0, 11))) (ex_file ex_ten (repeat (-1) 10)) = Panic IndexOutOfRange.
Proof. split; [eexists; split; vm_compute; reflexivity|vm_compute; reflexivity]. Qed.
(** ... and a start element below zero makes every dump panic. *)
Lemma pC99_start_refuted : forall p s st sys contents rs locs, NewNodeIndex contents = Ok (index_of rs locs) -> index_ok rs locs -> rs <> [] -> st < 0 ->
  node_dump (mkNodeDump p s None None (Some st) None sys) contents = Panic IndexOutOfRange.
Proof.
  intros p s st sys contents rs locs E Hi N Hs. unfold node_dump. rewrite E. cbn [bind nd_SubIndexIndex].
  destruct (pC48_single_pass rs locs Hi N) as (top & Es & _). rewrite Es. cbn [bind nd_StartElement nd_EndElement].
  change (si_element (sub_index_of rs locs top)) with (map elem_of rs). pose proof (zlen_nonneg (map elem_of rs)).
  destruct (Z.to_nat (zlen (map elem_of rs) - st)) as [|n] eqn:En; [lia|]. cbn [node_dump_elements].
  change (si_element (sub_index_of rs locs top)) with (map elem_of rs). unfold lidx. replace ((0 <=? st) && (st <? zlen (map elem_of rs))) with false by lia.
  cbn [bind]. reflexivity.
Qed.
