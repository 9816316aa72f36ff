(** * DwThms: dumping way indexes, and command lines, C100-C101. *)
From Verif Require Import Base PbSpec PbModel TModel HLModel FrModel ZlModel IoModel IoSpec NiModel NiSpec WiModel WiSpec DuModel DuSpec NiThms WiThms DuThms.
From Verif Require Import BaseLemmas PbThms IoThms NiProofs NiProofs2 NiProofs3 NiProofs4 NiThms WiProofs WiProofs2 WiThms DuThms.
From Verif Require Import WiSpec DuSpec.

(** ** C100 *)
Lemma entry_unique es loc shift e x : way_index_ok es loc shift -> In e es -> In x es -> e_id x = e_id e -> x = e.
Proof.
  intros (_ & HA & _) He Hx E. apply In_nth_error in He, Hx. destruct He as (i & Ei). destruct Hx as (j & Ej).
  destruct (Nat.lt_trichotomy i j) as [Lt|[->|Lt]]; [|congruence|].
  - pose proof (HA i j e x Lt Ei Ej). lia.
  - pose proof (HA j i x e Lt Ej Ei). lia.
Qed.
Definition in_entries (es : list entry) (e : entry) : bool := existsb (fun x => e_id x =? e_id e) es.
Lemma dump_entries es sub loc shift L top o : way_index_ok es loc shift -> way_index_ok sub loc shift -> incl sub es ->
  (forall e, In e es -> stored loc (position shift e) (L e)) -> (forall e, In e sub -> e_id e <= top) ->
  mapm (way_dump_entry o (way_index_of es loc shift) (mkSWI (map word_of sub) loc shift top)) (map word_of es) =
  Ok (map (fun e => (if wd_PrintLocations o then [WayLine (e_id e) (L e)] else []) ++
                    (if wd_SearchIndex o then [if in_entries sub e then WayLine (e_id e) (L e) else WayFailed (e_id e)] else [])) es).
Proof.
  intros H Hs Inc HL Ht. set (si := mkSWI (map word_of sub) loc shift top).
  assert (G : forall l, incl l es -> mapm (way_dump_entry o (way_index_of es loc shift) si) (map word_of l) =
    Ok (map (fun e => (if wd_PrintLocations o then [WayLine (e_id e) (L e)] else []) ++
                    (if wd_SearchIndex o then [if in_entries sub e then WayLine (e_id e) (L e) else WayFailed (e_id e)] else [])) l)).
  { induction l as [|e l IH]; intros I; [reflexivity|]. cbn [map mapm]. assert (Ie : In e es) by (apply I; left; reflexivity).
    assert (E : way_dump_entry o (way_index_of es loc shift) si (word_of e) = Ok ((if wd_PrintLocations o then [WayLine (e_id e) (L e)] else []) ++
                    (if wd_SearchIndex o then [if in_entries sub e then WayLine (e_id e) (L e) else WayFailed (e_id e)] else []))).
    { unfold way_dump_entry. cbn [way_index_of wi_Ids wi_Loc wi_Shift]. rewrite (wfetch es loc shift H L HL 0 e Ie). rewrite word_id by exact (proj1 (Forall_forall _ _) (proj1 H) e Ie).
      destruct (FindLocations_spec sub loc shift (e_id e) Hs L ltac:(intros x Hx; apply HL, Inc; exact Hx) top 0 Ht ltac:(lia)) as (F & N). fold si in F, N.
      assert (S : exists h, FindLocations si (e_id e) 0 = Ok (if in_entries sub e then (L e, h, true) else ([], 0, false))).
      { destruct (in_entries sub e) eqn:Ei; unfold in_entries in Ei.
        - apply existsb_exists in Ei. destruct Ei as (x & Hx & Ex). apply Z.eqb_eq in Ex. pose proof (entry_unique es loc shift e x H Ie (Inc x Hx) Ex) as ->.
          apply In_nth_error in Hx. destruct Hx as (k & Ek). exists (Z.of_nat k). exact (F k e Ek eq_refl).
        - exists 0. apply N. intros x Hx Ex. pose proof (existsb_false _ _ Ei x Hx) as Q. cbn beta in Q. lia. }
      destruct S as (h & ->). destruct (wd_PrintLocations o), (wd_SearchIndex o), (in_entries sub e); reflexivity. }
    rewrite E. cbn [bind]. rewrite IH by (intros x Hx; apply I; right; exact Hx). reflexivity. }
  apply G. apply incl_refl.
Qed.
(** C100.  On a way index file without a part being asked for: for each way, in order, its
    locations, once for each of the two options; no failure. *)
Lemma pC100_dump : forall p s contents es loc shift L, NewWayIndex contents = Ok (way_index_of es loc shift) -> way_index_ok es loc shift -> es <> [] ->
  (forall e, In e es -> stored loc (position shift e) (L e)) ->
  way_dump (way_part p s None) contents =
    Ok (flat_map (fun e => (if p then [WayLine (e_id e) (L e)] else []) ++ (if s then [WayLine (e_id e) (L e)] else [])) es).
Proof.
  intros p s contents es loc shift L E H N HL. unfold way_dump. rewrite E. cbn [bind]. change (wd_SubIndexIndex (way_part p s None)) with (@None Z). cbv iota.
  rewrite (whole_pass es loc shift H N). cbn [bind]. change (wi_Ids (way_index_of es loc shift)) with (map word_of es).
  rewrite (dump_entries es es loc shift L (e_id (last es e0)) (way_part p s None) H H (incl_refl es) HL ltac:(intros x Hx; apply asc_last; [apply H|exact Hx])).
  cbn [bind way_part wd_PrintLocations wd_SearchIndex]. rewrite flat_map_concat_map. do 2 f_equal.
  apply map_ext_in. intros e He. replace (in_entries es e) with true; [reflexivity|]. symmetry. unfold in_entries. apply existsb_exists. exists e. split; [exact He|lia].
Qed.
(** C100, a part: exactly what is printed for part k of n (which can be dumped if some way starts
    before its end): with the first option all ways of the index, not only the part's; with the
    second every way not in the part is reported as a failure. *)
Lemma pC100_part_exact : forall p s contents es loc shift L k n, NewWayIndex contents = Ok (way_index_of es loc shift) -> way_index_ok es loc shift ->
  (forall e, In e es -> stored loc (position shift e) (L e)) -> 1 <= n -> 0 <= k < n ->
  let q := zlen loc / n in (exists e, In e es /\ position shift e < q * (k + 1)) ->
  exists found : entry -> bool, (forall e, In e es -> (found e = true <-> In e (pass_of shift (q * k) (q * (k + 1)) es))) /\
    way_dump (way_part p s (Some (k, n))) contents =
      Ok (flat_map (fun e => (if p then [WayLine (e_id e) (L e)] else []) ++
                             (if s then [if found e then WayLine (e_id e) (L e) else WayFailed (e_id e)] else [])) es).
Proof.
  intros p s contents es loc shift L k n E H HL Hn Hk q Ex. set (sub := pass_of shift (q * k) (q * (k + 1)) es).
  destruct (proj2 (pC58_pass es loc shift k n H Hn Hk) Ex) as (top & Es & Et). fold q sub in Es, Et.
  assert (Inc : incl sub es) by (intros e; unfold sub, pass_of; destruct (existsb _ es); [intros X; apply filter_In in X; apply X|auto]).
  assert (Hs : way_index_ok sub loc shift) by (unfold sub, pass_of; destruct (existsb _ es); [apply ok_filter|]; exact H).
  exists (in_entries sub). split.
  - intros e He. unfold in_entries. rewrite existsb_exists. split.
    + intros (x & Hx & Ei). apply Z.eqb_eq in Ei. rewrite <- (entry_unique es loc shift e x H He (Inc x Hx) Ei). exact Hx.
    + intros I. exists e. split; [exact I|lia].
  - unfold way_dump. rewrite E. cbn [bind]. change (wd_SubIndexIndex (way_part p s (Some (k, n)))) with (Some k). change (wd_SubIndexCount (way_part p s (Some (k, n)))) with (Some n). cbv iota.
    rewrite Es. cbn [bind]. change (wi_Ids (way_index_of es loc shift)) with (map word_of es).
    rewrite (dump_entries es sub loc shift L top (way_part p s (Some (k, n))) H Hs Inc HL Et). cbn [bind way_part wd_PrintLocations wd_SearchIndex]. rewrite flat_map_concat_map. reflexivity.
Qed.
(** C100.  After indexing any input as in C57, the dump of the index file prints for each way of
    the input, in order, what is kept of its refs, once for each option. *)
Lemma pC100_from_input : forall o a inBlocks wss print search, all_well o -> 0 <= a <= 62 -> Forall2 ways_block inBlocks wss -> concat wss <> [] ->
  Forall (fun w => 0 <= fst w < 2^31 /\ Forall is_s64 (snd w)) (concat wss) -> ascending_by fst (concat wss) ->
  size_bound a (concat wss) <= 2^(33 + a) -> size_bound a (concat wss) < 2^62 ->
  exists w, wi_index o a inBlocks = (w, Ok tt) /\
    way_dump (way_part print search None) (f_data (w_idx w)) =
      Ok (flat_map (fun x => (if print then [WayLine (fst x) (kept 0 (snd x))] else []) ++ (if search then [WayLine (fst x) (kept 0 (snd x))] else [])) (concat wss)).
Proof.
  intros o a bs wss p s (W & R & C & NC) Ha F2 NE Hw Hasc Hs Hb.
  assert (Hi : Forall (fun w => 0 <= fst w < 2^31) (concat wss)) by (apply (Forall_impl _ (P := fun w => 0 <= fst w < 2^31 /\ Forall is_s64 (snd w))); [tauto|exact Hw]).
  assert (Ht : Forall (fun w => Forall is_s64 (snd w)) (concat wss)) by (apply (Forall_impl _ (P := fun w => 0 <= fst w < 2^31 /\ Forall is_s64 (snd w))); [tauto|exact Hw]).
  destruct (indexed o a bs wss W R C Ha F2 Hi Hs Hb) as (w & loc' & E1 & E2 & _ & E3). specialize (E3 NC). subst loc'.
  set (ws := concat wss) in *. pose proof (index_of_ways a ws Ha Hi Hasc Hs Hb) as OK. set (es := entries_of a 0 ws) in *.
  assert (NEe : es <> []) by (unfold es; destruct ws as [|[? ?] ?]; [congruence|discriminate]).
  exists w. split; [exact E1|].
  destruct (all_bytes_len a ws ltac:(lia)) as (m & Em & Lm & Sm). pose proof (zpow_pos a ltac:(lia)) as P.
  set (L := fun e : entry => match find (fun w => fst w =? e_id e) ws with Some w => kept 0 (snd w) | None => [] end).
  assert (FU : forall k w, nth_error ws k = Some w -> find (fun x => fst x =? fst w) ws = Some w).
  { intros k x E. destruct (find (fun y => fst y =? fst x) ws) as [y|] eqn:Ef.
    - apply find_some in Ef. destruct Ef as (Iy & Ey). apply Z.eqb_eq in Ey. apply In_nth_error in Iy. destruct Iy as (j & Ej).
      destruct (Nat.lt_trichotomy k j) as [Lt|[->|Lt]]; [|congruence|].
      + pose proof (Hasc k j x y Lt E Ej). lia.
      + pose proof (Hasc j k y x Lt Ej E). lia.
    - exfalso. pose proof (find_none _ _ Ef x (nth_error_In _ _ E)) as X. cbn beta in X. lia. }
  assert (HL : forall e, In e es -> stored (all_bytes a ws) (e_off e * 2^a) (L e)).
  { intros e He. apply In_nth_error in He. destruct He as (k & E). apply entries_nth in E; [|lia]. destruct E as (x & E & ->). unfold L. cbn [e_id e_off]. rewrite (FU k x E).
    rewrite Z.add_0_l. destruct (all_bytes_len a (firstn k ws) ltac:(lia)) as (p' & Ep & _). rewrite Ep, Z.div_mul by lia. rewrite <- Ep. apply stored_way; [lia|exact Ht|lia|exact E]. }
  rewrite (pC100_dump p s (f_data (w_idx w)) es (all_bytes a ws) a L E2 OK NEe HL). f_equal.
  rewrite !flat_map_concat_map. f_equal.
  assert (LE : forall k e, nth_error es k = Some e -> exists x, nth_error ws k = Some x /\ e_id e = fst x /\ L e = kept 0 (snd x)).
  { intros k e E. pose proof E as E'. apply entries_nth in E'; [|lia]. destruct E' as (x & Ex & ->). exists x. split; [exact Ex|]. split; [reflexivity|]. unfold L. cbn [e_id]. rewrite (FU k x Ex). reflexivity. }
  assert (Len : List.length es = List.length ws) by (pose proof (entries_zlen a ws 0) as Z; unfold zlen in Z; fold es in Z; lia).
  clear - LE Len. revert LE Len. generalize ws es. intros ws' es' LE Len. revert es' LE Len.
  induction ws' as [|x ws' IH]; intros [|e es'] LE Len; try discriminate; [reflexivity|]. cbn [map]. f_equal.
  - destruct (LE O e eq_refl) as (y & Ey & -> & ->). injection Ey as <-. reflexivity.
  - apply IH; [|cbn in Len; lia]. intros k e' Ek. apply (LE (S k) e' Ek).
Qed.
(** The ways of C57's example, written and dumped. *)
Lemma pC100_ex : exists w lines, wi_index os_fine 4 ex_wi_blocks = (w, Ok tt) /\ way_dump (way_part true true None) (f_data (w_idx w)) = Ok lines /\
  lines = [WayLine 5 [3; 4]; WayLine 5 [3; 4]; WayLine 7 [-9]; WayLine 7 [-9]; WayLine 8 []; WayLine 8 []].
Proof. do 2 eexists. split; [vm_compute; reflexivity|]. split; [vm_compute; reflexivity|]. reflexivity. Qed.
Definition ex_way_file : list Z := SliceAsByteSlice ([zlen ex_pass_es; 3] ++ map word_of ex_pass_es) ++ ex_pass_loc.
Lemma ex_way_file_ok : NewWayIndex ex_way_file = Ok (way_index_of ex_pass_es ex_pass_loc 3).
Proof. vm_compute. reflexivity. Qed.
(** C100 is false of the code: asked for part 1 of 5 of an index of ten ways, the tool prints all
    ten, and reports the eight ways of the other parts as failures. *)
Lemma pC100_part_refuted : NewWayIndex ex_way_file = Ok (way_index_of ex_pass_es ex_pass_loc 3) /\
  (exists lines, way_dump (way_part true false (Some (1, 5))) ex_way_file = Ok lines /\ zlen lines = 10) /\
  way_dump (way_part false true (Some (1, 5))) ex_way_file =
    Ok [WayFailed 1; WayFailed 2; WayLine 3 [1]; WayLine 4 [1]; WayFailed 5; WayFailed 6; WayFailed 7; WayFailed 8; WayFailed 9; WayFailed 10].
Proof. split; [exact ex_way_file_ok|]. split; [eexists; split; vm_compute; reflexivity|vm_compute; reflexivity]. Qed.

(** ** C101 *)
(** C101.  A tool starts exactly if the command line can be read, has no positional arguments
    and breaks none of the tool's rules; ... *)
Lemma pC101_starts : forall (A : Type) (validate : A -> list string) r (o : A),
  parseArgs validate r = Starts o <-> r = Parsed o [] /\ validate o = [].
Proof.
  intros A v r o. unfold parseArgs. destruct r as [o' pos| |e]; [|split; [discriminate|intros (Q & _); discriminate]..].
  destruct pos as [|x pos].
  - change (zlen (@nil (list Z)) =? 0) with true. cbn [app]. destruct (v o') as [|m ms] eqn:Ev.
    + change (0 <? zlen (@nil string)) with false. cbv iota. split; [intros Q; injection Q as <-; auto|intros (Q & _); injection Q as <-; reflexivity].
    + replace (0 <? zlen (m :: ms)) with true by (rewrite zlen_cons; pose proof (zlen_nonneg ms); lia). split; [discriminate|]. intros (Q & V). injection Q as <-. congruence.
  - replace (zlen (x :: pos) =? 0) with false by (rewrite zlen_cons; pose proof (zlen_nonneg pos); lia). cbn [app].
    replace (0 <? zlen (ePositional :: v o')) with true by (rewrite zlen_cons; pose proof (zlen_nonneg (v o')); lia). split; [discriminate|intros (Q & _); discriminate].
Qed.
(** ... if it does not start it exits, with status 0 if help was asked for and otherwise with
    status 1 and at least one message. *)
Lemma pC101_exits : forall (A : Type) (validate : A -> list string) r, (forall o, parseArgs validate r <> Starts o) ->
  (r = HelpAsked /\ parseArgs validate r = Exits 0 []) \/
  (r <> HelpAsked /\ exists m ms, parseArgs validate r = Exits 1 (m :: ms)).
Proof.
  intros A v r H. destruct r as [o pos| |e]; [right|left; auto|right; split; [discriminate|exists e, []; reflexivity]].
  split; [discriminate|]. unfold parseArgs in *. cbv zeta in *. destruct ((if zlen pos =? 0 then [] else [ePositional]) ++ v o) as [|m ms].
  - exfalso. apply (H o). reflexivity.
  - exists m, ms. replace (0 <? zlen (m :: ms)) with true by (rewrite zlen_cons; pose proof (zlen_nonneg ms); lia). reflexivity.
Qed.
Lemma rate_ok s : SystemOpts_Validate s = [] <-> rate_rule s.
Proof.
  unfold SystemOpts_Validate, rate_rule. destruct (MemProfileRate s), (MemProfile s); cbn; (split; [|]); intros H; try reflexivity; try discriminate; try (intros; congruence).
  exfalso. apply H; congruence.
Qed.
Lemma part_ok i n : part_errors i n = [] <-> part_rule i n.
Proof.
  unfold part_errors, part_rule. destruct i as [i|], n as [n|]; cbn [given Bool.eqb app].
  - destruct (Z.leb_spec n i) as [L|G].
    + split; [discriminate|]. intros [(Q & _)|(a & b & Qa & Qb & Lt)]; [discriminate|]. injection Qa as ->. injection Qb as ->. lia.
    + split; [intros _; right; exists i, n; auto|reflexivity].
  - split; [discriminate|]. intros [(Q & _)|(a & b & _ & Q & _)]; discriminate.
  - split; [discriminate|]. intros [(_ & Q)|(a & b & Q & _ & _)]; discriminate.
  - split; [intros _; left; auto|reflexivity].
Qed.
Lemma both_nil {A} (a b : list A) : a ++ b = [] <-> a = [] /\ b = [].
Proof. split; [apply app_eq_nil|intros (-> & ->); reflexivity]. Qed.
(** C101, the rules: a profile rate needs a profile file; and for the dump tools the two options
    of a part are given together, the first being below the second. *)
Lemma pC101_rules :
  (forall (A : Type) (sys : A -> SystemOpts) o, tool_validate sys o = [] <-> rate_rule (sys o)) /\
  (forall o, node_dump_validate o = [] <-> rate_rule (nd_sys o) /\ part_rule (nd_SubIndexIndex o) (nd_SubIndexCount o)) /\
  (forall o, way_dump_validate o = [] <-> rate_rule (wd_sys o) /\ part_rule (wd_SubIndexIndex o) (wd_SubIndexCount o)).
Proof.
  split; [intros A sys o; apply rate_ok|]. split; intros o; unfold node_dump_validate, way_dump_validate; rewrite both_nil, rate_ok, part_ok; reflexivity.
Qed.
(** C101, partial: what an accepted command line of dumpnodeindex needs, on a file with index
    [rs ++ [l]], to be carried out without a panic: a start element that is not negative, at most
    as many parts as locations, and the part's share starting no later than the last range. *)
Lemma pC101_node_dump_partial : forall o contents rs l locs, NewNodeIndex contents = Ok (index_of (rs ++ [l]) locs) -> index_ok (rs ++ [l]) locs -> Forall is_s64 locs ->
  parseArgs node_dump_validate (Parsed o []) = Starts o ->
  (forall i, nd_SubIndexIndex o = Some i -> 0 <= i) -> (forall st, nd_StartElement o = Some st -> 0 <= st) ->
  ((exists lines, node_dump o contents = Ok lines) <->
   (forall i n, nd_SubIndexIndex o = Some i -> nd_SubIndexCount o = Some n -> n <= zlen locs /\ zlen locs / n * i <= total rs)).
Proof.
  intros o contents rs l locs E Hi Hl Ha Hpos Hst. set (all := rs ++ [l]) in *.
  assert (Ne : all <> []) by (unfold all; destruct rs; discriminate).
  apply pC101_starts in Ha. destruct Ha as (_ & Hv). apply (proj1 (proj2 pC101_rules)) in Hv. destruct Hv as (_ & Hp).
  destruct Hp as [(Pi & Pn)|(i & n & Pi & Pn & Lt)].
  - split; [intros _ i n Q; congruence|]. intros _. eexists. apply (pC99_dump o contents all locs E Hi Hl Ne Pi Hst).
  - specialize (Hpos i Pi). destruct (SubIndex_spec all locs i n Hi ltac:(lia) ltac:(lia)) as (Y & N). cbn zeta in Y, N.
    pose proof Hi as (Hok & Hasc & Htot & Hb).
    set (st := cut (slice_size locs n * i) 0 all) in *. set (e := cut (slice_size locs n * (i + 1)) 0 all) in *.
    assert (C1 : (st < List.length all)%nat <-> slice_size locs n * i <= total rs).
    { unfold st, all. pose proof (cut_inside locs (slice_size locs n * i) l rs 0 Hok) as (D1 & D2). split; [intros Q; apply D1 in Q; lia|intros Q; apply D2; lia]. }
    assert (C2 : (0 < e)%nat <-> n <= zlen locs).
    { assert (Z0 : (0 < e)%nat <-> 0 < slice_size locs n * (i + 1)).
      { unfold e. destruct all as [|x al]; [contradiction|]. cbn [cut]. destruct (Z.leb_spec (slice_size locs n * (i + 1)) 0); lia. }
      rewrite Z0. unfold slice_size. pose proof (zlen_nonneg locs). split; intros Q.
      - destruct (Z.lt_ge_cases (zlen locs) n) as [G|G]; [rewrite Z.div_small in Q by lia; lia|exact G].
      - assert (1 <= zlen locs / n) by (apply Z.div_le_lower_bound; lia). nia. }
    unfold slice_size in C1. split.
    + intros (lines & D) i' n' Qi Qn. rewrite Pi in Qi. rewrite Pn in Qn. injection Qi as <-. injection Qn as <-.
      destruct (Nat.lt_ge_cases st (List.length all)) as [G1|G1]; [|exfalso; unfold node_dump in D; rewrite E, Pi, Pn in D; cbn [bind] in D; rewrite N in D by lia; discriminate].
      destruct (Nat.lt_ge_cases 0 e) as [G2|G2]; [|exfalso; unfold node_dump in D; rewrite E, Pi, Pn in D; cbn [bind] in D; rewrite N in D by lia; discriminate].
      split; [apply C2; exact G2|apply C1; exact G1].
    + intros Q. destruct (Q i n Pi Pn) as (Q1 & Q2). destruct Y as (l' & top & _ & _ & Es); [split; [apply C1; exact Q2|apply C2; exact Q1]|].
      destruct (part_top all locs i n Hi ltac:(lia) ltac:(lia) _ Es) as (top' & Eq & Et).
      unfold node_dump. rewrite E, Pi, Pn. cbn [bind]. rewrite Es, Eq. cbn [bind]. eexists. apply dump_asked; try assumption; [|apply asc_sub; exact Hasc].
      apply Forall_forall. intros r Hr. apply (proj1 (Forall_forall _ _) Hok). unfold pass_ranges in Hr.
      assert (X : forall (q : list range) m x, In x (firstn m q) -> In x q) by (intros q m x Hx; rewrite <- (firstn_skipn m q); apply in_or_app; left; exact Hx).
      apply X in Hr. rewrite <- (firstn_skipn (cut (slice_size locs n * i) 0 all) all). apply in_or_app. right. exact Hr.
Qed.
Lemma pC101_ex : parseArgs node_dump_validate (Parsed (dump_part true true (Some (1, 5))) []) = Starts (dump_part true true (Some (1, 5))) /\
  parseArgs node_dump_validate (Parsed (mkNodeDump true true (Some 5) (Some 5) None None (mkSys None None None (Some 1))) [[104]]) = Exits 1 [ePositional; eRate; eBelow] /\
  parseArgs way_dump_validate (Parsed (mkWayDump true true (Some 5) None plain) []) = Exits 1 [eTogether] /\
  (exists lines, node_dump (dump_part true true (Some (1, 5))) (ex_file ex_ten (repeat (-1) 10)) = Ok lines /\ zlen lines = 4).
Proof. split; [vm_compute; reflexivity|]. split; [vm_compute; reflexivity|]. split; [vm_compute; reflexivity|]. eexists. split; vm_compute; reflexivity. Qed.
(** C101 is false of the code: dumpwayindex accepts part -1 of 1, and panics on every index; it
    accepts part -1 of 0, and divides by zero; dumpnodeindex accepts more parts than there are
    locations and negative start elements, and panics. *)
Lemma pC101_accepted_refuted :
  (forall p s, parseArgs way_dump_validate (Parsed (way_part p s (Some (-1, 1))) []) = Starts (way_part p s (Some (-1, 1))) /\
     forall contents es loc shift, NewWayIndex contents = Ok (way_index_of es loc shift) -> way_index_ok es loc shift ->
       way_dump (way_part p s (Some (-1, 1))) contents = Panic IndexOutOfRange) /\
  (forall p s, parseArgs way_dump_validate (Parsed (way_part p s (Some (-1, 0))) []) = Starts (way_part p s (Some (-1, 0))) /\
     forall contents ix, NewWayIndex contents = Ok ix -> way_dump (way_part p s (Some (-1, 0))) contents = Panic DivideByZero) /\
  (let o := dump_part true true (Some (0, 11)) in parseArgs node_dump_validate (Parsed o []) = Starts o /\ node_dump o (ex_file ex_ten (repeat (-1) 10)) = Panic IndexOutOfRange) /\
  (let o := mkNodeDump true true None None (Some (-1)) None plain in parseArgs node_dump_validate (Parsed o []) = Starts o /\ node_dump o (ex_file ex_ten (repeat (-1) 10)) = Panic IndexOutOfRange).
Proof.
  split; [|split; [|split; split; vm_compute; reflexivity]].
  - intros p s. split; [reflexivity|]. intros contents es loc shift E H. unfold way_dump. rewrite E. cbn [bind].
    change (wd_SubIndexIndex (way_part p s (Some (-1, 1)))) with (Some (-1)). change (wd_SubIndexCount (way_part p s (Some (-1, 1)))) with (Some 1). cbv iota.
    assert (S : SubIndexWithScaledPass (way_index_of es loc shift) (-1) 1 = Panic IndexOutOfRange); [|rewrite S; reflexivity].
    unfold SubIndexWithScaledPass. change (1 =? 0) with false. cbv iota zeta. cbn [way_index_of wi_Ids wi_Loc wi_Shift].
    rewrite Z.quot_1_r. change (s64 (-1 + 1)) with 0. rewrite Z.mul_0_r. change (s64 0) with 0.
    pose proof H as (H1 & _ & _ & H4 & H5 & H6). pose proof (zlen_nonneg loc).
    rewrite (s64_id (zlen loc * -1)) by (unfold is_s64; lia).
    destruct es as [|e es]; [reflexivity|]. cbn [map first_at].
    pose proof (Forall_inv H1) as Oe. pose proof (Forall_inv H6) as Re. cbn beta in Re. rewrite word_off by exact Oe. rewrite go_shl_ok by (destruct Oe; lia). cbn [bind].
    replace (zlen loc * -1 <=? e_off e * 2^shift) with true by lia. cbn [bind]. change (Z.to_nat 0) with 0%nat. cbn [skipn map first_at].
    rewrite word_off by exact Oe. rewrite go_shl_ok by (destruct Oe; lia). cbn [bind]. replace (0 <=? e_off e * 2^shift) with true by lia. cbn [bind].
    unfold lslice. rewrite zlen_cons. pose proof (zlen_nonneg (map word_of es)).
    replace ((0 <=? 0) && (0 <=? 0) && (0 <=? 1 + zlen (map word_of es))) with true by lia. cbn [bind]. reflexivity.
  - intros p s. split; [reflexivity|]. intros contents ix E. unfold way_dump. rewrite E. reflexivity.
Qed.
