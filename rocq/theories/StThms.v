(** * StThms: the statistics of lookups (C94). *)
From Verif Require Import Base PbSpec TModel NiModel NiSpec RwModel WiModel WiSpec TmModel TmSpec NiThms.
From Verif Require Import BaseLemmas NiProofs WiProofs WiThms.

(** C94.  Counting changes nothing: the lookup returns what it returns without. *)
Lemma node_result si id hint : (x <- findNodeActual si id hint ;; Ok (fst x)) = FindNode si id hint.
Proof.
  unfold findNodeActual, FindNode. destruct (_ <? id); [reflexivity|].
  assert (S : forall lo up, (x <- (lo <- binary_search (si_element si) id lo up ;;
      if zlen (si_element si) <=? lo then Ok (0, hint, false, MissDefault)
      else
        e <- lidx (si_element si) lo ;;
        if negb (contains e id) then Ok (0, hint, false, MissDefault)
        else
          off <- OffsetForID e id ;;
          loc <- lidx (si_locations si) off ;;
          Ok (loc, lo, negb (loc =? 0), HitDefault)) ;; Ok (fst x)) =
     (lo <- binary_search (si_element si) id lo up ;;
      if zlen (si_element si) <=? lo then Ok (0, hint, false)
      else
        e <- lidx (si_element si) lo ;;
        if negb (contains e id) then Ok (0, hint, false)
        else
          off <- OffsetForID e id ;;
          loc <- lidx (si_locations si) off ;;
          Ok (loc, lo, negb (loc =? 0)))).
  { intros lo up. destruct (binary_search _ _ _ _) as [l| |]; cbn [bind]; try reflexivity. destruct (_ <=? l); [reflexivity|]. destruct (lidx _ l) as [e| |]; cbn [bind]; try reflexivity.
    destruct (negb _); [reflexivity|]. destruct (OffsetForID e id) as [off| |]; cbn [bind]; try reflexivity. destruct (lidx _ off) as [loc| |]; reflexivity. }
  cbv zeta. destruct (hint <? _); [|apply S]. destruct (lidx _ hint) as [e| |]; cbn [bind]; try reflexivity.
  destruct (_ =? -1); [apply S|]. destruct (_ =? 0); [|apply S]. destruct (OffsetForID e id) as [off| |]; cbn [bind]; try reflexivity. destruct (lidx _ off) as [loc| |]; reflexivity.
Qed.
Lemma way_result si id hint : (x <- findLocationsActual si id hint ;; Ok (fst x)) = FindLocations si id hint.
Proof.
  unfold findLocationsActual, FindLocations. destruct (_ <? id); [reflexivity|].
  assert (S : forall lo up, (x <- (lo <- way_search (sw_Ids si) id lo up ;;
      if zlen (sw_Ids si) <=? lo then Ok ([], hint, false, MissDefault)
      else
        d <- lidx (sw_Ids si) lo ;;
        if negb (wd_WayID d =? id) then Ok ([], hint, false, MissDefault)
        else
          locs <- way_locations si d ;;
          Ok (locs, lo, true, HitDefault)) ;; Ok (fst x)) =
     (lo <- way_search (sw_Ids si) id lo up ;;
      if zlen (sw_Ids si) <=? lo then Ok ([], hint, false)
      else
        d <- lidx (sw_Ids si) lo ;;
        if negb (wd_WayID d =? id) then Ok ([], hint, false)
        else
          locs <- way_locations si d ;;
          Ok (locs, lo, true))).
  { intros lo up. destruct (way_search _ _ _ _) as [l| |]; cbn [bind]; try reflexivity. destruct (_ <=? l); [reflexivity|]. destruct (lidx _ l) as [d| |]; cbn [bind]; try reflexivity.
    destruct (negb _); [reflexivity|]. destruct (way_locations si d) as [locs| |]; reflexivity. }
  cbv zeta. destruct (hint <? _); [|apply S]. destruct (lidx _ hint) as [d| |]; cbn [bind]; try reflexivity.
  destruct (id <? _); [apply S|]. destruct (id =? _); [|apply S]. destruct (way_locations si d) as [locs| |]; reflexivity.
Qed.

Lemma search_counter rs locs id hint : Forall (range_ok locs) rs -> ascending_ranges rs -> forall lo up, 0 <= lo <= up -> up <= zlen rs -> below rs id lo -> above rs id up ->
  exists x, (lo <- binary_search (map elem_of rs) id lo up ;;
      if zlen (map elem_of rs) <=? lo then Ok (0, hint, false, MissDefault)
      else
        e <- lidx (map elem_of rs) lo ;;
        if negb (contains e id) then Ok (0, hint, false, MissDefault)
        else
          off <- OffsetForID e id ;;
          loc <- lidx locs off ;;
          Ok (loc, lo, negb (loc =? 0), HitDefault)) = Ok (x, if covered rs id then HitDefault else MissDefault).
Proof.
  intros Hok Hasc lo up Hlo Hup Hb Ha. unfold binary_search.
  destruct (bs_spec rs locs id Hok Hasc (S (Z.to_nat (up - lo))) lo up ltac:(lia) Hlo Hup Hb Ha) as (lo' & up' & brk & -> & F & N). cbn [bind].
  assert (IN : forall r, (r_first r <=? id) && (id <? r_first r + r_count r) = true <-> in_range r id) by (intros r; unfold in_range; lia).
  rewrite zlen_map. destruct brk.
  - destruct (F eq_refl) as (r & Er & Ir & R). replace (zlen rs <=? lo') with false by lia.
    destruct (elem_at rs locs Hok lo' R) as (r' & Er' & Or & ->). cbn [bind]. rewrite Er in Er'. injection Er' as <-.
    rewrite (proj2 (contains_elem locs r id Or) Ir). cbn [negb]. destruct (fetch locs r id Or Ir) as (loc & En & -> & L). cbn [bind]. rewrite L. cbn [bind].
    replace (covered rs id) with true; [eexists; reflexivity|]. symmetry. apply existsb_exists. exists r. split; [exact (nth_error_In _ _ Er)|apply IN; exact Ir].
  - destruct (N eq_refl) as (R & B & A).
    replace (covered rs id) with false.
    + destruct (Z.leb_spec (zlen rs) lo'); [eexists; reflexivity|].
      destruct (elem_at rs locs Hok lo' ltac:(lia)) as (r' & Er' & Or & ->). cbn [bind].
      replace (contains (elem_of r') id) with false; [eexists; reflexivity|]. symmetry. apply not_true_is_false. intros C. apply (contains_elem locs) in C; [|exact Or].
      pose proof (A _ _ Er' ltac:(lia)). unfold in_range in C. lia.
    + symmetry. apply not_true_is_false. intros C. apply existsb_exists in C. destruct C as (r & Hr & C). apply IN in C. apply In_nth_error in Hr. destruct Hr as (i & Er). unfold in_range in C.
      destruct (Z.lt_ge_cases (Z.of_nat i) lo'); [pose proof (B i r Er ltac:(lia)); lia|pose proof (A i r Er ltac:(lia)); lia].
Qed.
(** C94, nodes.  Each lookup returns what it returns without being counted (C45), and is counted once: as deferred if the id is beyond the last of the
    pass, as a hit of the hint if the range the hint tells holds the id, as another hit if another range does, else as a miss. *)
Lemma pC94_node_counter : forall rs locs top id hint, Forall (range_ok locs) rs -> ascending_ranges rs -> top_of rs top -> 0 <= hint ->
  exists x, FindNode (sub_index_of rs locs top) id hint = Ok x /\
  findNodeActual (sub_index_of rs locs top) id hint =
    Ok (x, if top <? id then MissDeferred
           else match linear_search rs locs id 0 with
                | Some (_, i) => if i =? hint then HitHint else HitDefault
                | None => MissDefault
                end).
Proof.
  intros rs locs top id hint Hok Hasc Ht Hh.
  assert (IN : forall r, (r_first r <=? id) && (id <? r_first r + r_count r) = true <-> in_range r id) by (intros r; unfold in_range; lia).
  enough (G : exists x, findNodeActual (sub_index_of rs locs top) id hint =
    Ok (x, if top <? id then MissDeferred else match linear_search rs locs id 0 with Some (_, i) => if i =? hint then HitHint else HitDefault | None => MissDefault end)).
  { destruct G as (x & E). exists x. split; [|exact E]. rewrite <- node_result, E. reflexivity. }
  unfold findNodeActual, sub_index_of. cbn [si_Top si_element si_locations]. destruct (Z.ltb_spec top id) as [T|T]; [eexists; reflexivity|].
  assert (B0 : below rs id 0) by (intros i r _ H; lia).
  assert (AL : above rs id (zlen rs)) by (intros i r E H; assert (i < List.length rs)%nat by (apply nth_error_Some; congruence); unfold zlen in H; lia).
  (* the counter of a search that does not start with a hit of the hint *)
  assert (C : (forall r, nth_error rs (Z.to_nat hint) = Some r -> ~ in_range r id) ->
     match linear_search rs locs id 0 with Some (_, i) => if i =? hint then HitHint else HitDefault | None => MissDefault end = if covered rs id then HitDefault else MissDefault).
  { intros Nh. destruct (linear_search_spec locs id rs 0) as [(k & r & E & I & ->)|(No & ->)].
    - replace (0 + Z.of_nat k =? hint) with false; [|symmetry; apply not_true_is_false; intros X; apply (Nh r); [|exact I]; replace (Z.to_nat hint) with k by lia; exact E].
      replace (covered rs id) with true; [reflexivity|]. symmetry. apply existsb_exists. exists r. split; [exact (nth_error_In _ _ E)|apply IN; exact I].
    - replace (covered rs id) with false; [reflexivity|]. symmetry. apply not_true_is_false. intros X. apply existsb_exists in X. destruct X as (r & Hr & X). apply (No r Hr). apply IN. exact X. }
  destruct (Z.ltb_spec hint (zlen (map elem_of rs))) as [H|H]; rewrite zlen_map in H.
  - destruct (elem_at rs locs Hok hint ltac:(lia)) as (r & Er & Or & ->). cbn [bind]. destruct (compare_elem locs r id Or) as [(Cp & ->)|[(Cp & ->)|(Cp & ->)]].
    + change (-1 =? -1) with true. cbn match. rewrite C; [|intros r' Er' I; rewrite Er in Er'; injection Er' as <-; unfold in_range in I; lia].
      apply search_counter; [exact Hok|exact Hasc|lia|lia|exact B0|]. apply (above_ge rs locs id Hok Hasc (Z.to_nat hint) r); [exact Er|exact Cp|lia].
    + change (1 =? -1) with false. change (1 =? 0) with false. cbn match. rewrite C; [|intros r' Er' I; rewrite Er in Er'; injection Er' as <-; unfold in_range in I; lia].
      apply search_counter; [exact Hok|exact Hasc|rewrite zlen_map; lia|rewrite zlen_map; lia| |rewrite zlen_map; exact AL]. apply (below_le rs locs id Hok Hasc (Z.to_nat hint) r); [exact Er|exact Cp|lia].
    + change (0 =? -1) with false. change (0 =? 0) with true. cbn match. destruct (fetch locs r id Or Cp) as (loc & En & -> & L). cbn [bind]. rewrite L. cbn [bind].
      destruct (linear_search_spec locs id rs 0) as [(k & r' & E & I & ->)|(No & _)]; [|exfalso; exact (No r (nth_error_In _ _ Er) Cp)].
      assert (k = Z.to_nat hint) by (eapply range_unique; eassumption). subst k. replace (0 + Z.of_nat (Z.to_nat hint) =? hint) with true by lia. eexists; reflexivity.
  - rewrite C; [|intros r' Er'; exfalso; assert (Z.to_nat hint < List.length rs)%nat by (apply nth_error_Some; congruence); unfold zlen in H; lia].
    apply search_counter; [exact Hok|exact Hasc|rewrite zlen_map; pose proof (zlen_nonneg rs); lia|rewrite zlen_map; lia|exact B0|rewrite zlen_map; exact AL].
Qed.

(** C94, ways.  The same for lookups in the way index. *)
Lemma pC94_way_counter : forall es loc shift L top id hint, way_index_ok es loc shift -> (forall e, In e es -> stored loc (position shift e) (L e)) ->
  (forall e, In e es -> e_id e <= top) -> 0 <= hint ->
  exists x, FindLocations (mkSWI (map word_of es) loc shift top) id hint = Ok x /\
  findLocationsActual (mkSWI (map word_of es) loc shift top) id hint =
    Ok (x, if top <? id then MissDeferred
           else match find_entry es id 0 with
                | Some (_, i) => if i =? hint then HitHint else HitDefault
                | None => MissDefault
                end).
Proof.
  intros es loc shift L top id hint H HL Ht Hh. pose proof (pC57_lookup es loc shift L top id hint H HL Ht Hh) as R.
  pose proof (way_result (mkSWI (map word_of es) loc shift top) id hint) as W.
  set (x := match find_entry es id 0 with Some (e, i) => (L e, i, true) | None => ([], hint, false) end).
  assert (R' : FindLocations (mkSWI (map word_of es) loc shift top) id hint = Ok x) by (rewrite R; unfold x; destruct (find_entry es id 0) as [[e i]|]; reflexivity). clear R.
  exists x. split; [exact R'|]. rewrite R' in W. destruct (findLocationsActual _ id hint) as [[y c]|p|] eqn:E; cbn [bind fst] in W; try discriminate W. injection W as ->. f_equal. f_equal.
  unfold findLocationsActual in E. cbn [sw_Top sw_Ids] in E. destruct (top <? id); [congruence|].
  assert (S : forall lo up, (lo <- way_search (map word_of es) id lo up ;;
      if zlen (map word_of es) <=? lo then Ok ([], hint, false, MissDefault)
      else
        d <- lidx (map word_of es) lo ;;
        if negb (wd_WayID d =? id) then Ok ([], hint, false, MissDefault)
        else
          locs <- way_locations (mkSWI (map word_of es) loc shift top) d ;;
          Ok (locs, lo, true, HitDefault)) = Ok (x, c) -> c = if snd x then HitDefault else MissDefault).
  { clear E. intros lo up. destruct (way_search _ _ _ _) as [l| |]; cbn [bind]; try discriminate. destruct (_ <=? l); [intros X; injection X as <- <-; reflexivity|]. destruct (lidx _ l) as [d| |]; cbn [bind]; try discriminate.
    destruct (negb _); [intros X; injection X as <- <-; reflexivity|]. destruct (way_locations _ d) as [locs| |]; cbn [bind]; try discriminate. intros X; injection X as <- <-; reflexivity. }
  pose proof (find_entry_spec es id 0) as FS.
  assert (N : (forall e, nth_error es (Z.to_nat hint) = Some e -> e_id e <> id) -> c = (if snd x then HitDefault else MissDefault) ->
    c = match find_entry es id 0 with Some (_, i) => if i =? hint then HitHint else HitDefault | None => MissDefault end).
  { intros Nh ->. unfold x. destruct (find_entry es id 0) as [[e i]|]; [|reflexivity]. cbn [snd]. destruct FS as (A & B & C). rewrite Z.sub_0_r in B.
    replace (i =? hint) with false; [reflexivity|]. symmetry. apply not_true_is_false. intros X. apply (Nh e); [|exact C]. replace (Z.to_nat hint) with (Z.to_nat i) by lia. exact B. }
  cbv zeta in E. destruct (Z.ltb_spec hint (zlen (map word_of es))) as [Lh|Lh]; rewrite zlen_map in Lh.
  - destruct (went_at es loc shift H L HL hint ltac:(lia)) as (e & Er & _ & El & Ew). rewrite El in E. cbn [bind] in E. rewrite Ew in E.
    destruct (Z.ltb_spec id (e_id e)) as [C|C]; [|destruct (Z.eqb_spec id (e_id e)) as [C'|C']].
    + apply N; [intros e' Ee; rewrite Er in Ee; injection Ee as <-; lia|]. exact (S _ _ E).
    + destruct (way_locations _ (word_of e)) as [locs| |]; cbn [bind] in E; try discriminate E. injection E as Ex <-. unfold x in Ex.
      destruct (find_entry es id 0) as [[e' i]|]; [|discriminate Ex]. injection Ex as _ Ei. rewrite Ei. rewrite Z.eqb_refl. reflexivity.
    + apply N; [intros e' Ee; rewrite Er in Ee; injection Ee as <-; lia|]. exact (S _ _ E).
  - apply N; [|exact (S _ _ E)]. intros e Ee. exfalso. assert (Z.to_nat hint < List.length es)%nat by (apply nth_error_Some; congruence). unfold zlen in Lh. lia.
Qed.

Lemma interleaved_number {A} (f : A -> bool) ls l : interleaved ls l -> number f l = number f (concat ls).
Proof.
  unfold number. induction 1 as [ls H|before a l after r H IH].
  - replace (concat ls) with (@nil A); [reflexivity|]. induction H as [|x ls -> _ IH]; [reflexivity|exact IH].
  - rewrite concat_app in *. cbn [concat] in *. rewrite !filter_app, !zlen_app in *. cbn [filter]. destruct (f a); rewrite ?zlen_cons; lia.
Qed.
Lemma counted_from cs : forall t c, (forall d, is_u64 (t d)) -> fold_left add_one cs t c = u64 (t c + number (fun d => counter_eqb d c) cs).
Proof.
  induction cs as [|a cs IH]; intros t c Ht; cbn [fold_left]; unfold number in *.
  - cbn [filter]. change (zlen (@nil counter)) with 0. rewrite Z.add_0_r. symmetry. apply u64_id. apply Ht.
  - rewrite IH by (intros d; unfold add_one; destruct (counter_eqb a d); [apply u64_range|apply Ht]). unfold add_one at 1. cbn [filter]. destruct (counter_eqb a c); [|reflexivity].
    rewrite zlen_cons. unfold u64. rewrite Z.add_mod_idemp_l by lia. f_equal. lia.
Qed.
(** C94.  The counters when all workers are done: whatever the order of their lookups, each counter is the number of lookups counted there, and all four
    together are the number of lookups (modulo 2^64). *)
Lemma pC94_sums : forall ls cs, interleaved ls cs ->
  (forall c, counted cs c = u64 (number (fun d => counter_eqb d c) (concat ls))) /\
  u64 (counted cs HitHint + counted cs HitDefault + counted cs MissDeferred + counted cs MissDefault) = u64 (zlen (concat ls)).
Proof.
  intros ls cs H.
  assert (A : forall c, counted cs c = u64 (number (fun d => counter_eqb d c) (concat ls))).
  { intros c. unfold counted. rewrite counted_from by (intros; unfold is_u64; lia). rewrite (interleaved_number _ _ _ H). reflexivity. }
  split; [exact A|]. rewrite !A. generalize (concat ls). intros l.
  assert (B : number (fun d => counter_eqb d HitHint) l + number (fun d => counter_eqb d HitDefault) l + number (fun d => counter_eqb d MissDeferred) l + number (fun d => counter_eqb d MissDefault) l = zlen l).
  { unfold number. induction l as [|a l IH]; [reflexivity|]. cbn [filter]. destruct a; cbn [counter_eqb]; rewrite !zlen_cons; lia. }
  rewrite <- B. set (a := number _ l). set (b := number _ l). set (c := number _ l). set (d := number _ l). clearbody a b c d. clear.
  destruct (u64_cong a) as (ka & ->), (u64_cong b) as (kb & ->), (u64_cong c) as (kc & ->), (u64_cong d) as (kd & ->).
  replace (a + ka * 2^64 + (b + kb * 2^64) + (c + kc * 2^64) + (d + kd * 2^64)) with (a + b + c + d + (ka + kb + kc + kd) * 2^64) by lia. apply u64_add_k.
Qed.

(** the lookups counted are those of the rewriter: with the same hints and outcome *)
Lemma refs_counters_hint ix fin refs : forall hint, (x <- rw_refs ix fin refs hint ;; Ok (snd x)) = (y <- refs_counters ix refs hint ;; Ok (snd y)).
Proof.
  induction refs as [|ref r IH]; intros hint; cbn [rw_refs refs_counters]; [reflexivity|]. destruct (ref <? 0).
  - rewrite <- (IH hint). destruct (rw_refs ix fin r hint) as [[o h]| |]; reflexivity.
  - rewrite <- node_result. destruct (findNodeActual ix (u64 ref) hint) as [[[[l h] b] c]| |]; cbn [bind fst snd]; try reflexivity.
    specialize (IH h). destruct (rw_refs ix fin r h) as [[o h']| |], (refs_counters ix r h) as [[cs h'']| |]; cbn [bind fst snd] in *; congruence.
Qed.
(** C94.  The lookups counted for the ways of a block are made with the hints and end as those of the rewriter do. *)
Lemma pC94_rewriter_lookups : forall ix fin ways hint,
  (x <- rw_ways ix fin ways hint ;; Ok (snd x)) = (y <- ways_counters ix ways hint ;; Ok (snd y)).
Proof.
  intros ix fin. induction ways as [|w r IH]; intros hint; cbn [rw_ways ways_counters]; [reflexivity|].
  pose proof (refs_counters_hint ix fin (way_Refs w) hint) as E. destruct (rw_refs ix fin (way_Refs w) hint) as [[o h]| |], (refs_counters ix (way_Refs w) hint) as [[cs h']| |]; cbn [bind fst snd] in *; try congruence.
  injection E as <-. specialize (IH h). destruct (rw_ways ix fin r h) as [[o' h']| |], (ways_counters ix r h) as [[cs' h'']| |]; cbn [bind fst snd] in *; congruence.
Qed.
Definition node_class (rs : list range) (top id : Z) (c : counter) : Prop :=
  hit c = covered rs id /\ (c = MissDeferred <-> top < id).
Section counters.
  Variables (rs : list range) (locs : list Z) (top : Z).
  Hypotheses (Hok : Forall (range_ok locs) rs) (Hasc : ascending_ranges rs) (Ht : top_of rs top).
  Lemma node_counter_class id hint : 0 <= hint -> exists x c, findNodeActual (sub_index_of rs locs top) id hint = Ok (x, c) /\ 0 <= snd (fst x) /\ node_class rs top id c.
  Proof.
    intros Hh. destruct (pC94_node_counter rs locs top id hint Hok Hasc Ht Hh) as (x & E1 & E2). eexists. eexists. split; [exact E2|].
    assert (IN : forall r, (r_first r <=? id) && (id <? r_first r + r_count r) = true <-> in_range r id) by (intros r; unfold in_range; lia).
    rewrite pC45_lookup in E1 by assumption. injection E1 as <-.
    destruct (linear_search_spec locs id rs 0) as [(k & r & E & I & ->)|(No & ->)]; cbn [fst snd].
    - split; [lia|]. assert (id <= top) by (pose proof (Ht r (nth_error_In _ _ E)); unfold in_range in I; lia). replace (top <? id) with false by lia.
      assert (C : covered rs id = true) by (apply existsb_exists; exists r; split; [exact (nth_error_In _ _ E)|apply IN; exact I]).
      unfold node_class. rewrite C. destruct (_ =? hint); (split; [reflexivity|]; split; [discriminate|lia]).
    - split; [exact Hh|]. assert (C : covered rs id = false). { apply not_true_is_false. intros X. apply existsb_exists in X. destruct X as (r & Hr & X). apply (No r Hr). apply IN. exact X. }
      unfold node_class. rewrite C. destruct (Z.ltb_spec top id); (split; [reflexivity|]); split; try discriminate; try lia; reflexivity.
  Qed.
  Lemma refs_counters_class refs : Forall is_s64 refs -> forall hint, 0 <= hint -> exists cs h, refs_counters (sub_index_of rs locs top) refs hint = Ok (cs, h) /\ 0 <= h /\
    Forall2 (node_class rs top) (filter (fun ref => 0 <=? ref) refs) cs.
  Proof.
    induction 1 as [|ref r Hr _ IH]; intros hint Hh; cbn [refs_counters filter]; [exists [], hint; repeat split; [exact Hh|constructor]|].
    destruct (Z.ltb_spec ref 0) as [L|L].
    - replace (0 <=? ref) with false by lia. apply IH. exact Hh.
    - replace (0 <=? ref) with true by lia. unfold is_s64 in Hr. rewrite (u64_id ref) by (unfold is_u64; lia). destruct (node_counter_class ref hint Hh) as (x & c & -> & Hx & K). cbn [bind fst snd].
      destruct (IH _ Hx) as (cs & h & -> & Hh' & F). cbn [bind fst snd]. exists (c :: cs), h. split; [reflexivity|]. split; [exact Hh'|]. constructor; assumption.
  Qed.
  Lemma ways_counters_class ws : Forall (fun w => Forall is_s64 (way_Refs w)) ws -> forall hint, 0 <= hint -> exists cs h, ways_counters (sub_index_of rs locs top) ws hint = Ok (cs, h) /\ 0 <= h /\
    Forall2 (node_class rs top) (looked_up ws) cs.
  Proof.
    unfold looked_up. induction 1 as [|w r Hw _ IH]; intros hint Hh; cbn [ways_counters map concat]; [exists [], hint; repeat split; [exact Hh|constructor]|].
    destruct (refs_counters_class _ Hw hint Hh) as (cs & h & -> & Hh' & F). cbn [bind fst snd]. destruct (IH h Hh') as (cs' & h' & -> & Hh'' & F'). cbn [bind fst snd].
    exists (cs ++ cs'), h'. split; [reflexivity|]. split; [exact Hh''|]. rewrite filter_app. apply Forall2_app; assumption.
  Qed.
End counters.
Lemma number_class {A B} (f : A -> bool) (g : B -> bool) l l' : Forall2 (fun a b => f a = g b) l l' -> number f l = number g l'.
Proof. unfold number. induction 1 as [|a b l l' E _ IH]; [reflexivity|]. cbn [filter]. rewrite E. destruct (g b); [rewrite !zlen_cons; lia|exact IH]. Qed.
Lemma number_le {A} (f : A -> bool) l : 0 <= number f l <= zlen l.
Proof. unfold number. induction l as [|a l IH]; [unfold zlen; cbn; lia|]. cbn [filter]. destruct (f a); rewrite ?zlen_cons; lia. Qed.
Lemma f2_impl {A B} (P Q : A -> B -> Prop) l l' : (forall a b, P a b -> Q a b) -> Forall2 P l l' -> Forall2 Q l l'.
Proof. intros H. induction 1; constructor; auto. Qed.
(** C94.  The statistics of a pass over any blocks, rewritten by any workers in any order: the two counters of hits together
    are the number of refs in the ways, not yet locations, that a range of the pass has; the refs beyond the last id of
    the pass are those counted as deferred, all others as missed. *)
Lemma pC94_pass : forall rs locs top wss, Forall (range_ok locs) rs -> ascending_ranges rs -> top_of rs top ->
  Forall (Forall (fun w => Forall is_s64 (way_Refs w))) wss -> zlen (looked_up (concat wss)) < 2^64 ->
  exists css, Forall2 (fun ws cs => exists h, ways_counters (sub_index_of rs locs top) ws 0 = Ok (cs, h)) wss css /\
  forall cs, interleaved css cs ->
    counted cs HitHint + counted cs HitDefault = number (covered rs) (looked_up (concat wss)) /\
    counted cs MissDeferred = number (fun id => top <? id) (looked_up (concat wss)) /\
    counted cs MissDefault = number (fun id => negb (covered rs id) && negb (top <? id)) (looked_up (concat wss)).
Proof.
  intros rs locs top wss Hok Hasc Ht Hw Hn.
  assert (X : exists css, Forall2 (fun ws cs => exists h, ways_counters (sub_index_of rs locs top) ws 0 = Ok (cs, h)) wss css /\ Forall2 (node_class rs top) (looked_up (concat wss)) (concat css)).
  { clear Hn. induction Hw as [|ws wss H _ IH]; [exists []; split; constructor|]. destruct IH as (css & A & B). destruct (ways_counters_class rs locs top Hok Hasc Ht ws H 0 ltac:(lia)) as (cs & h & E & _ & F).
    exists (cs :: css). split; [constructor; [exists h; exact E|exact A]|]. cbn [concat]. unfold looked_up in *. rewrite map_app, concat_app, filter_app. apply Forall2_app; assumption. }
  destruct X as (css & A & B). exists css. split; [exact A|]. intros cs I. destruct (pC94_sums css cs I) as (S & _). rewrite !S. clear S A I cs Hw.
  revert B Hn. generalize (looked_up (concat wss)) (concat css). intros ids l B Hn.
  assert (Len : zlen ids = zlen l) by (clear -B; unfold zlen; induction B; cbn [length]; lia).
  assert (N : forall f, 0 <= number f l < 2^64) by (intros f; pose proof (number_le f l); lia).
  rewrite !u64_id by (unfold is_u64; apply N). split; [|split].
  - assert (E : number (fun d => counter_eqb d HitHint) l + number (fun d => counter_eqb d HitDefault) l = number hit l).
    { clear. unfold number. induction l as [|a l IH]; [reflexivity|]. cbn [filter]. destruct a; cbn [counter_eqb hit]; rewrite ?zlen_cons; lia. }
    rewrite E. symmetry. apply number_class. eapply f2_impl; [|exact B]. intros id c (H1 & _). symmetry. exact H1.
  - symmetry. apply number_class. eapply f2_impl; [|exact B]. intros id c (_ & H2). destruct c; cbn [counter_eqb]; destruct (Z.ltb_spec top id) as [L|L]; try reflexivity; try (apply H2 in L; discriminate L). exfalso. destruct H2 as (H2 & _). specialize (H2 eq_refl). lia.
  - symmetry. apply number_class. eapply f2_impl; [|exact B]. intros id c (H1 & H2). rewrite <- H1. destruct c; cbn [counter_eqb hit negb andb]; try reflexivity.
    + replace (top <? id) with true; [reflexivity|]. symmetry. apply Z.ltb_lt. apply H2. reflexivity.
    + destruct (Z.ltb_spec top id) as [L|L]; [apply H2 in L; discriminate L|reflexivity].
Qed.
(** two blocks, of one worker each: in one, a ref that is a location already, one that is found by the search, one by the hint, one between the ranges;
    in the other, one beyond the last id and one found *)
Definition ex_st_ways := [[mkWay 5 [] [] [-3; 21; 20; 15]]; [mkWay 6 [] [] [23; 22]]].
Lemma pC94_ex : Forall (range_ok ex_locations) ex_ranges /\ ascending_ranges ex_ranges /\ top_of ex_ranges 22 /\
  Forall (Forall (fun w => Forall is_s64 (way_Refs w))) ex_st_ways /\ zlen (looked_up (concat ex_st_ways)) < 2^64 /\
  Forall2 (fun ws cs => exists h, ways_counters (sub_index_of ex_ranges ex_locations 22) ws 0 = Ok (cs, h)) ex_st_ways [[HitDefault; HitHint; MissDefault]; [MissDeferred; HitDefault]] /\
  interleaved [[HitDefault; HitHint; MissDefault]; [MissDeferred; HitDefault]] [HitDefault; MissDeferred; HitHint; HitDefault; MissDefault] /\
  counted [HitDefault; MissDeferred; HitHint; HitDefault; MissDefault] HitDefault = 2 /\
  number (covered ex_ranges) (looked_up (concat ex_st_ways)) = 3.
Proof.
  destruct ex_index_ok as (A & B & _). split; [exact A|]. split; [exact B|].
  split; [intros r Hr; cbn in Hr; repeat destruct Hr as [<-|Hr]; cbn; try lia; destruct Hr|].
  split. { unfold ex_st_ways. repeat (apply Forall_cons; [repeat (apply Forall_cons; [cbn; repeat (apply Forall_cons; [unfold is_s64; lia|]); apply Forall_nil|]); apply Forall_nil|]). apply Forall_nil. }
  split; [vm_compute; reflexivity|]. split. { apply Forall2_cons; [|apply Forall2_cons; [|apply Forall2_nil]]; eexists; vm_compute; reflexivity. }
  split; [|split; vm_compute; reflexivity].
  apply (interleaved_step [] HitDefault [HitHint; MissDefault] [[MissDeferred; HitDefault]]). cbn [app].
  apply (interleaved_step [[HitHint; MissDefault]] MissDeferred [HitDefault] []). cbn [app].
  apply (interleaved_step [] HitHint [MissDefault] [[HitDefault]]). cbn [app].
  apply (interleaved_step [[MissDefault]] HitDefault [] []). cbn [app].
  apply (interleaved_step [] MissDefault [] [[]]). cbn [app]. apply interleaved_nil. repeat constructor.
Qed.
