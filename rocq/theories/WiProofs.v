(** * WiProofs: packing, lookup and passes of the way index. *)
From Verif Require Import Base PbSpec PbModel TModel HLModel FrModel ZlModel IoModel IoSpec WiModel WiSpec.
From Verif Require Import BaseLemmas IoThms NiProofs.
From Verif Require NiProofs2.

(** ** packing *)
Lemma word_id e : entry_ok e -> wd_WayID (word_of e) = e_id e.
Proof.
  intros (A & B). unfold wd_WayID, word_of. rewrite Z.shiftr_div_pow2 by lia. rewrite Z.div_add_l by lia. rewrite (Z.div_small (e_off e)) by lia.
  rewrite Z.add_0_r. apply s64_id. unfold is_s64. lia.
Qed.
Lemma offset_mod x : wd_Offset x = x mod 2^33.
Proof.
  unfold wd_Offset. change (2^33 - 1) with (Z.ones 33). rewrite Z.land_ones by lia.
  destruct (s64_cong x) as (k & ->). replace (k * 2^64) with ((k * 2^31) * 2^33) by lia. apply Z.mod_add. lia.
Qed.
Lemma word_off e : entry_ok e -> wd_Offset (word_of e) = e_off e.
Proof.
  intros (A & B). rewrite offset_mod. unfold word_of. rewrite Z.add_comm, Z.mod_add by lia. apply Z.mod_small. lia.
Qed.
Lemma word_u64 e : entry_ok e -> is_u64 (word_of e).
Proof. intros (A & B). unfold is_u64, word_of. lia. Qed.
Lemma Make_ok id off : 0 <= id < 2^31 -> 0 <= off < 2^33 -> MakeIndexData id off = Ok (word_of (mkEntry id off)).
Proof.
  intros A B. unfold MakeIndexData. replace (2^31 <? id) with false by lia. replace (2^33 <? off) with false by lia. f_equal.
  rewrite Z.shiftl_mul_pow2 by lia. destruct (s64_cong (id * 2^33)) as (k & ->).
  replace (id * 2^33 + k * 2^64) with ((id + k * 2^31) * 2^33) by lia. rewrite lor_add by lia.
  unfold word_of. cbn [e_id e_off]. replace ((id + k * 2^31) * 2^33 + off) with (id * 2^33 + off + k * 2^64) by lia.
  rewrite u64_add_k. apply u64_id. unfold is_u64. lia.
Qed.
Lemma go_shl_ok x s : 0 <= x -> 0 <= s <= 62 -> x * 2^s < 2^63 -> go_shl x s = Ok (x * 2^s).
Proof.
  intros A B C. unfold go_shl. replace (s <? 0) with false by lia. replace (64 <=? s) with false by lia.
  rewrite Z.shiftl_mul_pow2 by lia. rewrite s64_id; [reflexivity|]. unfold is_s64. assert (0 < 2^s) by (apply Z.pow_pos_nonneg; lia). nia.
Qed.

(** ** looking up *)
Section search.
  Variables (es : list entry) (loc : list Z) (shift id : Z).
  Hypothesis Hok : way_index_ok es loc shift.
  Variables (L : entry -> list Z).
  Hypothesis HL : forall e, In e es -> stored loc (e_off e * 2^shift) (L e).
  Definition wbelow (lo : Z) := forall i e, nth_error es i = Some e -> Z.of_nat i < lo -> e_id e < id.
  Definition wabove (up : Z) := forall i e, nth_error es i = Some e -> up <= Z.of_nat i -> id < e_id e.
  Lemma went_at i : 0 <= i < zlen es -> exists e, nth_error es (Z.to_nat i) = Some e /\ In e es /\ lidx (map word_of es) i = Ok (word_of e) /\ wd_WayID (word_of e) = e_id e.
  Proof.
    intros H. destruct (nth_error es (Z.to_nat i)) as [e|] eqn:E; [|apply nth_error_None in E; unfold zlen in H; lia].
    exists e. split; [reflexivity|]. split; [exact (nth_error_In _ _ E)|]. split; [apply lidx_spec; split; [lia|]; rewrite nth_error_map, E; reflexivity|].
    apply word_id. exact (proj1 (Forall_forall _ _) (proj1 Hok) e (nth_error_In _ _ E)).
  Qed.
  Lemma wbelow_le i e lo : nth_error es i = Some e -> e_id e < id -> lo <= Z.of_nat i + 1 -> wbelow lo.
  Proof.
    intros E H Hl j e' E' H'. destruct (Nat.eq_dec i j) as [->|N]; [congruence|].
    destruct Hok as (_ & Hasc & _). pose proof (Hasc j i e' e ltac:(lia) E' E). lia.
  Qed.
  Lemma wabove_ge i e up : nth_error es i = Some e -> id < e_id e -> Z.of_nat i <= up -> wabove up.
  Proof.
    intros E H Hl j e' E' H'. destruct (Nat.eq_dec i j) as [->|N]; [congruence|].
    destruct Hok as (_ & Hasc & _). pose proof (Hasc i j e e' ltac:(lia) E E'). lia.
  Qed.
  Lemma wbs_spec : forall fuel lo up, (Z.to_nat (up - lo) < fuel)%nat -> 0 <= lo <= up -> up <= zlen es -> wbelow lo -> wabove up ->
    exists lo' up' brk, loop fuel wbs_cond (wbs_body (map word_of es) id) (lo, up, false) = Ok (lo', up', brk) /\
      (brk = true -> exists e, nth_error es (Z.to_nat lo') = Some e /\ e_id e = id /\ 0 <= lo' < zlen es) /\
      (brk = false -> 0 <= lo' <= zlen es /\ wbelow lo' /\ wabove lo').
  Proof.
    induction fuel as [|fuel IH]; intros lo up Hf Hlo Hup Hb Ha; [lia|]. cbn [loop wbs_cond negb].
    rewrite andb_true_r. destruct (Z.ltb_spec lo up) as [Lt|G].
    - cbn [wbs_body].
      assert (M : lo <= Z.shiftr (lo + up) 1 < up).
      { rewrite Z.shiftr_div_pow2 by lia. change (2^1) with 2. split; [apply Z.div_le_lower_bound; lia|apply Z.div_lt_upper_bound; lia]. }
      set (mid := Z.shiftr (lo + up) 1) in *.
      destruct (went_at mid ltac:(lia)) as (e & Er & _ & -> & Ew). cbn [bind]. rewrite Ew.
      destruct (Z.ltb_spec id (e_id e)) as [C|C]; [|destruct (Z.eqb_spec id (e_id e)) as [C'|C']].
      + cbn [bind]. apply IH; try lia; [exact Hb|]. apply (wabove_ge (Z.to_nat mid) e); [exact Er|exact C|lia].
      + cbn [bind]. exists mid, up, true. split; [|split; [|discriminate]].
        * destruct fuel; cbn [loop wbs_cond negb]; rewrite andb_false_r; reflexivity.
        * intros _. exists e. split; [exact Er|]. split; [congruence|lia].
      + cbn [bind]. apply IH; try lia; [|exact Ha]. apply (wbelow_le (Z.to_nat mid) e); [exact Er|lia|lia].
    - exists lo, up, false. split; [reflexivity|]. split; [discriminate|]. intros _. assert (lo = up) by lia. subst up. split; [lia|]. split; assumption.
  Qed.
  Definition wlookup_ok (hint : Z) (r : res (list Z * Z * bool)) : Prop :=
    (forall i e, nth_error es i = Some e -> e_id e = id -> r = Ok (L e, Z.of_nat i, true)) /\
    ((forall e, In e es -> e_id e <> id) -> r = Ok ([], hint, false)).
  Lemma wunique i j a b : nth_error es i = Some a -> nth_error es j = Some b -> e_id a = id -> e_id b = id -> i = j.
  Proof.
    intros Ea Eb Ia Ib. destruct Hok as (_ & Hasc & _). destruct (Nat.lt_trichotomy i j) as [Lt|[->|Lt]]; [|reflexivity|].
    - pose proof (Hasc i j a b Lt Ea Eb). lia.
    - pose proof (Hasc j i b a Lt Eb Ea). lia.
  Qed.
  Lemma wfetch top e : In e es -> way_locations (mkSWI (map word_of es) loc shift top) (word_of e) = Ok (L e).
  Proof.
    intros I. destruct Hok as (H1 & _ & _ & H2 & H3 & H4). pose proof (proj1 (Forall_forall _ _) H1 e I) as Oe.
    pose proof (proj1 (Forall_forall _ _) H4 e I) as Re. cbn beta in Re.
    unfold way_locations. cbn [sw_Shift sw_Loc]. rewrite word_off by exact Oe. rewrite go_shl_ok by (destruct Oe; lia). cbn [bind].
    unfold sslice, exact. assert (SC : scap (mkslice loc []) = zlen loc) by (unfold scap, slen, zlen; cbn [vis ext List.length]; lia). rewrite SC. cbn [vis ext]. rewrite app_nil_r. replace ((0 <=? e_off e * 2^shift) && (e_off e * 2^shift <=? zlen loc) && (zlen loc <=? zlen loc)) with true by (symmetry; rewrite !andb_true_iff; lia). cbn [bind].
    destruct (HL e I) as (_ & <-). unfold exact. f_equal. f_equal.
    - apply firstn_all2. rewrite skipn_length. unfold zlen. lia.
    - apply skipn_all2. unfold zlen. lia.
  Qed.
  Lemma whit_ok top hint i e : 0 <= i -> nth_error es (Z.to_nat i) = Some e -> e_id e = id ->
    wlookup_ok hint (locs <- way_locations (mkSWI (map word_of es) loc shift top) (word_of e) ;; Ok (locs, i, true)).
  Proof.
    intros Hi Er Ir. rewrite (wfetch top e (nth_error_In _ _ Er)). cbn [bind]. split.
    - intros j e' Ej Ij. assert (j = Z.to_nat i) by (eapply wunique; eassumption). subst j. rewrite Er in Ej. injection Ej as <-.
      rewrite Z2Nat.id by lia. reflexivity.
    - intros N. exfalso. exact (N e (nth_error_In _ _ Er) Ir).
  Qed.
  Lemma wsearch_ok top hint lo up : 0 <= lo <= up -> up <= zlen es -> wbelow lo -> wabove up ->
    wlookup_ok hint (lo <- way_search (map word_of es) id lo up ;;
      if zlen (map word_of es) <=? lo then Ok ([], hint, false)
      else
        d <- lidx (map word_of es) lo ;;
        if negb (wd_WayID d =? id) then Ok ([], hint, false)
        else
          locs <- way_locations (mkSWI (map word_of es) loc shift top) d ;;
          Ok (locs, lo, true)).
  Proof.
    intros Hlo Hup Hb Ha. unfold way_search.
    destruct (wbs_spec (S (Z.to_nat (up - lo))) lo up ltac:(lia) Hlo Hup Hb Ha) as (lo' & up' & brk & -> & F & N). cbn [bind].
    rewrite zlen_map. destruct brk.
    - destruct (F eq_refl) as (e & Er & Ir & R). replace (zlen es <=? lo') with false by lia.
      destruct (went_at lo' R) as (e' & Er' & _ & -> & Ew). cbn [bind]. rewrite Ew. rewrite Er in Er'. injection Er' as <-.
      rewrite Ir, Z.eqb_refl. cbn [negb]. apply whit_ok; [lia|assumption..].
    - destruct (N eq_refl) as (R & B & A).
      assert (X : wlookup_ok hint (Ok ([], hint, false))).
      { split; [|reflexivity]. intros i e Er Ir. exfalso.
        destruct (Z.lt_ge_cases (Z.of_nat i) lo'); [pose proof (B i e Er ltac:(lia)); lia|pose proof (A i e Er ltac:(lia)); lia]. }
      destruct (Z.leb_spec (zlen es) lo'); [exact X|].
      destruct (went_at lo' ltac:(lia)) as (e' & Er' & _ & -> & Ew). cbn [bind]. rewrite Ew.
      replace (e_id e' =? id) with false; [exact X|]. symmetry. pose proof (A _ _ Er' ltac:(lia)). lia.
  Qed.
  Lemma FindLocations_spec top hint : (forall e, In e es -> e_id e <= top) -> 0 <= hint ->
    wlookup_ok hint (FindLocations (mkSWI (map word_of es) loc shift top) id hint).
  Proof.
    intros Ht Hh. unfold FindLocations. cbn [sw_Top sw_Ids].
    destruct (Z.ltb_spec top id) as [T|T].
    { split; [|reflexivity]. intros i e Er Ir. exfalso. pose proof (Ht e (nth_error_In _ _ Er)). lia. }
    assert (B0 : wbelow 0) by (intros i e _ H; lia).
    assert (AL : wabove (zlen es)) by (intros i e E H; assert (i < List.length es)%nat by (apply nth_error_Some; congruence); unfold zlen in H; lia).
    destruct (Z.ltb_spec hint (zlen (map word_of es))) as [H|H]; rewrite zlen_map in H.
    - destruct (went_at hint ltac:(lia)) as (e & Er & _ & -> & Ew). cbn [bind]. rewrite Ew.
      destruct (Z.ltb_spec id (e_id e)) as [C|C]; [|destruct (Z.eqb_spec id (e_id e)) as [C'|C']].
      + apply wsearch_ok; [lia|lia|exact B0|]. apply (wabove_ge (Z.to_nat hint) e); [exact Er|exact C|lia].
      + apply whit_ok; [assumption|assumption|congruence].
      + apply wsearch_ok; [rewrite zlen_map; lia|rewrite zlen_map; lia| |rewrite zlen_map; exact AL].
        apply (wbelow_le (Z.to_nat hint) e); [exact Er|lia|lia].
    - apply wsearch_ok; [rewrite zlen_map; pose proof (zlen_nonneg es); lia|rewrite zlen_map; lia|exact B0|rewrite zlen_map; exact AL].
  Qed.
End search.

Lemma find_entry_spec es : forall id i,
  match find_entry es id i with
  | Some (e, j) => i <= j /\ nth_error es (Z.to_nat (j - i)) = Some e /\ e_id e = id
  | None => forall e, In e es -> e_id e <> id
  end.
Proof.
  induction es as [|e es IH]; intros id i; cbn [find_entry]; [intros ? []|].
  destruct (Z.eqb_spec (e_id e) id) as [E|E].
  - split; [lia|]. replace (i - i) with 0 by lia. auto.
  - specialize (IH id (i + 1)). destruct (find_entry es id (i + 1)) as [[e' j]|].
    + destruct IH as (A & B & C). split; [lia|]. split; [|exact C]. replace (Z.to_nat (j - i)) with (S (Z.to_nat (j - (i + 1)))) by lia. exact B.
    + intros x [<-|H]; [exact E|exact (IH x H)].
Qed.

(** ** passes *)
(** The number of entries positioned before byte [t]. *)
Definition before (shift t : Z) (es : list entry) : Z := zlen (filter (fun e => e_off e * 2^shift <? t) es).
Lemma asc_tail {A} (f : A -> Z) a l : ascending_by f (a :: l) -> ascending_by f l.
Proof. intros H i j x y L E1 E2. apply (H (S i) (S j) x y); [lia|exact E1|exact E2]. Qed.
Lemma asc_head {A} (f : A -> Z) a l x : ascending_by f (a :: l) -> In x l -> f a < f x.
Proof. intros H I. apply In_nth_error in I. destruct I as (n & E). exact (H 0%nat (S n) a x ltac:(lia) eq_refl E). Qed.
Lemma filter_none {A} (p : A -> bool) l : (forall x, In x l -> p x = false) -> filter p l = [].
Proof. induction l as [|a l IH]; intros H; [reflexivity|]. cbn [filter]. rewrite (H a (or_introl eq_refl)). apply IH. intros x Hx. apply H. right. exact Hx. Qed.
Lemma first_at_spec loc shift t es : forall i none, way_index_ok es loc shift ->
  first_at (map word_of es) shift t i none = Ok (if existsb (fun e => t <=? e_off e * 2^shift) es then i + before shift t es else none).
Proof.
  induction es as [|e es IH]; intros i none H; cbn [map first_at existsb]; [reflexivity|].
  destruct H as (H1 & H2 & H3 & H4 & H5 & H6). pose proof (Forall_inv H1) as Oe. pose proof (Forall_inv H6) as Re. cbn beta in Re.
  rewrite word_off by exact Oe. rewrite go_shl_ok by (destruct Oe; lia). cbn [bind]. unfold before. cbn [filter].
  destruct (Z.leb_spec t (e_off e * 2^shift)) as [C|C].
  - cbn [orb]. replace (e_off e * 2^shift <? t) with false by lia.
    rewrite filter_none; [change (zlen (@nil entry)) with 0; f_equal; lia|]. intros x Hx. pose proof (asc_head e_off e es x H3 Hx).
    assert (0 < 2^shift) by (apply Z.pow_pos_nonneg; lia). nia.
  - cbn [orb]. rewrite IH.
    + replace (e_off e * 2^shift <? t) with true by lia. rewrite zlen_cons. unfold before. destruct (existsb _ es); f_equal; lia.
    + split; [exact (Forall_inv_tail H1)|]. split; [exact (asc_tail e_id e es H2)|]. split; [exact (asc_tail e_off e es H3)|]. split; [exact H4|]. split; [exact H5|exact (Forall_inv_tail H6)].
Qed.

Lemma zpow_pos s : 0 <= s -> 0 < 2^s.
Proof. intros. apply Z.pow_pos_nonneg; lia. Qed.
(** cutting an ascending list at a position *)
Lemma asc_split shift t es : 0 <= shift -> ascending_by e_off es ->
  es = filter (fun e => position shift e <? t) es ++ filter (fun e => t <=? position shift e) es.
Proof.
  intros Hs. pose proof (zpow_pos shift Hs) as P. induction es as [|e es IH]; intros H; [reflexivity|]. cbn [filter]. destruct (Z.ltb_spec (position shift e) t) as [C|C].
  - replace (t <=? position shift e) with false by lia. cbn [app]. f_equal. apply IH. exact (asc_tail e_off e es H).
  - replace (t <=? position shift e) with true by lia. rewrite filter_none; cbn [app].
    + f_equal. symmetry. clear IH. assert (G : forall x, In x es -> t <= position shift x).
      { intros x Hx. pose proof (asc_head e_off e es x H Hx). unfold position in *. nia. }
      clear - G. induction es as [|x es IH]; [reflexivity|]. cbn [filter]. pose proof (G x (or_introl eq_refl)). replace (t <=? position shift x) with true by lia. f_equal. apply IH. intros y Hy. apply G. right. exact Hy.
    + intros x Hx. pose proof (asc_head e_off e es x H Hx). unfold position in *. nia.
Qed.
Lemma before_app shift t es : 0 <= shift -> ascending_by e_off es ->
  firstn (Z.to_nat (before shift t es)) es = filter (fun e => position shift e <? t) es /\
  skipn (Z.to_nat (before shift t es)) es = filter (fun e => t <=? position shift e) es.
Proof.
  intros Hs H. pose proof (asc_split shift t es Hs H) as E. unfold before. fold (position shift).
  change (fun e => e_off e * 2^shift <? t) with (fun e => position shift e <? t).
  set (a := filter (fun e => position shift e <? t) es) in *. set (b := filter _ es) in E. change (filter (fun e => t <=? position shift e) es) with b.
  replace (Z.to_nat (zlen a)) with (List.length a) by (unfold zlen; lia). rewrite E at 1 2.
  rewrite firstn_app, Nat.sub_diag, firstn_O, app_nil_r, firstn_all, skipn_app, Nat.sub_diag, skipn_O, skipn_all. auto.
Qed.
Lemma filter_filter {A} (p q : A -> bool) l : filter p (filter q l) = filter (fun x => q x && p x) l.
Proof. induction l as [|a l IH]; [reflexivity|]. cbn [filter]. destruct (q a); cbn [filter andb]; rewrite IH; reflexivity. Qed.
Lemma filter_all {A} (p : A -> bool) l : (forall x, In x l -> p x = true) -> filter p l = l.
Proof. induction l as [|a l IH]; intros H; [reflexivity|]. cbn [filter]. rewrite (H a (or_introl eq_refl)). f_equal. apply IH. intros x Hx. apply H. right. exact Hx. Qed.
Lemma asc_filter {A} (f : A -> Z) (p : A -> bool) l : ascending_by f l -> ascending_by f (filter p l).
Proof.
  induction l as [|a l IH]; intros H; [exact H|]. cbn [filter]. specialize (IH (asc_tail f a l H)). destruct (p a); [|exact IH].
  intros i j x y L E1 E2. destruct j as [|j]; [lia|]. cbn [nth_error] in E2. destruct i as [|i].
  - cbn in E1. injection E1 as <-. apply nth_error_In in E2. apply filter_In in E2. exact (asc_head f a l y H (proj1 E2)).
  - exact (IH i j x y ltac:(lia) E1 E2).
Qed.
Lemma ok_filter p es loc shift : way_index_ok es loc shift -> way_index_ok (filter p es) loc shift.
Proof.
  intros (H1 & H2 & H3 & H4 & H5 & H6). split; [|split; [apply asc_filter, H2|split; [apply asc_filter, H3|split; [exact H4|split; [exact H5|]]]]].
  - apply Forall_forall. intros x Hx. apply filter_In in Hx. exact (proj1 (Forall_forall _ _) H1 x (proj1 Hx)).
  - apply Forall_forall. intros x Hx. apply filter_In in Hx. exact (proj1 (Forall_forall _ _) H6 x (proj1 Hx)).
Qed.
Lemma existsb_false {A} (p : A -> bool) l : existsb p l = false -> forall x, In x l -> p x = false.
Proof. induction l as [|a l IH]; intros H x []; cbn [existsb] in H; apply orb_false_elim in H; [subst; tauto|apply IH; tauto]. Qed.

Lemma last_lidx {A} (d : A) l : l <> [] -> lidx l (zlen l - 1) = Ok (last l d).
Proof.
  intros H. destruct (exists_last H) as (l' & a & ->). rewrite last_last, zlen_app. change (zlen [a]) with 1.
  replace (zlen l' + 1 - 1) with (zlen l') by lia. apply lidx_app_mid.
Qed.
Lemma lidx_firstn {A} (l : list A) n i : 0 <= i < n -> n <= zlen l -> lidx l i = lidx (firstn (Z.to_nat n) l) i.
Proof.
  intros H L. unfold lidx. rewrite zlen_firstn by lia. replace ((0 <=? i) && (i <? zlen l)) with true by lia. replace ((0 <=? i) && (i <? n)) with true by lia.
  replace (nth_error (firstn (Z.to_nat n) l) (Z.to_nat i)) with (nth_error l (Z.to_nat i)); [reflexivity|].
  rewrite <- (firstn_skipn (Z.to_nat n) l) at 1. rewrite nth_error_app1; [reflexivity|]. rewrite firstn_length. unfold zlen in *. lia.
Qed.
Definition e0 : entry := mkEntry 0 0.
Lemma before_range shift t es : 0 <= before shift t es <= zlen es.
Proof.
  unfold before. split; [apply zlen_nonneg|]. unfold zlen. induction es as [|e es IH]; [cbn; lia|]. cbn [filter]. destruct (_ <? t); cbn [List.length]; lia.
Qed.
Lemma sub_pass_ok es loc shift k n : way_index_ok es loc shift -> 1 <= n -> 0 <= k < n ->
  SubIndexWithScaledPass (way_index_of es loc shift) k n =
    let q := zlen loc / n in
    let lower := filter (fun e => position shift e <? q * (k + 1)) es in
    match lower with
    | [] => Panic IndexOutOfRange
    | _ => Ok (mkSWI (map word_of (pass_of shift (q * k) (q * (k + 1)) es)) loc shift (e_id (last lower e0)))
    end.
Proof.
  intros H Hn Hk. unfold SubIndexWithScaledPass, way_index_of. cbn [wi_Ids wi_Loc wi_Shift]. replace (n =? 0) with false by lia.
  pose proof H as (H1 & H2 & H3 & H4 & H5 & H6). pose proof (zlen_nonneg loc) as Z0.
  rewrite Z.quot_div_nonneg by lia. set (q := zlen loc / n). assert (Q : 0 <= q) by (apply Z.div_pos; lia).
  assert (QN : q * n <= zlen loc) by (unfold q; pose proof (Z.mul_div_le (zlen loc) n); lia).
  assert (Q1 : q * (k + 1) <= q * n) by nia. assert (Q0 : 0 <= q * k <= q * (k + 1)) by nia.
  assert (K1 : s64 (q * s64 (k + 1)) = q * (k + 1)).
  { destruct (Z.eq_dec q 0) as [->|Nq]; [rewrite Z.mul_0_l; reflexivity|].
    assert (n <= zlen loc) by nia. rewrite (s64_id (k + 1)) by (unfold is_s64; lia). apply s64_id. unfold is_s64. lia. }
  rewrite K1, (s64_id (q * k)) by (unfold is_s64; lia). cbv zeta. clear K1.
  set (t1 := q * k) in *. set (t2 := q * (k + 1)) in *.
  rewrite (first_at_spec loc shift t1 es 0 0 H). cbn [bind].
  change (fun e => t1 <=? e_off e * 2^shift) with (fun e => t1 <=? position shift e).
  set (st := if existsb (fun e => t1 <=? position shift e) es then 0 + before shift t1 es else 0).
  assert (ST : 0 <= st <= zlen es) by (unfold st; pose proof (before_range shift t1 es); destruct (existsb _ es); pose proof (zlen_nonneg es); lia).
  assert (SK : skipn (Z.to_nat st) es = filter (fun e => if existsb (fun e => t1 <=? position shift e) es then t1 <=? position shift e else true) es).
  { unfold st. destruct (existsb _ es) eqn:Ex.
    - rewrite Z.add_0_l. apply (before_app shift t1 es); [lia|exact H3].
    - symmetry. apply filter_all. reflexivity. }
  assert (SM : skipn (Z.to_nat st) (map word_of es) = map word_of (skipn (Z.to_nat st) es)) by (apply NiProofs2.skipn_map').
  rewrite SM. rewrite (first_at_spec loc shift t2) by (rewrite SK; apply ok_filter, H). cbn [bind]. rewrite zlen_map.
  change (fun e => t2 <=? e_off e * 2^shift) with (fun e => t2 <=? position shift e).
  (* the end index is the number of entries before t2 *)
  assert (EN : (if existsb (fun e => t2 <=? position shift e) (skipn (Z.to_nat st) es) then st + before shift t2 (skipn (Z.to_nat st) es) else zlen es) = before shift t2 es).
  { assert (PRE : forall x, In x (firstn (Z.to_nat st) es) -> position shift x < t2).
    { intros x Hx. unfold st in Hx. destruct (existsb (fun e => t1 <=? position shift e) es) eqn:Ex; [|destruct Hx].
      rewrite Z.add_0_l in Hx. rewrite (proj1 (before_app shift t1 es ltac:(lia) H3)) in Hx. apply filter_In in Hx. lia. }
    assert (SP : before shift t2 es = st + before shift t2 (skipn (Z.to_nat st) es)).
    { unfold before. rewrite <- (firstn_skipn (Z.to_nat st) es) at 1. rewrite filter_app, zlen_app. f_equal.
      rewrite filter_all; [apply zlen_firstn; lia|]. intros x Hx. specialize (PRE x Hx). unfold position in PRE. lia. }
    destruct (existsb _ (skipn _ es)) eqn:Ex; [symmetry; exact SP|]. rewrite SP. pose proof (existsb_false _ _ Ex) as F.
    unfold before. rewrite filter_all; [rewrite zlen_skipn by lia; lia|]. intros x Hx. specialize (F x Hx). unfold position in F. lia. }
  rewrite EN. clear EN.
  assert (LE : st <= before shift t2 es).
  { unfold st. destruct (existsb _ es); [|pose proof (before_range shift t2 es); lia]. rewrite Z.add_0_l.
    unfold before. clear - Q0. induction es as [|e es IH]; [reflexivity|]. cbn [filter]. fold (position shift e).
    destruct (Z.ltb_spec (position shift e) t1), (Z.ltb_spec (position shift e) t2); rewrite ?zlen_cons; lia. }
  pose proof (before_range shift t2 es) as BR. set (en := before shift t2 es) in *.
  unfold lslice. rewrite zlen_map. replace ((0 <=? st) && (st <=? en) && (en <=? zlen es)) with true by lia. cbn [bind].
  assert (LW : filter (fun e => position shift e <? t2) es = firstn (Z.to_nat en) es) by (symmetry; apply (before_app shift t2 es); [lia|exact H3]).
  destruct (Z.eq_dec en 0) as [E0|E0].
  { rewrite LW, E0. change (Z.to_nat 0) with 0%nat. rewrite firstn_O. unfold lidx. replace ((0 <=? 0 - 1) && _) with false by (cbn; reflexivity). reflexivity. }
  assert (NE : firstn (Z.to_nat en) es <> []).
  { intros E. apply (f_equal (@List.length _)) in E. rewrite firstn_length in E. cbn in E. unfold zlen in BR. lia. }
  rewrite (lidx_firstn (map word_of es) en) by (rewrite ?zlen_map; lia). rewrite firstn_map.
  replace (en - 1) with (zlen (map word_of (firstn (Z.to_nat en) es)) - 1) by (rewrite zlen_map, zlen_firstn by lia; reflexivity).
  rewrite (last_lidx (word_of e0)) by (intros E; apply NE; apply map_eq_nil in E; exact E). cbn [bind].
  assert (LA : wd_WayID (last (map word_of (firstn (Z.to_nat en) es)) (word_of e0)) = e_id (last (firstn (Z.to_nat en) es) e0)).
  { destruct (exists_last NE) as (l' & a & E). rewrite E. rewrite map_app. cbn [map]. rewrite !last_last. apply word_id.
    apply (proj1 (Forall_forall _ _) H1 a). rewrite <- (firstn_skipn (Z.to_nat en) es). apply in_or_app. left. rewrite E. apply in_or_app. right. left. reflexivity. }
  rewrite LA. rewrite LW. destruct (firstn (Z.to_nat en) es) as [|x l] eqn:EF; [congruence|]. f_equal. f_equal.
  rewrite SM, firstn_map. f_equal. unfold pass_of.
  assert (FS : firstn (Z.to_nat (en - st)) (skipn (Z.to_nat st) es) = filter (fun e => position shift e <? t2) (skipn (Z.to_nat st) es)).
  { assert (SP : en = st + before shift t2 (skipn (Z.to_nat st) es)).
    { unfold en, before. rewrite <- (firstn_skipn (Z.to_nat st) es) at 1. rewrite filter_app, zlen_app. f_equal.
      rewrite filter_all; [apply zlen_firstn; lia|]. intros y Hy. unfold st in Hy. destruct (existsb (fun e => t1 <=? position shift e) es) eqn:Ex; [|destruct Hy].
      rewrite Z.add_0_l in Hy. rewrite (proj1 (before_app shift t1 es ltac:(lia) H3)) in Hy. apply filter_In in Hy. unfold position in Hy. lia. }
    replace (en - st) with (before shift t2 (skipn (Z.to_nat st) es)) by lia.
    apply before_app; [lia|]. rewrite SK. apply asc_filter, H3. }
  rewrite FS, SK, filter_filter. destruct (existsb (fun e => t1 <=? position shift e) es) eqn:Ex; [reflexivity|].
  apply filter_all. intros y Hy. pose proof (existsb_false _ _ Ex y Hy) as F. cbn beta in F. cbn [andb]. lia.
Qed.
