(** * NiProofs: packing, lookup, passes. *)
From Verif Require Import Base PbSpec TModel FrModel ZlModel MtModel IoModel IoSpec NiModel NiSpec.
From Verif Require Import BaseLemmas IoThms.

(** ** packing *)
Lemma pack_count off c : 0 <= c < 2^24 -> co_Count (off * 2^24 + c) = c.
Proof.
  intros H. unfold co_Count, CountMask, CountMax. change (2^24 - 1) with (Z.ones 24). rewrite Z.land_ones by lia.
  rewrite Z.add_comm, Z.mod_add by lia. apply Z.mod_small. lia.
Qed.
Lemma pack_offset off c : 0 <= c < 2^24 -> co_Offset (off * 2^24 + c) = off.
Proof.
  intros H. unfold co_Offset, CountBits. rewrite Z.shiftr_div_pow2 by lia. rewrite Z.div_add_l by lia. rewrite Z.div_small by lia. lia.
Qed.
Lemma lor_add a c n : 0 <= n -> 0 <= c < 2^n -> Z.lor (a * 2^n) c = a * 2^n + c.
Proof.
  intros Hn Hc.
  assert (L : Z.land (a * 2^n) c = 0).
  { apply Z.bits_inj'. intros i Hi. rewrite Z.land_spec, Z.bits_0. destruct (Z.lt_ge_cases i n) as [L|G].
    - rewrite Z.mul_pow2_bits_low by lia. reflexivity.
    - assert (T : Z.testbit c i = false).
      { apply Z.testbit_false; [lia|]. rewrite Z.div_small; [reflexivity|]. split; [lia|]. apply Z.lt_le_trans with (2^n); [lia|apply Z.pow_le_mono_r; lia]. }
      rewrite T. apply andb_false_r. }
  rewrite Z.add_nocarry_lxor by exact L. symmetry. apply Z.lxor_lor. exact L.
Qed.
Lemma NewCountOffset_ok count off : 0 <= count < 2^24 -> 0 <= off < 2^40 -> NewCountOffset count off = Ok (off * 2^24 + count).
Proof.
  intros Hc Ho. unfold NewCountOffset, OffsetMax, CountMax, CountBits. replace (2^40 <=? off) with false by lia. replace (2^24 <? count) with false by lia.
  f_equal. rewrite Z.shiftl_mul_pow2 by lia. rewrite u64_id by (unfold is_u64; lia). apply lor_add; lia.
Qed.

(** ** ranges *)
Lemma last_elem locs r : range_ok locs r -> LastID (elem_of r) = r_first r + r_count r - 1.
Proof.
  intros (A & B & C & D & E). unfold LastID, FirstID, elem_of. cbn [baseId countOffset]. rewrite pack_count by lia.
  unfold u64. rewrite Zminus_mod_idemp_l. apply Z.mod_small. lia.
Qed.
Lemma contains_elem locs r id : range_ok locs r -> contains (elem_of r) id = true <-> in_range r id.
Proof. intros H. unfold contains. rewrite (last_elem locs r H). unfold FirstID, elem_of, in_range. cbn [baseId]. lia. Qed.
Lemma compare_elem locs r id : range_ok locs r ->
  (id < r_first r /\ compareId (elem_of r) id = -1) \/
  (r_first r + r_count r <= id /\ compareId (elem_of r) id = 1) \/
  (in_range r id /\ compareId (elem_of r) id = 0).
Proof.
  intros H. unfold compareId. rewrite (last_elem locs r H). unfold FirstID, elem_of, in_range. cbn [baseId].
  destruct H as (? & ? & ?).
  destruct (Z.ltb_spec id (r_first r)); [left; lia|]. destruct (Z.ltb_spec (r_first r + r_count r - 1) id); [right; left; lia|right; right; lia].
Qed.
Lemma fetch locs r id : range_ok locs r -> in_range r id ->
  exists loc, nth_error locs (Z.to_nat (r_offset r + (id - r_first r))) = Some loc /\
    OffsetForID (elem_of r) id = Ok (r_offset r + (id - r_first r)) /\
    lidx locs (r_offset r + (id - r_first r)) = Ok loc.
Proof.
  intros H I. assert (C : contains (elem_of r) id = true) by (apply (contains_elem locs); assumption).
  destruct H as (A & B & C' & D & E). unfold in_range in I.
  destruct (lidx_ok locs (r_offset r + (id - r_first r)) ltac:(lia)) as (loc & L).
  exists loc. split; [apply (proj1 (lidx_spec _ _ _)) in L; apply L|]. split; [|exact L].
  unfold OffsetForID. rewrite C. cbn [negb]. unfold ie_Offset, FirstID, elem_of. cbn [baseId countOffset]. rewrite pack_offset by lia.
  rewrite (u64_id (id - r_first r)) by (unfold is_u64; lia). rewrite u64_id by (unfold is_u64; lia). reflexivity.
Qed.

Section search.
  Variables (rs : list range) (locs : list Z) (id : Z).
  Hypothesis Hok : Forall (range_ok locs) rs.
  Hypothesis Hasc : ascending_ranges rs.
  Definition below (lo : Z) := forall i r, nth_error rs i = Some r -> Z.of_nat i < lo -> r_first r + r_count r <= id.
  Definition above (up : Z) := forall i r, nth_error rs i = Some r -> up <= Z.of_nat i -> id < r_first r.
  Lemma elem_at i : 0 <= i < zlen rs -> exists r, nth_error rs (Z.to_nat i) = Some r /\ range_ok locs r /\ lidx (map elem_of rs) i = Ok (elem_of r).
  Proof.
    intros H. destruct (nth_error rs (Z.to_nat i)) as [r|] eqn:E; [|apply nth_error_None in E; unfold zlen in H; lia].
    exists r. split; [reflexivity|]. split; [exact (proj1 (Forall_forall _ _) Hok r (nth_error_In _ _ E))|].
    apply lidx_spec. split; [lia|]. rewrite nth_error_map, E. reflexivity.
  Qed.
  Lemma below_le i r lo : nth_error rs i = Some r -> r_first r + r_count r <= id -> lo <= Z.of_nat i + 1 -> below lo.
  Proof.
    intros E L H j r' E' H'. destruct (Nat.eq_dec i j) as [->|N]; [congruence|].
    assert (j < i)%nat by lia. pose proof (Hasc j i r' r ltac:(lia) E' E).
    pose proof (proj1 (Forall_forall _ _) Hok r (nth_error_In _ _ E)) as (? & ? & _). lia.
  Qed.
  Lemma above_ge i r up : nth_error rs i = Some r -> id < r_first r -> Z.of_nat i <= up -> above up.
  Proof.
    intros E L H j r' E' H'. destruct (Nat.eq_dec i j) as [->|N]; [congruence|].
    pose proof (Hasc i j r r' ltac:(lia) E E').
    pose proof (proj1 (Forall_forall _ _) Hok r (nth_error_In _ _ E)) as (? & ? & _). lia.
  Qed.
  Lemma bs_spec : forall fuel lo up, (Z.to_nat (up - lo) < fuel)%nat -> 0 <= lo <= up -> up <= zlen rs -> below lo -> above up ->
    exists lo' up' brk, loop fuel bs_cond (bs_body (map elem_of rs) id) (lo, up, false) = Ok (lo', up', brk) /\
      (brk = true -> exists r, nth_error rs (Z.to_nat lo') = Some r /\ in_range r id /\ 0 <= lo' < zlen rs) /\
      (brk = false -> 0 <= lo' <= zlen rs /\ below lo' /\ above lo').
  Proof.
    induction fuel as [|fuel IH]; intros lo up Hf Hlo Hup Hb Ha; [lia|]. cbn [loop bs_cond negb].
    rewrite andb_true_r. destruct (Z.ltb_spec lo up) as [L|G].
    - cbn [bs_body].
      assert (M : lo <= Z.shiftr (lo + up) 1 < up).
      { rewrite Z.shiftr_div_pow2 by lia. change (2^1) with 2. split; [apply Z.div_le_lower_bound; lia|apply Z.div_lt_upper_bound; lia]. }
      set (mid := Z.shiftr (lo + up) 1) in *.
      destruct (elem_at mid ltac:(lia)) as (r & Er & Or & ->). cbn [bind].
      destruct (compare_elem locs r id Or) as [(C & ->)|[(C & ->)|(C & ->)]].
      + change (-1 <? 0) with true. cbn match. cbn [bind]. apply IH; try lia; [exact Hb|]. apply (above_ge (Z.to_nat mid) r); [exact Er|exact C|lia].
      + change (1 <? 0) with false. change (1 =? 0) with false. cbn match. cbn [bind]. apply IH; try lia; [|exact Ha].
        apply (below_le (Z.to_nat mid) r); [exact Er|exact C|lia].
      + change (0 <? 0) with false. change (0 =? 0) with true. cbn match. cbn [bind].
        exists mid, up, true. split; [|split; [|discriminate]].
        * destruct fuel; cbn [loop bs_cond negb]; rewrite andb_false_r; reflexivity.
        * intros _. exists r. split; [exact Er|]. split; [exact C|lia].
    - exists lo, up, false. split; [reflexivity|]. split; [discriminate|]. intros _. assert (lo = up) by lia. subst up. split; [lia|]. split; assumption.
  Qed.
  (** the lookup, found or not *)
  Definition lookup_ok (hint : Z) (res : res (Z * Z * bool)) : Prop :=
    (forall i r, nth_error rs i = Some r -> in_range r id ->
       exists loc, nth_error locs (Z.to_nat (r_offset r + (id - r_first r))) = Some loc /\ res = Ok (loc, Z.of_nat i, negb (loc =? 0))) /\
    ((forall r, In r rs -> ~ in_range r id) -> res = Ok (0, hint, false)).
  Lemma range_unique i j a b : nth_error rs i = Some a -> nth_error rs j = Some b -> in_range a id -> in_range b id -> i = j.
  Proof.
    intros Ea Eb Ia Ib. unfold in_range in *. destruct (Nat.lt_trichotomy i j) as [L|[->|L]]; [|reflexivity|].
    - pose proof (Hasc i j a b L Ea Eb). lia.
    - pose proof (Hasc j i b a L Eb Ea). lia.
  Qed.
  Lemma hit_ok hint i r : 0 <= i -> nth_error rs (Z.to_nat i) = Some r -> in_range r id -> range_ok locs r ->
    lookup_ok hint (off <- OffsetForID (elem_of r) id ;; loc <- lidx locs off ;; Ok (loc, i, negb (loc =? 0))).
  Proof.
    intros Hi Er Ir Or. destruct (fetch locs r id Or Ir) as (loc & En & -> & L). cbn [bind]. rewrite L. cbn [bind]. split.
    - intros j r' Ej Ij. assert (j = Z.to_nat i) by (eapply range_unique; eassumption). subst j. rewrite Er in Ej. injection Ej as <-.
      exists loc. split; [exact En|]. rewrite Z2Nat.id by lia. reflexivity.
    - intros N. exfalso. exact (N r (nth_error_In _ _ Er) Ir).
  Qed.
  Lemma search_ok hint lo up : 0 <= lo <= up -> up <= zlen rs -> below lo -> above up ->
    lookup_ok hint (lo <- binary_search (map elem_of rs) id lo up ;;
      if zlen (map elem_of rs) <=? lo then Ok (0, hint, false)
      else
        e <- lidx (map elem_of rs) lo ;;
        if negb (contains e id) then Ok (0, hint, false)
        else
          off <- OffsetForID e id ;;
          loc <- lidx locs off ;;
          Ok (loc, lo, negb (loc =? 0))).
  Proof.
    intros Hlo Hup Hb Ha. unfold binary_search.
    destruct (bs_spec (S (Z.to_nat (up - lo))) lo up ltac:(lia) Hlo Hup Hb Ha) as (lo' & up' & brk & -> & F & N). cbn [bind].
    rewrite zlen_map. destruct brk.
    - destruct (F eq_refl) as (r & Er & Ir & R). replace (zlen rs <=? lo') with false by lia.
      destruct (elem_at lo' R) as (r' & Er' & Or & ->). cbn [bind]. rewrite Er in Er'. injection Er' as <-.
      rewrite (proj2 (contains_elem locs r id Or) Ir). cbn [negb]. apply hit_ok; [lia|assumption..].
    - destruct (N eq_refl) as (R & B & A).
      assert (X : lookup_ok hint (Ok (0, hint, false))).
      { split; [|reflexivity]. intros i r Er Ir. exfalso. unfold in_range in Ir.
        destruct (Z.lt_ge_cases (Z.of_nat i) lo'); [pose proof (B i r Er ltac:(lia)); lia|pose proof (A i r Er ltac:(lia)); lia]. }
      destruct (Z.leb_spec (zlen rs) lo'); [exact X|].
      destruct (elem_at lo' ltac:(lia)) as (r' & Er' & Or & ->). cbn [bind].
      replace (contains (elem_of r') id) with false; [exact X|]. symmetry. apply not_true_is_false. intros C. apply (contains_elem locs) in C; [|exact Or].
      pose proof (A _ _ Er' ltac:(lia)). unfold in_range in C. lia.
  Qed.
  Lemma FindNode_spec top hint : top_of rs top -> 0 <= hint -> lookup_ok hint (FindNode (sub_index_of rs locs top) id hint).
  Proof.
    intros Ht Hh. unfold FindNode, sub_index_of. cbn [si_Top si_element si_locations].
    destruct (Z.ltb_spec top id) as [T|T].
    { split; [|reflexivity]. intros i r Er Ir. exfalso. pose proof (Ht r (nth_error_In _ _ Er)). unfold in_range in Ir. lia. }
    assert (B0 : below 0) by (intros i r _ H; lia).
    assert (AL : above (zlen rs)) by (intros i r E H; assert (i < List.length rs)%nat by (apply nth_error_Some; congruence); unfold zlen in H; lia).
    destruct (Z.ltb_spec hint (zlen (map elem_of rs))) as [H|H]; rewrite zlen_map in H.
    - destruct (elem_at hint ltac:(lia)) as (r & Er & Or & ->). cbn [bind].
      destruct (compare_elem locs r id Or) as [(C & ->)|[(C & ->)|(C & ->)]].
      + change (-1 =? -1) with true. cbn match. apply search_ok; [lia|lia|exact B0|]. apply (above_ge (Z.to_nat hint) r); [exact Er|exact C|lia].
      + change (1 =? -1) with false. change (1 =? 0) with false. cbn match. apply search_ok; [rewrite zlen_map; lia|rewrite zlen_map; lia| |rewrite zlen_map; exact AL].
        apply (below_le (Z.to_nat hint) r); [exact Er|exact C|lia].
      + change (0 =? -1) with false. change (0 =? 0) with true. cbn match. apply hit_ok; assumption.
    - apply search_ok; [rewrite zlen_map; pose proof (zlen_nonneg rs); lia|rewrite zlen_map; lia|exact B0|rewrite zlen_map; exact AL].
  Qed.
End search.
