(** * XnThms: what the mutation runs showed to be unsaid: the 32-bit delta list (C06), what the node index dump reports
    (C51), the names of the pass files (C54). *)
From Verif Require Import Base PbModel PbSpec MtModel NiModel NiSpec DuModel RwModel RwThms.
From Verif Require Import BaseLemmas PbProofs PbProofs2 PbThms NiProofs RwThms.

(** ** C06 *)
Lemma prefix_sums : forall l last, Forall is_s32 l -> forall i v, nth_error l i = Some v ->
  v = s32 (fold_left Z.add (firstn (Datatypes.S i) (deltas s32 last l)) last).
Proof.
  assert (Sh : forall l a k, fold_left Z.add l (a + k * 2^32) = fold_left Z.add l a + k * 2^32).
  { induction l as [|x l IH]; intros a k; [reflexivity|]. cbn [fold_left]. rewrite <- IH. f_equal. lia. }
  induction l as [|x l IH]; intros last H i v Hi; [destruct i; discriminate|]. pose proof (Forall_inv H) as Hx. pose proof (Forall_inv_tail H) as Hl.
  cbn [deltas firstn fold_left]. destruct (s32_cong (x - last)) as [k Ek]. rewrite Ek. replace (last + (x - last + k * 2 ^ 32)) with (x + k * 2^32) by lia.
  rewrite Sh, s32_add_k. destruct i as [|i]; cbn [nth_error] in Hi.
  - injection Hi as <-. cbn [firstn fold_left]. symmetry. apply s32_id. exact Hx.
  - exact (IH x Hl i v Hi).
Qed.
(** C06, lists of 32-bit deltas (written, but no reader for them): they are the list of the differences wrapped to 32
    bits, so that reading that list and adding up, again in 32 bits, gives the values back. *)
Lemma pC06_s32_deltas : forall pre post e l, bytes pre -> bytes post -> Forall is_s32 l ->
  let w := EncodeS32PackedDelta pre l in
  zlen (w ++ post) < 2^63 ->
  exists ds, w = EncodeS32Packed pre ds /\ Forall is_s32 ds /\ DecodeS32Packed (mkslice (w ++ post) e) (zlen pre) = Ok (ds, zlen w) /\
    List.length ds = List.length l /\
    forall i v, nth_error l i = Some v -> v = s32 (fold_left Z.add (firstn (Datatypes.S i) ds) 0).
Proof.
  intros pre post e l H1 H2 H w Hl. exists (deltas s32 0 l).
  assert (Ed : Forall is_s32 (deltas s32 0 l)) by (generalize 0; clear; induction l as [|x l IH]; intros a; constructor; [apply s32_range|apply IH]).
  assert (Ew : w = EncodeS32Packed pre (deltas s32 0 l)).
  { unfold w, EncodeS32PackedDelta, EncodeS32Packed. rewrite enc_deltas_gen, enc_values_eq. reflexivity. }
  split; [exact Ew|]. split; [exact Ed|]. split; [|split; [|intros i v; apply prefix_sums; exact H]].
  - rewrite Ew in Hl |- *. exact (proj1 (proj2 (proj2 (pC06_packed_roundtrip pre post e H1 H2))) _ Ed Hl).
  - generalize 0. clear. induction l as [|x l IH]; intros a; [reflexivity|]. cbn [deltas List.length]. f_equal. apply IH.
Qed.
Lemma pC06_s32_deltas_ex : EncodeS32PackedDelta [] [2^31 - 1; -2^31; -2^31 + 5] = EncodeS32Packed [] [2^31 - 1; 1; 5].
Proof. reflexivity. Qed.

(** ** C51 *)
(** the word stored for position [k] of [el], and the word found for its id, are not the same *)
Definition differs (si : NodeSubIndex) (el : IndexElement) (k : Z) : Prop :=
  exists stored found hint ok, lidx (si_locations si) (u64 (ie_Offset el + k)) = Ok stored /\
    FindNode si (u64 (FirstID el + k)) 0 = Ok (found, hint, ok) /\ u64 stored <> u64 found.
Lemma dump_element_in si el : forall n idx ms, dump_element si el n idx = Ok ms ->
  forall k, In k ms <-> idx <= k < idx + Z.of_nat n /\ differs si el k.
Proof.
  induction n as [|n IH]; intros idx ms E k; cbn [dump_element] in E.
  - injection E as <-. split; [intros []|intros (H & _); lia].
  - destruct (lidx (si_locations si) (u64 (ie_Offset el + idx))) as [w| |] eqn:E1; cbn [bind] in E; try discriminate.
    destruct (FindNode si (u64 (FirstID el + idx)) 0) as [[[l h] f]| |] eqn:E2; cbn [bind] in E; try discriminate.
    destruct (dump_element si el n (idx + 1)) as [r| |] eqn:E3; cbn [bind] in E; try discriminate. specialize (IH _ _ E3 k).
    assert (D : differs si el idx <-> u64 w <> u64 l).
    { split.
      - intros (w' & l' & h' & f' & A & B & C). rewrite E1 in A. rewrite E2 in B. congruence.
      - intros C. exists w, l, h, f. auto. }
    destruct (Z.eqb_spec (u64 w) (u64 l)) as [Q|Q]; cbn [negb] in E; injection E as <-.
    + rewrite IH. split; intros (A & B); (split; [|exact B]); [lia|]. destruct (Z.eq_dec k idx) as [->|]; [apply D in B; contradiction|lia].
    + cbn [In]. rewrite IH. split.
      * intros [<-|(A & B)]; [split; [lia|apply D; exact Q]|split; [lia|exact B]].
      * intros (A & B). destruct (Z.eq_dec k idx) as [->|]; [left; reflexivity|right; split; [lia|exact B]].
Qed.
Lemma dump_elements_in si : forall n cur ms, dump_elements si n cur = Ok ms ->
  forall e k, In (e, k) ms <-> cur <= e < cur + Z.of_nat n /\ exists el, lidx (si_element si) e = Ok el /\ 0 <= k < ie_Count el /\ differs si el k.
Proof.
  induction n as [|n IH]; intros cur ms E e k; cbn [dump_elements] in E.
  - injection E as <-. split; [intros []|intros (H & _); lia].
  - destruct (lidx (si_element si) cur) as [el| |] eqn:E1; cbn [bind] in E; try discriminate.
    destruct (dump_element si el (Z.to_nat (ie_Count el)) 0) as [m| |] eqn:E2; cbn [bind] in E; try discriminate.
    destruct (dump_elements si n (cur + 1)) as [r| |] eqn:E3; cbn [bind] in E; try discriminate. injection E as <-.
    rewrite in_app_iff, (IH _ _ E3 e k), in_map_iff. pose proof (dump_element_in si el _ _ _ E2 k) as D. split.
    + intros [(x & Ex & Hx)|(A & B)]; [|split; [lia|exact B]]. injection Ex as <- ->. apply D in Hx. destruct Hx as (A & B).
      split; [lia|]. exists el. split; [exact E1|]. split; [lia|exact B].
    + intros (A & el' & B & C & F). destruct (Z.eq_dec e cur) as [->|].
      * left. rewrite E1 in B. injection B as <-. exists k. split; [reflexivity|]. apply D. split; [lia|exact F].
      * right. split; [lia|]. exists el'. auto.
Qed.
(** C51, the other way round: over any index, whatever is in it, a dump that ends reports exactly the positions whose
    stored word is not the one that a search for their id finds. *)
Lemma pC51_reports : forall si start end_ ms, dump_mismatches si start end_ = Ok ms ->
  forall e k, In (e, k) ms <->
    (match start with Some s => s | None => 0 end <= e < zlen (si_element si) /\ (forall e', end_ = Some e' -> e < e')) /\
    exists el, lidx (si_element si) e = Ok el /\ 0 <= k < ie_Count el /\ differs si el k.
Proof.
  intros si start end_ ms E e k. unfold dump_mismatches in E. rewrite (dump_elements_in si _ _ _ E e k). clear E.
  set (s := match start with Some s => s | None => 0 end). set (N := zlen (si_element si)).
  assert (H : s <= e < s + Z.of_nat (Z.to_nat ((match end_ with Some e0 => if e0 <? N then e0 else N | None => N end) - s)) <->
              s <= e < N /\ (forall e', end_ = Some e' -> e < e')).
  { destruct end_ as [x|].
    - destruct (Z.ltb_spec x N); split; [intros; split; [lia|intros e' [= <-]; lia]|intros (A & B); specialize (B x eq_refl); lia|intros; split; [lia|intros e' [= <-]; lia]|intros (A & B); specialize (B x eq_refl); lia].
    - split; [intros; split; [lia|discriminate]|intros (A & _); lia]. }
  rewrite H. reflexivity.
Qed.
(** The check is not blind (C51_ex): both reported positions, and one that is not. *)
Lemma pC51_reports_ex : let si := sub_index_of [mkRange 20 2 3; mkRange 10 3 0] [-5; 0; -7; -8; -9; -10] 22 in
  dump_mismatches si None None = Ok [(1, 0); (1, 2)] /\ differs si (elem_of (mkRange 10 3 0)) 2 /\ ~ differs si (elem_of (mkRange 20 2 3)) 1.
Proof.
  cbv zeta. split; [vm_compute; reflexivity|]. split.
  - do 4 eexists. split; [vm_compute; reflexivity|]. split; [vm_compute; reflexivity|]. vm_compute. discriminate.
  - intros (a & b & c & d & A & B & C). vm_compute in A. vm_compute in B. injection A as <-. injection B as <- <- <-. apply C. reflexivity.
Qed.
(** C51: the tool, asked for both, prints one "MISMATCH" line for each of those positions. *)
Definition is_mismatch (l : node_line) : bool := match l with Mismatch => true | _ => false end.
Lemma ids_mismatch o si el : nd_PrintLocations o = true -> nd_SearchIndex o = true -> forall n idx lines,
  node_dump_ids o si el n idx = Ok lines -> exists ms, dump_element si el n idx = Ok ms /\ List.length (filter is_mismatch lines) = List.length ms.
Proof.
  intros P S0. induction n as [|n IH]; intros idx lines E; cbn [node_dump_ids dump_element] in *.
  - injection E as <-. exists []. split; reflexivity.
  - unfold node_dump_id in E. rewrite P, S0 in E. cbn [andb] in E.
    destruct (lidx (si_locations si) (u64 (ie_Offset el + idx))) as [w| |] eqn:E1; cbn [bind] in E |- *; try discriminate.
    assert (A : exists l1, (if u64 w =? 0 then Ok (u64 w, [ExtractSkip]) else let '(lng, lat) := DecodeLocation (u64 w) in
        Ok (u64 w, [DuModel.Extract (u64 w) lng lat (FirstID el) idx (u64 (FirstID el + idx))])) = Ok (u64 w, l1) /\ filter is_mismatch l1 = []).
    { destruct (u64 w =? 0); [eexists; split; reflexivity|]. destruct (DecodeLocation (u64 w)) as [a b]. eexists. split; reflexivity. }
    destruct A as (l1 & A & F1). rewrite A in E. cbn [bind] in E. clear A.
    destruct (FindNode si (u64 (FirstID el + idx)) 0) as [[[l h] f]| |] eqn:E2; cbn [bind] in E |- *; try discriminate.
    assert (B : exists l2, (if negb f then Ok (u64 l, [SearchSkip]) else let '(lng, lat) := DecodeLocation (u64 l) in Ok (u64 l, [DuModel.Search (u64 l) lng lat])) = Ok (u64 l, l2) /\ filter is_mismatch l2 = []).
    { destruct (negb f); [eexists; split; reflexivity|]. destruct (DecodeLocation (u64 l)) as [a b]. eexists. split; reflexivity. }
    destruct B as (l2 & B & F2). rewrite B in E. cbn [bind] in E. clear B.
    destruct (node_dump_ids o si el n (idx + 1)) as [r| |] eqn:E3; cbn [bind] in E; try discriminate. injection E as <-.
    destruct (IH _ _ E3) as (ms & Em & Len). rewrite Em. cbn [bind]. eexists. split; [reflexivity|].
    rewrite !filter_app, F1, F2. cbn [app]. rewrite !app_length, Len. destruct (u64 w =? u64 l); reflexivity.
Qed.
Lemma pC51_lines : forall o si n cur lines, nd_PrintLocations o = true -> nd_SearchIndex o = true ->
  node_dump_elements o si n cur = Ok lines -> exists ms, dump_elements si n cur = Ok ms /\ List.length (filter is_mismatch lines) = List.length ms.
Proof.
  intros o si n cur lines P S0. revert cur lines. induction n as [|n IH]; intros cur lines E; cbn [node_dump_elements dump_elements] in *.
  - injection E as <-. exists []. split; reflexivity.
  - rewrite P, S0 in E. cbn [orb] in E. destruct (lidx (si_element si) cur) as [el| |] eqn:E1; cbn [bind] in E |- *; try discriminate.
    destruct (node_dump_ids o si el (Z.to_nat (ie_Count el)) 0) as [l| |] eqn:E2; cbn [bind] in E; try discriminate.
    destruct (node_dump_elements o si n (cur + 1)) as [r| |] eqn:E3; cbn [bind] in E; try discriminate. injection E as <-.
    destruct (ids_mismatch o si el P S0 _ _ _ E2) as (ms & Em & L1). destruct (IH _ _ E3) as (ms2 & Em2 & L2).
    rewrite Em. cbn [bind]. rewrite Em2. cbn [bind]. eexists. split; [reflexivity|]. rewrite filter_app, !app_length, map_length, L1, L2. reflexivity.
Qed.

(** ** C54 *)
(** the number that a list of decimal digits (as characters) stands for *)
Definition number (l : list Z) : Z := fold_left (fun a d => 10 * a + (d - 48)) l 0.
(** how a pass number is to be written: in decimal, to at least three places *)
Definition three_places (n : Z) (s : list Z) : Prop :=
  Forall (fun d => 48 <= d <= 57) s /\ number s = n /\ (3 <= List.length s)%nat /\ ((3 < List.length s)%nat -> nth_error s 0 <> Some 48).
Lemma decimal_digits : forall fuel n, 0 <= n < 10 ^ Z.of_nat fuel -> (0 < fuel)%nat ->
  Forall (fun d => 48 <= d <= 57) (decimal fuel n) /\ decimal fuel n <> [] /\ (n <> 0 -> nth_error (decimal fuel n) 0 <> Some 48).
Proof.
  induction fuel as [|fuel IH]; intros n H F; [lia|]. cbn [decimal]. destruct (Z.ltb_spec n 10) as [L|L].
  - split; [constructor; [lia|constructor]|]. split; [discriminate|]. cbn [nth_error]. intros N E. injection E as E. lia.
  - assert (B : 0 <= n / 10 < 10 ^ Z.of_nat fuel).
    { split; [apply Z.div_pos; lia|]. apply Z.div_lt_upper_bound; [lia|]. rewrite Nat2Z.inj_succ, Z.pow_succ_r in H by lia. lia. }
    assert (P : 1 <= n / 10) by (apply Z.div_le_lower_bound; lia).
    assert (F1 : (0 < fuel)%nat) by (destruct fuel; [change (10 ^ Z.of_nat 0) with 1 in B; lia|lia]). destruct (IH _ B F1) as (A1 & A2 & A3). split; [|split].
    + apply Forall_app. split; [exact A1|]. pose proof (Z.mod_pos_bound n 10 ltac:(lia)). constructor; [lia|constructor].
    + intros E. apply app_eq_nil in E. destruct E as (E & _). contradiction.
    + intros _. rewrite nth_error_app1; [apply A3; lia|]. destruct (decimal fuel (n / 10)); [contradiction|cbn; lia].
Qed.
Lemma fmt03d_places n : 0 <= n < 2^64 -> three_places n (fmt03d n).
Proof.
  intros H. unfold fmt03d. assert (B : 0 <= n < 10 ^ Z.of_nat 20) by (change (10 ^ Z.of_nat 20) with (10^20); lia).
  destruct (decimal_digits 20 n B ltac:(lia)) as (A1 & A2 & A3). unfold three_places. change number with dval. rewrite dval_pad, (dval_decimal 20 n B).
  set (s := decimal 20 n) in *. unfold pad3. rewrite app_length, repeat_length. split; [|split; [reflexivity|split; [lia|]]].
  - apply Forall_app. split; [|exact A1]. apply Forall_forall. intros x Hx. apply repeat_spec in Hx. subst x. lia.
  - intros L. replace (3 - List.length s)%nat with 0%nat by lia. cbn [repeat app]. apply A3. intros N0. assert (L1 : List.length s = 1%nat) by (unfold s; rewrite N0; reflexivity). rewrite L1 in L. lia.
Qed.
(** C54: the name of the file of a pass is the output's with the two numbers, each in decimal and to at least three
    places, so different passes never share a file. *)
Lemma pC54_names : forall fn pass count, 0 <= pass < 2^64 -> 0 <= count < 2^64 ->
  (exists a b, makePassFilename fn pass count = fn ++ bytes_of ".pass_" ++ a ++ bytes_of "_" ++ b /\ three_places pass a /\ three_places count b) /\
  forall pass' count', 0 <= pass' < 2^64 -> 0 <= count' < 2^64 -> makePassFilename fn pass count = makePassFilename fn pass' count' -> pass = pass' /\ count = count'.
Proof.
  intros fn p c Hp Hc. split.
  - exists (fmt03d p), (fmt03d c). split; [reflexivity|]. split; apply fmt03d_places; assumption.
  - intros p' c' Hp' Hc' E. unfold makePassFilename in E. apply app_inv_head in E. apply app_inv_head in E.
    destruct (fmt03d_places p Hp) as (D1 & V1 & _). destruct (fmt03d_places c Hc) as (_ & V2 & _).
    destruct (fmt03d_places p' Hp') as (D1' & V1' & _). destruct (fmt03d_places c' Hc') as (_ & V2' & _).
    change (bytes_of "_") with [95] in E. cbn [app] in E.
    assert (S : forall a b x y : list Z, Forall (fun d => 48 <= d <= 57) a -> Forall (fun d => 48 <= d <= 57) b -> a ++ 95 :: x = b ++ 95 :: y -> a = b /\ x = y).
    { clear. induction a as [|d a IH]; intros [|d' b] x y Ha Hb E; cbn [app] in E.
      - injection E as E. auto.
      - injection E as E1 _. pose proof (Forall_inv Hb). cbn beta in *. lia.
      - injection E as E1 _. pose proof (Forall_inv Ha). cbn beta in *. lia.
      - injection E as -> E. destruct (IH b x y (Forall_inv_tail Ha) (Forall_inv_tail Hb) E) as (-> & ->). auto. }
    destruct (S _ _ _ _ D1 D1' E) as (Ea & Eb). split; congruence.
Qed.
Lemma pC54_names_ex : makePassFilename (bytes_of "out") 7 1234 = bytes_of "out.pass_007_1234".
Proof. reflexivity. Qed.
