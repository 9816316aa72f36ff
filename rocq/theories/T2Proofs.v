(** * T2Proofs: readers on arbitrary bytes. *)
From Verif Require Import Base BaseLemmas PbModel PbSpec PbProofs PbProofs2 TModel TSpec TProofs TMsg TMsg2.

Lemma skipn_skipn_ {A} x y (l : list A) : skipn x (skipn y l) = skipn (x + y) l.
Proof.
  revert l. induction y as [|y IH]; intros l; [rewrite Nat.add_0_r; reflexivity|].
  rewrite Nat.add_succ_r. destruct l; [rewrite !skipn_nil; reflexivity|]. apply IH.
Qed.

(** ** What a successful decode looked at *)
Lemma DecodeVarInt_split b s v n :
  bytes (vis b) -> slen b < 2^63 -> DecodeVarInt b s = Ok (v, n) ->
  exists pre bs post, vis b = pre ++ bs ++ post /\ zlen pre = s /\ is_varint bs /\
    (List.length bs <= 10)%nat /\ v = leb_value bs /\ n = s + zlen bs.
Proof.
  intros Hb Hl H. destruct (Z.ltb_spec s 0) as [Hs|Hs].
  { rewrite DecodeVarInt_neg in H by lia. discriminate. }
  rewrite DecodeVarInt_scan in H by assumption.
  destruct (scan 9 (skipn (Z.to_nat s) (vis b))) as [bs| |] eqn:E; try discriminate.
  cbn [wrap_scan] in H. injection H as <- <-.
  apply scan_got in E; [|apply bytes_skipn; assumption].
  destruct E as (post & E1 & E2 & E3 & E4).
  assert (Hlen : (List.length (skipn (Z.to_nat s) (vis b)) = List.length bs + List.length post)%nat)
    by (rewrite E1, app_length; reflexivity).
  rewrite skipn_length in Hlen.
  exists (firstn (Z.to_nat s) (vis b)), bs, post. rewrite <- E1, firstn_skipn.
  split; [reflexivity|]. split; [unfold zlen; rewrite firstn_length; lia|].
  split; [assumption|]. split; [lia|]. split; [lia|reflexivity].
Qed.

Lemma go_slice_len b : go_slice b -> bytes (vis b) /\ slen b < 2^63.
Proof. intros (H1 & H2 & H3). split; [assumption|]. unfold scap in H3. lia. Qed.

Definition all (b : slice) : list Z := vis b ++ ext b.
Lemma all_len b : zlen (all b) = scap b.
Proof. unfold all. rewrite zlen_app. unfold scap. rewrite slen_zlen. reflexivity. Qed.

Lemma sslice_all b i j o :
  sslice b i j = Ok o ->
  all b = firstn (Z.to_nat i) (all b) ++ all o /\
  vis o = firstn (Z.to_nat (j - i)) (skipn (Z.to_nat i) (all b)) /\
  ext o = skipn (Z.to_nat j) (all b).
Proof.
  unfold sslice. destruct ((0 <=? i) && (i <=? j) && (j <=? scap b)) eqn:E; [|discriminate].
  intros H; injection H as <-. cbn [vis ext]. fold (all b).
  split; [|split; reflexivity].
  rewrite !andb_true_iff in E. unfold all at 3. cbn [vis ext]. fold (all b).
  replace (skipn (Z.to_nat j) (all b)) with (skipn (Z.to_nat (j - i)) (skipn (Z.to_nat i) (all b))).
  - rewrite firstn_skipn, firstn_skipn. reflexivity.
  - rewrite skipn_skipn_. f_equal. lia.
Qed.

Lemma bytes_all b : go_slice b -> bytes (all b).
Proof. intros (H1 & H2 & _). apply bytes_app; auto. Qed.

Lemma DecodeBytes_ok b s o n :
  go_slice b -> DecodeBytes b s = Ok (o, n) ->
  0 <= s /\ s + 1 <= n /\ n <= scap b /\ go_slice o /\
  (exists pre, all b = pre ++ all o) /\ (ext b = [] -> n <= slen b).
Proof.
  intros G H. destruct (go_slice_len b G) as [Hb Hl]. unfold DecodeBytes, ReadBytes in H.
  destruct (DecodeVarInt b s) as [[l n1]|p|] eqn:E; cbn [bind] in H; try discriminate.
  apply DecodeVarInt_ok in E; [|assumption..]. destruct E as (E1 & E2 & E3 & E4).
  destruct (sslice b n1 (s64 (n1 + s64 l))) as [o1|p|] eqn:Es; cbn [bind] in H; try discriminate.
  injection H as <- <-. pose proof (sslice_ok _ _ _ _ Es) as (S1 & S2 & S3).
  pose proof (sslice_all _ _ _ _ Es) as (A1 & A2 & A3).
  split; [lia|]. split; [lia|]. split; [lia|].
  assert (Ha : bytes (all o1)) by (pose proof (bytes_all b G) as B; rewrite A1 in B; apply bytes_app in B; tauto).
  split.
  { apply bytes_app in Ha. destruct Ha. split; [assumption|]. split; [assumption|].
    rewrite <- all_len. destruct G as (_ & _ & G). rewrite <- all_len in G. rewrite A1, zlen_app in G.
    pose proof (zlen_nonneg (firstn (Z.to_nat n1) (all b))). lia. }
  split; [eexists; exact A1|].
  intros E. unfold scap in S2. rewrite E in S2. cbn [List.length] in S2. lia.
Qed.

(** ** Termination *)
Definition adv {St} (P : list Z -> Prop) (h : handler St) : Prop :=
  forall id b n, go_slice b -> P (all b) -> 0 <= n -> n <= slen b ->
    h id b n <> Diverge /\ forall n' u, h id b n = Ok (n', u) -> n <= n' \/ n' < 0.

Lemma read_msg_nodiv {St} P (h : handler St) b st :
  adv P h -> go_slice b -> P (all b) -> read_msg h b st <> Diverge.
Proof.
  intros A G HP. destruct (go_slice_len b G) as [Hb Hl]. unfold read_msg, read_fuel.
  assert (H : loop (S (List.length (vis b))) (msg_cond b) (msg_body h b) (0, st) <> Diverge).
  { apply loop_total with (mu := fun s =>
      if fst s <? 0 then O else Z.to_nat (slen b - fst s)).
    - intros [n s] Hc. unfold msg_body.
      pose proof (DecodeVarInt_nodiv b n).
      destruct (DecodeVarInt b n) as [[v n']|p|] eqn:E; cbn [bind]; try discriminate; try contradiction.
      apply DecodeVarInt_ok in E; [|assumption..].
      destruct (A v b n' G HP) as [A1 A2]; [lia|lia|].
      destruct (h v b n') as [[? ?]|?|]; cbn [bind]; try discriminate. contradiction.
    - intros [n s] [n2 s2] Hc. unfold msg_body, msg_cond in *. cbn [fst] in *.
      destruct (DecodeVarInt b n) as [[v n']|p|] eqn:E; cbn [bind]; try discriminate.
      apply DecodeVarInt_ok in E; [|assumption..].
      destruct (A v b n' G HP) as [A1 A2]; [lia|lia|].
      destruct (h v b n') as [[n3 u]|?|]; cbn [bind]; try discriminate.
      intros H; injection H as <- <-. specialize (A2 n3 u eq_refl).
      unfold slen in *.
      destruct (Z.ltb_spec n 0), (Z.ltb_spec n3 0); lia.
    - cbn [fst]. change (0 <? 0) with false. cbv iota. unfold slen. lia. }
  destruct (loop _ _ _ _) as [[? ?]|p|]; cbn [bind]; congruence || discriminate.
Qed.

(** field decoders *)
Definition fadv {A} (f : slice -> Z -> res (A * Z)) : Prop :=
  forall b n, go_slice b -> 0 <= n ->
    f b n <> Diverge /\ forall a n', f b n = Ok (a, n') -> n <= n'.

Lemma fadv_varint {A} (c : Z -> A) : fadv (fun b n => '(v, n) <- DecodeVarInt b n ;; Ok (c v, n)).
Proof.
  intros b n G Hn. destruct (go_slice_len b G) as [Hb Hl].
  pose proof (DecodeVarInt_nodiv b n).
  destruct (DecodeVarInt b n) as [[v n']|p|] eqn:E; cbn [bind]; try contradiction;
    (split; [discriminate|]); intros a n2 H2; [|discriminate].
  injection H2 as <- <-. apply DecodeVarInt_ok in E; [|assumption..]. lia.
Qed.
Lemma fadv_bytes : fadv DecodeBytes.
Proof.
  intros b n G Hn. destruct (go_slice_len b G) as [Hb Hl]. split.
  - unfold DecodeBytes, ReadBytes. pose proof (DecodeVarInt_nodiv b n).
    destruct (DecodeVarInt b n) as [[v n']|p|]; cbn [bind]; try contradiction; try discriminate.
    unfold sslice. destruct (_ && _ && _); discriminate.
  - intros a n' H. apply DecodeBytes_ok in H; [lia|assumption].
Qed.
Lemma fadv_packed checked f : fadv (decode_packed checked f).
Proof.
  intros b n G Hn. unfold decode_packed.
  destruct (fadv_bytes b n G Hn) as [B1 B2].
  destruct (DecodeBytes b n) as [[i n']|p|] eqn:E; cbn [bind]; try contradiction.
  - specialize (B2 _ _ eq_refl). apply DecodeBytes_ok in E; [|assumption].
    destruct E as (_ & _ & _ & Gi & _). destruct (go_slice_len i Gi).
    pose proof (packed_loop_nodiv checked f i ltac:(assumption) ltac:(assumption)).
    destruct (packed_loop checked f i); cbn [bind]; try contradiction;
      (split; [discriminate|]); intros a' n2 H2; [|discriminate].
    injection H2 as <- <-. lia.
  - split; [discriminate|]. discriminate.
Qed.
Lemma fadv_string : fadv DecodeString.
Proof.
  intros b n G Hn. unfold DecodeString. destruct (fadv_bytes b n G Hn) as [B1 B2].
  destruct (DecodeBytes b n) as [[i n']|p|] eqn:E; cbn [bind]; try contradiction.
  - split; [discriminate|]. intros a n2 H2; injection H2 as <- <-. eapply B2; reflexivity.
  - split; [discriminate|]. discriminate.
Qed.
Lemma fadv_I64 : fadv DecodeI64. Proof. apply fadv_varint. Qed.
Lemma fadv_I32 : fadv DecodeI32. Proof. apply fadv_varint. Qed.
Lemma fadv_U32P : fadv DecodeU32Packed. Proof. apply fadv_packed. Qed.
Lemma fadv_I32P : fadv DecodeI32Packed. Proof. apply fadv_packed. Qed.
Lemma fadv_U64P : fadv DecodeU64Packed. Proof. apply fadv_packed. Qed.
Lemma fadv_S64D : fadv DecodeS64PackedDelta. Proof. apply fadv_packed. Qed.

Lemma SkipBytes_adv b n :
  go_slice b -> no_huge (all b) -> 0 <= n ->
  SkipBytes b n <> Diverge /\ forall n', SkipBytes b n = Ok n' -> n <= n' \/ n' < 0.
Proof.
  intros G Hh Hn. destruct (go_slice_len b G) as [Hb Hl]. unfold SkipBytes.
  pose proof (DecodeVarInt_nodiv b n).
  destruct (DecodeVarInt b n) as [[v n1]|p|] eqn:E; cbn [bind]; try contradiction;
    (split; [discriminate|]); intros n2 H2; [|discriminate]. injection H2 as <-.
  pose proof E as E'.
  apply DecodeVarInt_ok in E'; [|assumption..]. destruct E' as (E1 & E2 & E3 & E4).
  apply DecodeVarInt_split in E; [|assumption..].
  destruct E as (pre & bs & post & F1 & F2 & F3 & F4 & -> & F5).
  assert (leb_value bs < 2^63).
  { apply (Hh pre bs (post ++ ext b)); [|assumption..]. unfold all. rewrite F1, <- !app_assoc. reflexivity. }
  pose proof (leb_value_nonneg bs). rewrite (s64_id (leb_value bs)) by (unfold is_s64; lia).
  destruct (Z.ltb_spec (n1 + leb_value bs) (2^63)) as [Hs|Hs].
  - rewrite s64_id by (unfold is_s64; lia). lia.
  - right. unfold s64.
    replace ((n1 + leb_value bs + 2^63) mod 2^64) with (n1 + leb_value bs + 2^63 - 2^64); [lia|].
    apply Z.mod_unique with (q := 1); lia.
Qed.

Lemma no_huge_suffix pre l : no_huge (pre ++ l) -> no_huge l.
Proof.
  intros H p bs post E Hv Hl. apply (H (pre ++ p) bs post); [|assumption..].
  rewrite E, <- app_assoc. reflexivity.
Qed.

(** the cases of a handler *)
Ltac adv_plain lem :=
  match goal with
  | G : go_slice ?b, Hn : 0 <= ?n |- bind (?f ?b ?n) _ <> Diverge /\ _ =>
      let A1 := fresh in let A2 := fresh in
      destruct (lem b n G Hn) as [A1 A2];
      destruct (f b n) as [[? ?]|?|]; cbn [bind]; try contradiction;
      (split; [discriminate|]); intros ? ? HH; [|discriminate];
      injection HH as <- <-; left; eapply A2; reflexivity
  end.
Ltac adv_panic := split; [discriminate|discriminate].
Ltac adv_case :=
  match goal with
  | |- Panic _ <> Diverge /\ _ => adv_panic
  | |- bind (DecodeI64 _ _) _ <> Diverge /\ _ => adv_plain fadv_I64
  | |- bind (DecodeI32 _ _) _ <> Diverge /\ _ => adv_plain fadv_I32
  | |- bind (DecodeString _ _) _ <> Diverge /\ _ => adv_plain fadv_string
  | |- bind (DecodeU32Packed _ _) _ <> Diverge /\ _ => adv_plain fadv_U32P
  | |- bind (DecodeI32Packed _ _) _ <> Diverge /\ _ => adv_plain fadv_I32P
  | |- bind (DecodeU64Packed _ _) _ <> Diverge /\ _ => adv_plain fadv_U64P
  | |- bind (DecodeS64PackedDelta _ _) _ <> Diverge /\ _ =>
      adv_plain fadv_S64D
  | |- bind (SkipBytes _ _) _ <> Diverge /\ _ =>
      match goal with
      | G : go_slice ?b, Hn : 0 <= ?n, Hh : no_huge (all ?b) |- bind (SkipBytes ?b ?n) _ <> Diverge /\ _ =>
        let A1 := fresh in let A2 := fresh in
        destruct (SkipBytes_adv b n G Hh Hn) as [A1 A2];
        destruct (SkipBytes b n) as [?|?|]; cbn [bind]; try contradiction;
        (split; [discriminate|]); intros ? ? HH; [|discriminate];
        injection HH as <- <-; apply A2; reflexivity
      end
  | |- (if ?c then _ else _) <> Diverge /\ _ => destruct c
  end.
(** raw bytes, possibly followed by a nested read *)
Ltac adv_bytes tac :=
  match goal with
  | G : go_slice ?b, Hn : 0 <= ?n |- bind (DecodeBytes ?b ?n) _ <> Diverge /\ _ =>
      let A1 := fresh in let A2 := fresh in let E := fresh "E" in
      let i := fresh "i" in
      destruct (fadv_bytes b n G Hn) as [A1 A2];
      destruct (DecodeBytes b n) as [[i ?]|?|] eqn:E; cbn [bind]; try contradiction;
      [specialize (A2 _ _ eq_refl);
       apply DecodeBytes_ok in E; [|assumption];
       destruct E as (_ & _ & _ & ? & (? & ?) & _); tac i
      |split; [discriminate|discriminate]]
  end.
Ltac adv_done :=
  split; [discriminate|]; intros ? ? HH; injection HH as <- <-; left; assumption.

Lemma way_adv : adv no_huge way_handler.
Proof. intros id b n G P Hn Hs. unfold way_handler. repeat adv_case. Qed.
Lemma relation_adv : adv no_huge relation_handler.
Proof. intros id b n G P Hn Hs. unfold relation_handler. repeat adv_case. Qed.
Lemma dense_adv : adv no_huge dense_handler.
Proof. intros id b n G P Hn Hs. unfold dense_handler. repeat adv_case. Qed.
Lemma st_adv : adv (fun _ => True) st_handler.
Proof. intros id b n G P Hn Hs. unfold st_handler. repeat adv_case. Qed.
Lemma bh_adv : adv (fun _ => True) bh_handler.
Proof. intros id b n G P Hn Hs. unfold bh_handler. repeat adv_case. Qed.
Lemma blob_adv : adv (fun _ => True) blob_handler.
Proof.
  intros id b n G P Hn Hs. unfold blob_handler.
  repeat (adv_case || adv_bytes ltac:(fun i => adv_done)).
Qed.
Lemma ReadWay_nodiv b w : go_slice b -> no_huge (all b) -> ReadWay b w <> Diverge.
Proof. apply read_msg_nodiv, way_adv. Qed.
Lemma ReadRelation_nodiv b w : go_slice b -> no_huge (all b) -> ReadRelation b w <> Diverge.
Proof. apply read_msg_nodiv, relation_adv. Qed.
Lemma ReadDenseNodes_nodiv b w : go_slice b -> no_huge (all b) -> ReadDenseNodes b w <> Diverge.
Proof. apply read_msg_nodiv, dense_adv. Qed.
Lemma ReadStringTable_nodiv b w : go_slice b -> ReadStringTable b w <> Diverge.
Proof. intros G. apply (read_msg_nodiv (fun _ => True)); [apply st_adv|exact G|exact I]. Qed.
Ltac adv_nested lem :=
  let N := fresh in
  pose proof lem as N;
  match type of N with ?x <> Diverge => destruct x; cbn [bind]; try contradiction end;
  [adv_done|split; [discriminate|discriminate]].
Lemma group_adv pbr : adv no_huge (group_handler pbr).
Proof.
  intros id b n G P Hn Hs. unfold group_handler.
  repeat adv_case.
  all: adv_bytes ltac:(fun i => idtac).
  all: try adv_done.
  all: match goal with H : all _ = _ ++ all ?i |- _ =>
         assert (no_huge (all i)) by (rewrite H in P; eapply no_huge_suffix; exact P) end.
  - adv_nested (ReadDenseNodes_nodiv i DenseNodes0 ltac:(assumption) ltac:(assumption)).
  - adv_nested (ReadWay_nodiv i Way0 ltac:(assumption) ltac:(assumption)).
  - adv_nested (ReadRelation_nodiv i Relation0 ltac:(assumption) ltac:(assumption)).
Qed.
Lemma ReadPrimitiveGroup_nodiv pbr b w : go_slice b -> no_huge (all b) -> ReadPrimitiveGroup pbr b w <> Diverge.
Proof. apply read_msg_nodiv, group_adv. Qed.
Lemma block_adv pbr : adv no_huge (block_handler pbr).
Proof.
  intros id b n G P Hn Hs. unfold block_handler.
  repeat adv_case.
  all: adv_bytes ltac:(fun i => idtac).
  all: try adv_done.
  all: match goal with H : all _ = _ ++ all ?i |- _ =>
         assert (no_huge (all i)) by (rewrite H in P; eapply no_huge_suffix; exact P) end.
  - adv_nested (ReadStringTable_nodiv i [] ltac:(assumption)).
  - adv_nested (ReadPrimitiveGroup_nodiv pbr i PrimitiveGroup0 ltac:(assumption) ltac:(assumption)).
Qed.

(** ** Adequacy of the fuel *)
Definition step {St} (h : handler St) (b : slice) (n : Z) : res (Z * (St -> St)) :=
  '(id, n) <- DecodeVarInt b n ;; h id b n.
Definition cl {St} (h : handler St) (b : slice) (m : nat) (n : Z) : res Z :=
  loop m (fun n => n <? slen b) (fun n => '(n', _) <- step h b n ;; Ok n') n.

Lemma cl_loop {St} (h : handler St) b m n st :
  cl h b m n = Diverge <-> loop m (msg_cond b) (msg_body h b) (n, st) = Diverge.
Proof.
  unfold cl. revert n st. induction m as [|m IH]; intros n st; cbn [loop];
    unfold msg_cond at 1; cbn [fst]; destruct (n <? slen b); try (split; congruence).
  unfold msg_body at 1, step at 1.
  destruct (DecodeVarInt b n) as [[id n1]|p|]; cbn [bind]; try (split; congruence).
  destruct (h id b n1) as [[n2 u]|p|]; cbn [bind]; try (split; congruence).
  apply IH.
Qed.

Definition least {St} (h : handler St) b (m : nat) (n : Z) : Prop :=
  cl h b m n <> Diverge /\ forall m', (m' < m)%nat -> cl h b m' n = Diverge.
Lemma least_unique {St} (h : handler St) b m m' n : least h b m n -> least h b m' n -> m = m'.
Proof.
  intros [A1 A2] [B1 B2]. destruct (Nat.lt_trichotomy m m') as [H|[H|H]]; [|assumption|].
  - exfalso. apply A1, B2, H.
  - exfalso. apply B1, A2, H.
Qed.
Lemma least_step {St} (h : handler St) b m n :
  least h b (S (S m)) n -> exists n' u, n < slen b /\ step h b n = Ok (n', u) /\ least h b (S m) n'.
Proof.
  intros [A1 A2]. pose proof (A2 1%nat ltac:(lia)) as A3. unfold cl in A3. cbn [loop] in A3.
  destruct (Z.ltb_spec n (slen b)) as [Hn|Hn]; [|discriminate].
  assert (Es : exists x, step h b n = Ok x).
  { unfold cl in A1. cbn [loop] in A1. destruct (Z.ltb_spec n (slen b)); [|lia].
    destruct (step h b n) as [x|p|]; cbn [bind] in *; [eauto|discriminate|congruence]. }
  destruct Es as [[n' u] Es]. exists n', u. split; [exact Hn|]. split; [exact Es|].
  assert (Eq : forall k, cl h b (S k) n = cl h b k n').
  { intros k. unfold cl. cbn [loop]. destruct (Z.ltb_spec n (slen b)); [|lia].
    rewrite Es. reflexivity. }
  split.
  - rewrite <- Eq. exact A1.
  - intros k Hk. rewrite <- Eq. apply A2. lia.
Qed.
Lemma least_trace {St} (h : handler St) b : bytes (vis b) -> slen b < 2^63 -> forall m n,
  least h b (S m) n ->
  exists l, List.length l = m /\ NoDup l /\
    forall x, In x l -> 0 <= x < slen b /\ exists k, (k <= S m)%nat /\ least h b k x.
Proof.
  intros Hb Hl. induction m as [|m IH]; intros n H.
  - exists []. split; [reflexivity|]. split; [constructor|]. intros x [].
  - destruct (least_step h b m n H) as (n' & u & Hn & Es & H').
    destruct (IH n' H') as (l & L1 & L2 & L3).
    exists (n :: l). split; [simpl; lia|]. split.
    + constructor; [|assumption]. intros Hin. destruct (L3 n Hin) as (_ & k & Hk & Hlk).
      pose proof (least_unique h b _ _ n H Hlk). lia.
    + intros x [<-|Hx].
      * split; [|exists (S (S m)); split; [lia|exact H]].
        unfold step in Es. destruct (DecodeVarInt b n) as [[id n1]|p|] eqn:E; cbn [bind] in Es; try discriminate.
        apply DecodeVarInt_ok in E; [lia|assumption..].
      * destruct (L3 x Hx) as (R & k & Hk & Hlk). split; [exact R|]. exists k. split; [lia|exact Hlk].
Qed.
Lemma least_ex {St} (h : handler St) b m n :
  cl h b m n <> Diverge -> exists k, (k <= m)%nat /\ least h b k n.
Proof.
  induction m as [|m IH]; intros H.
  - exists O. split; [lia|]. split; [assumption|]. lia.
  - destruct (cl h b m n) as [x|p|] eqn:E.
    + destruct IH as (k & Hk & Hl); [discriminate|]. exists k. split; [lia|assumption].
    + destruct IH as (k & Hk & Hl); [discriminate|]. exists k. split; [lia|assumption].
    + exists (S m). split; [lia|]. split; [assumption|].
      intros m' Hm'. destruct (cl h b m' n) as [x|p|] eqn:E'; [| |reflexivity]; exfalso.
      * assert (cl h b m n = Ok x) by (unfold cl; eapply loop_more; [exact E'|discriminate|lia]). congruence.
      * assert (cl h b m n = Panic p) by (unfold cl; eapply loop_more; [exact E'|discriminate|lia]). congruence.
Qed.

Lemma cl_adequate {St} (h : handler St) b n :
  bytes (vis b) -> slen b < 2^63 ->
  cl h b (S (List.length (vis b))) n = Diverge -> forall m, cl h b m n = Diverge.
Proof.
  intros Hb Hl H m. destruct (cl h b m n) eqn:E; [exfalso|exfalso|reflexivity].
  all: assert (Hne : cl h b m n <> Diverge) by congruence.
  all: destruct (least_ex h b m n Hne) as (k & Hk & Hlk).
  all: assert (Hks : (k <= S (List.length (vis b)))%nat).
  1,3: destruct k as [|k]; [lia|];
    destruct (least_trace h b Hb Hl k n Hlk) as (l & L1 & L2 & L3);
    assert (Hle : (List.length l <= List.length (map Z.of_nat (seq 0 (List.length (vis b)))))%nat);
    [apply NoDup_incl_length; [assumption|]; intros x Hx; destruct (L3 x Hx) as [R _];
     apply in_map_iff; exists (Z.to_nat x); split; [lia|]; apply in_seq; unfold slen in R; lia
    |rewrite map_length, seq_length in Hle; lia].
  all: destruct Hlk as [H1 _]; apply H1;
    destruct (cl h b k n) eqn:E2; [exfalso|exfalso|reflexivity];
    assert (cl h b (S (List.length (vis b))) n <> Diverge)
     by (unfold cl in *; erewrite loop_more; [|exact E2|discriminate|exact Hks]; discriminate);
    contradiction.
Qed.

Lemma read_msg_adequate {St} (h : handler St) b st :
  bytes (vis b) -> slen b < 2^63 ->
  read_msg h b st = Diverge -> forall fuel, read_fuel fuel h b st = Diverge.
Proof.
  intros Hb Hl H fuel. unfold read_msg, read_fuel in *.
  assert (H1 : loop (S (List.length (vis b))) (msg_cond b) (msg_body h b) (0, st) = Diverge).
  { destruct (loop _ _ _ _) as [[? ?]|?|]; cbn [bind] in H; congruence. }
  apply cl_loop in H1. pose proof (cl_adequate h b 0 Hb Hl H1 fuel) as H2.
  apply (cl_loop h b fuel 0 st) in H2. rewrite H2. reflexivity.
Qed.

(** ** Independence of the bytes beyond the buffer *)
Definition sle (b b' : slice) : Prop := vis b' = vis b /\ exists y, ext b' = ext b ++ y.

Lemma DecodeVarInt_sle b b' n : sle b b' -> DecodeVarInt b' n = DecodeVarInt b n.
Proof. destruct b as [v e], b' as [v' e']. intros [H _]. cbn in H. subst. reflexivity. Qed.
Lemma sle_slen b b' : sle b b' -> slen b' = slen b.
Proof. intros [H _]. unfold slen. rewrite H. reflexivity. Qed.

Lemma sslice_sle b b' i j o :
  sle b b' -> sslice b i j = Ok o -> exists o', sslice b' i j = Ok o' /\ sle o o'.
Proof.
  intros [H1 [y H2]] H. unfold sslice in *.
  destruct ((0 <=? i) && (i <=? j) && (j <=? scap b)) eqn:E; [|discriminate].
  injection H as <-. rewrite !andb_true_iff in E.
  assert (Ec : scap b <= scap b').
  { unfold scap, slen. rewrite H1, H2, app_length. lia. }
  destruct ((0 <=? i) && (i <=? j) && (j <=? scap b')) eqn:E'; [|lia].
  eexists. split; [reflexivity|]. unfold sle. cbn [vis ext]. rewrite H1, H2.
  rewrite (app_assoc (vis b)). set (l := vis b ++ ext b).
  assert (Hl : Z.of_nat (List.length l) = scap b) by (unfold l, scap, slen; rewrite app_length; lia).
  split.
  - rewrite (skipn_app (Z.to_nat i) l y), firstn_app.
    replace (Z.to_nat (j - i) - List.length (skipn (Z.to_nat i) l))%nat with O
      by (rewrite skipn_length; lia).
    rewrite firstn_O, app_nil_r. reflexivity.
  - exists y. rewrite skipn_app. f_equal.
    replace (Z.to_nat j - List.length l)%nat with O by lia. reflexivity.
Qed.
Lemma DecodeBytes_sle b b' n o n' :
  sle b b' -> DecodeBytes b n = Ok (o, n') -> exists o', DecodeBytes b' n = Ok (o', n') /\ sle o o'.
Proof.
  intros Hs H. unfold DecodeBytes, ReadBytes in *. rewrite (DecodeVarInt_sle b b') by assumption.
  destruct (DecodeVarInt b n) as [[l n1]|p|]; cbn [bind] in *; try discriminate.
  destruct (sslice b n1 (s64 (n1 + s64 l))) as [o1|p|] eqn:Es; cbn [bind] in *; try discriminate.
  injection H as <- <-. destruct (sslice_sle _ _ _ _ _ Hs Es) as (o' & E' & Ho).
  exists o'. rewrite E'. cbn [bind]. auto.
Qed.
Lemma packed_loop_sle checked f b b' : sle b b' -> packed_loop checked f b' = packed_loop checked f b.
Proof. destruct b as [v e], b' as [v' e']. intros [H _]. cbn in H. subst. reflexivity. Qed.

Definition mono {St} (R : St -> St -> Prop) (h : handler St) : Prop :=
  forall id b b' n n' u, sle b b' -> h id b n = Ok (n', u) ->
    exists u', h id b' n = Ok (n', u') /\ forall s s', R s s' -> R (u s) (u' s').

Lemma loop_mono {St} R (h : handler St) b b' m n s s' n2 s2 :
  mono R h -> sle b b' -> R s s' ->
  loop m (msg_cond b) (msg_body h b) (n, s) = Ok (n2, s2) ->
  exists s2', loop m (msg_cond b') (msg_body h b') (n, s') = Ok (n2, s2') /\ R s2 s2'.
Proof.
  intros Hm Hs. revert n s s'. induction m as [|m IH]; intros n s s' HR; cbn [loop];
    change (msg_cond b (n, s)) with (n <? slen b); change (msg_cond b' (n, s')) with (n <? slen b');
    rewrite (sle_slen b b' Hs); destruct (n <? slen b); try discriminate.
  1,3: intros H; injection H as <- <-; eauto.
  change (msg_body h b (n, s)) with
    ('(id, n1) <- DecodeVarInt b n ;; '(n1, u) <- h id b n1 ;; Ok (n1, u s)).
  change (msg_body h b' (n, s')) with
    ('(id, n1) <- DecodeVarInt b' n ;; '(n1, u) <- h id b' n1 ;; Ok (n1, u s')).
  rewrite (DecodeVarInt_sle b b' n Hs).
  destruct (DecodeVarInt b n) as [[id n1]|p|]; cbn [bind]; try discriminate.
  destruct (h id b n1) as [[n3 u]|p|] eqn:Eh; cbn [bind]; try discriminate.
  destruct (Hm _ _ _ _ _ _ Hs Eh) as (u' & E' & Hu). rewrite E'. cbn [bind].
  apply IH. apply Hu, HR.
Qed.
Lemma read_msg_mono {St} R (h : handler St) b b' s s' r :
  mono R h -> sle b b' -> R s s' -> read_msg h b s = Ok r ->
  exists r', read_msg h b' s' = Ok r' /\ R r r'.
Proof.
  intros Hm Hs HR H. unfold read_msg, read_fuel in *.
  destruct (loop _ (msg_cond b) _ _) as [[n2 s2]|p|] eqn:E; cbn [bind] in H; try discriminate.
  injection H as ->. destruct (loop_mono R h b b' _ _ _ s' _ _ Hm Hs HR E) as (r' & E' & Hr).
  exists r'. destruct Hs as [Hv _]. rewrite Hv, E'. auto.
Qed.

Lemma decode_packed_sle checked f b b' n r :
  sle b b' -> decode_packed checked f b n = Ok r -> decode_packed checked f b' n = Ok r.
Proof.
  intros Hs. unfold decode_packed.
  destruct (DecodeBytes b n) as [[i n']|p|] eqn:E; cbn [bind]; try discriminate.
  destruct (DecodeBytes_sle _ _ _ _ _ Hs E) as (o' & E' & Ho). rewrite E'. cbn [bind].
  rewrite (packed_loop_sle checked f i o' Ho). auto.
Qed.
Lemma DecodeString_sle b b' n r :
  sle b b' -> DecodeString b n = Ok r -> DecodeString b' n = Ok r.
Proof.
  intros Hs. unfold DecodeString.
  destruct (DecodeBytes b n) as [[i n']|p|] eqn:E; cbn [bind]; try discriminate.
  destruct (DecodeBytes_sle _ _ _ _ _ Hs E) as (o' & E' & [Ho _]). rewrite E'. cbn [bind].
  rewrite Ho. auto.
Qed.

Ltac mono_plain E lem :=
  match type of E with
  | bind (?f ?b ?n) _ = Ok _ =>
      let E1 := fresh in
      destruct (f b n) as [[? ?]|?|] eqn:E1; cbn [bind] in E; try discriminate;
      injection E as <- <-;
      erewrite lem; [|eassumption|exact E1]; cbn [bind];
      eexists; (split; [reflexivity|]); intros ? ? HH; rewrite HH; reflexivity
  end.
Lemma I64_sle b b' n r : sle b b' -> DecodeI64 b n = Ok r -> DecodeI64 b' n = Ok r.
Proof. intros Hs. unfold DecodeI64. rewrite (DecodeVarInt_sle b b' n Hs). auto. Qed.
Lemma I32_sle b b' n r : sle b b' -> DecodeI32 b n = Ok r -> DecodeI32 b' n = Ok r.
Proof. intros Hs. unfold DecodeI32. rewrite (DecodeVarInt_sle b b' n Hs). auto. Qed.
Lemma U32P_sle b b' n r : sle b b' -> DecodeU32Packed b n = Ok r -> DecodeU32Packed b' n = Ok r.
Proof. apply decode_packed_sle. Qed.
Lemma I32P_sle b b' n r : sle b b' -> DecodeI32Packed b n = Ok r -> DecodeI32Packed b' n = Ok r.
Proof. apply decode_packed_sle. Qed.
Lemma U64P_sle b b' n r : sle b b' -> DecodeU64Packed b n = Ok r -> DecodeU64Packed b' n = Ok r.
Proof. apply decode_packed_sle. Qed.
Lemma S64D_sle b b' n r : sle b b' -> DecodeS64PackedDelta b n = Ok r -> DecodeS64PackedDelta b' n = Ok r.
Proof. apply decode_packed_sle. Qed.
Ltac mono_case :=
  match goal with
  | E : Panic _ = Ok _ |- _ => discriminate E
  | E : bind (DecodeI64 _ _) _ = Ok _ |- _ => mono_plain E I64_sle
  | E : bind (DecodeI32 _ _) _ = Ok _ |- _ => mono_plain E I32_sle
  | E : bind (DecodeString _ _) _ = Ok _ |- _ => mono_plain E DecodeString_sle
  | E : bind (DecodeU32Packed _ _) _ = Ok _ |- _ => mono_plain E U32P_sle
  | E : bind (DecodeI32Packed _ _) _ = Ok _ |- _ => mono_plain E I32P_sle
  | E : bind (DecodeU64Packed _ _) _ = Ok _ |- _ => mono_plain E U64P_sle
  | E : bind (DecodeS64PackedDelta _ _) _ = Ok _ |- _ => mono_plain E S64D_sle
  | Hs : sle ?b ?b', E : bind (SkipBytes ?b ?n) _ = Ok _ |- _ =>
      unfold SkipBytes in *; rewrite (DecodeVarInt_sle b b' n Hs);
      destruct (DecodeVarInt b n) as [[? ?]|?|]; cbn [bind] in *; try discriminate;
      injection E as <- <-; eexists; (split; [reflexivity|]); auto
  | E : (if ?c then _ else _) = Ok _ |- _ => destruct c
  end.
Ltac mono_bytes :=
  match goal with
  | Hs : sle ?b ?b', E : bind (DecodeBytes ?b ?n) _ = Ok _ |- _ =>
      let E1 := fresh "EB" in let E2 := fresh "EB'" in let Ho := fresh "Ho" in
      let o' := fresh "o" in
      destruct (DecodeBytes b n) as [[? ?]|?|] eqn:E1; cbn [bind] in E; try discriminate;
      destruct (DecodeBytes_sle _ _ _ _ _ Hs E1) as (o' & E2 & Ho);
      rewrite E2; cbn [bind]
  end.
Ltac mono_raw :=
  match goal with E : Ok _ = Ok _, Ho : sle _ _ |- _ =>
    injection E as <- <-; rewrite (proj1 Ho); eexists; (split; [reflexivity|]);
    intros ? ? HH; rewrite HH; reflexivity end.
Ltac mono_nested lem :=
  match goal with
  | E : bind (?rd ?i ?s0) _ = Ok _, Ho : sle ?i ?o |- _ =>
      let E1 := fresh in let E2 := fresh in
      destruct (rd i s0) eqn:E1; cbn [bind] in E; try discriminate;
      injection E as <- <-;
      destruct (read_msg_mono eq _ _ _ s0 s0 _ lem Ho eq_refl E1) as (? & E2 & <-);
      match type of E2 with ?x = _ => change (rd o s0) with x end;
      rewrite E2; cbn [bind]; eexists; (split; [reflexivity|]);
      intros ? ? HH; rewrite HH; reflexivity
  end.

Lemma way_mono : mono eq way_handler.
Proof. intros id b b' n n' u Hs E. unfold way_handler in *. repeat mono_case. Qed.
Lemma relation_mono : mono eq relation_handler.
Proof. intros id b b' n n' u Hs E. unfold relation_handler in *. repeat mono_case. Qed.
Lemma dense_mono : mono eq dense_handler.
Proof. intros id b b' n n' u Hs E. unfold dense_handler in *. repeat mono_case. Qed.
Lemma st_mono : mono eq st_handler.
Proof. intros id b b' n n' u Hs E. unfold st_handler in *. repeat mono_case. Qed.
Lemma bh_mono : mono eq bh_handler.
Proof. intros id b b' n n' u Hs E. unfold bh_handler in *. repeat mono_case. Qed.
Lemma group_mono pbr : mono eq (group_handler pbr).
Proof.
  intros id b b' n n' u Hs E. unfold group_handler in *. repeat mono_case.
  all: mono_bytes.
  all: try mono_raw.
  - mono_nested dense_mono.
  - mono_nested way_mono.
  - mono_nested relation_mono.
Qed.
Lemma block_mono pbr : mono eq (block_handler pbr).
Proof.
  intros id b b' n n' u Hs E. unfold block_handler in *. repeat mono_case.
  all: mono_bytes.
  all: try mono_raw.
  - mono_nested st_mono.
  - match goal with
    | E : bind (ReadPrimitiveGroup pbr ?i ?s0) _ = Ok _, Ho : sle ?i ?o |- _ =>
      destruct (ReadPrimitiveGroup pbr i s0) eqn:E1; cbn [bind] in E; try discriminate;
      injection E as <- <-;
      destruct (read_msg_mono eq _ _ _ s0 s0 _ (group_mono pbr) Ho eq_refl E1) as (? & E2 & <-)
    end.
    unfold ReadPrimitiveGroup. rewrite E2. cbn [bind]. eexists. split; [reflexivity|].
    intros ? ? HH. rewrite HH. reflexivity.
Qed.

Definition blob_rel (x y : Blob) : Prop :=
  match blob_Raw x, blob_Raw y with
  | Some s, Some s' => sle s s'
  | None, None => True
  | _, _ => False
  end /\ blob_RawSize y = blob_RawSize x /\ blob_ZLibData y = blob_ZLibData x /\
  blob_RawFunc y = blob_RawFunc x.
Lemma blob_mono : mono blob_rel blob_handler.
Proof.
  intros id b b' n n' u Hs E. unfold blob_handler in *.
  repeat match goal with
  | E : (if ?c then _ else _) = Ok _ |- _ => destruct c
  end.
  - mono_bytes. injection E as <- <-. eexists. split; [reflexivity|].
    intros x y (H1 & H2 & H3 & H4). unfold blob_rel; cbn. auto.
  - destruct (DecodeI32 b n) as [[v m]|?|] eqn:E1; cbn [bind] in E; try discriminate.
    injection E as <- <-. rewrite (I32_sle _ _ _ _ Hs E1). cbn [bind].
    eexists. split; [reflexivity|].
    intros x y (H1 & H2 & H3 & H4). unfold blob_rel; cbn. auto.
  - mono_bytes. injection E as <- <-. eexists. split; [reflexivity|].
    intros x y (H1 & H2 & H3 & H4). unfold blob_rel; cbn. rewrite (proj1 Ho). auto.
  - discriminate.
Qed.
