(** * CpThms: messages read from a slice with bytes behind it (C10). *)
From Verif Require Import Base BaseLemmas PbModel PbSpec PbProofs PbProofs2 TModel TSpec CpSpec TProofs TMsg TMsg2 T2Proofs T2Items T2Thms.

Lemma at_bytes_cap0 b n o n' :
  go_slice b -> DecodeBytes b n = Ok (o, n') ->
  (exists lb post, at_ b n (lb ++ vis o) post /\ n' = n + zlen (lb ++ vis o) /\ is_varint lb /\ leb_value lb = zlen (vis o) /\
     exists o', DecodeBytes (exact (vis b)) n = Ok (o', n') /\ vis o' = vis o) \/
  (slen b < n' /\ exists body, at_ b n body [] /\ overlong body).
Proof.
  intros G E. destruct (go_slice_len b G) as [Hb Hl]. unfold DecodeBytes, ReadBytes in *.
  assert (Sle : sle (exact (vis b)) b) by (split; [reflexivity|exists (ext b); reflexivity]).
  rewrite <- (DecodeVarInt_sle (exact (vis b)) b n Sle).
  destruct (DecodeVarInt b n) as [[l n1]|p|] eqn:Ed; cbn [bind] in *; try discriminate.
  pose proof Ed as Ed'. apply DecodeVarInt_ok in Ed'; [|assumption..].
  destruct (sslice b n1 (s64 (n1 + s64 l))) as [o1|p|] eqn:Es; cbn [bind] in E; try discriminate.
  injection E as <- <-. pose proof (sslice_ok _ _ _ _ Es) as (S1 & S2 & S3).
  pose proof (sslice_all _ _ _ _ Es) as (A1 & A2 & A3).
  apply DecodeVarInt_split in Ed; [|assumption..].
  destruct Ed as (pre & lb & post & F1 & F2 & F3 & F4 & F5 & F6).
  assert (Hscap : scap b < 2^63) by apply G.
  assert (N : s64 (n1 + s64 l) = n1 + l).
  { assert (Hu : is_u64 l) by tauto. unfold is_u64 in Hu. destruct (Z.ltb_spec l (2^63)) as [Hs|Hs].
    + rewrite (s64_id l) in * by (unfold is_s64; lia).
      destruct (Z.ltb_spec (n1 + l) (2^63)) as [Hs2|Hs2]; [rewrite s64_id by (unfold is_s64; lia); lia|].
      exfalso. assert (s64 (n1 + l) = n1 + l - 2^64).
      { unfold s64. replace ((n1 + l + 2^63) mod 2^64) with (n1 + l + 2^63 - 2^64); [lia|].
        apply Z.mod_unique with (q := 1); lia. }
      lia.
    + exfalso. assert (E64 : s64 l = l - 2^64) by (rewrite s64_alt by (unfold is_u64; lia); destruct (Z.ltb_spec l (2^63)); lia).
      rewrite E64, (s64_id (n1 + _)) in S1 by (unfold is_s64; lia). lia. }
  rewrite N in *.
  assert (Hlen : slen b = n + zlen lb + zlen post) by (rewrite slen_zlen, F1, !zlen_app; lia).
  pose proof (leb_value_nonneg lb).
  destruct (Z.leb_spec (n1 + l) (slen b)) as [Hin|Hout].
  - assert (Hf : zlen (firstn (Z.to_nat l) post) = l) by (unfold zlen in *; rewrite firstn_length; lia).
    assert (Vo : vis o1 = firstn (Z.to_nat l) post).
    { rewrite A2. unfold all. replace (vis b ++ ext b) with ((pre ++ lb) ++ post ++ ext b) by (rewrite F1, <- !app_assoc; reflexivity).
      replace (n1 + l - n1) with l by lia.
      replace (Z.to_nat n1) with (Datatypes.length (pre ++ lb)) by (rewrite app_length; unfold zlen in *; lia).
      rewrite skipn_app, skipn_all, Nat.sub_diag. cbn [skipn app]. rewrite firstn_app.
      replace (Z.to_nat l - Datatypes.length post)%nat with O by (unfold zlen in *; lia). rewrite firstn_O, app_nil_r. reflexivity. }
    left. exists lb, (skipn (Z.to_nat l) post). rewrite Vo.
    split; [exists pre; rewrite <- app_assoc, firstn_skipn; auto|].
    rewrite zlen_app, Hf. split; [lia|]. split; [assumption|]. split; [congruence|]. rewrite <- Vo.
    assert (Es' : exists o', sslice (exact (vis b)) n1 (n1 + l) = Ok o' /\ vis o' = vis o1).
    { unfold sslice. assert (C : scap (exact (vis b)) = slen b) by (unfold scap, slen, exact; cbn; lia). rewrite C.
      destruct ((0 <=? n1) && (n1 <=? n1 + l) && (n1 + l <=? slen b)) eqn:Q; [|rewrite !andb_false_iff, !Z.leb_gt in Q; lia].
      eexists. split; [reflexivity|]. cbn [vis ext exact]. rewrite A2. unfold all. rewrite app_nil_r.
      rewrite skipn_app, firstn_app. replace (Z.to_nat (n1 + l - n1) - Datatypes.length (skipn (Z.to_nat n1) (vis b)))%nat with O.
      - rewrite firstn_O, app_nil_r. reflexivity.
      - rewrite skipn_length. unfold slen in *. lia. }
    destruct Es' as (o' & Q1 & Q2). exists o'. rewrite Q1. auto.
  - right. split; [lia|]. exists (lb ++ post). split; [exists pre; rewrite app_nil_r; auto|].
    exists lb, post. split; [reflexivity|]. split; [assumption|]. lia.
Qed.

Lemma at_bytes_cap b n o n' :
  go_slice b -> DecodeBytes b n = Ok (o, n') ->
  (exists body post, at_ b n body post /\ n' = n + zlen body /\ body_wf body /\
     exists o', DecodeBytes (exact (vis b)) n = Ok (o', n') /\ vis o' = vis o) \/
  (slen b < n' /\ exists body, at_ b n body [] /\ overlong body).
Proof.
  intros G E. destruct (at_bytes_cap0 b n o n' G E) as [(lb & post & H1 & H2 & H3 & H4 & H5)|X]; [left|right; exact X].
  exists (lb ++ vis o), post. split; [exact H1|]. split; [exact H2|]. split; [|exact H5]. right. exists lb, (vis o). auto.
Qed.

Definition cap_step {St} (P : list Z -> Prop) (strong : bool) (h : handler St) : Prop :=
  forall id b n n' u, go_slice b -> P (vis b) -> 0 <= n ->
    h id b n = Ok (n', u) ->
    (exists body post, at_ b n body post /\ n' = n + zlen body /\ body_wf body /\
       (strong = true -> h id (exact (vis b)) n = Ok (n', u))) \/
    (n' < 0 \/ (slen b < n' /\ exists body, at_ b n body [] /\ overlong body)).

Lemma cap_loop {St} P strong (h : handler St) b : cap_step P strong h ->
  go_slice b -> P (vis b) ->
  forall fuel n st n' st' pre rest, vis b = pre ++ rest -> zlen pre = n ->
  loop fuel (msg_cond b) (msg_body h b) (n, st) = Ok (n', st') ->
  exists items tail, rest = concat (map item_bytes items) ++ tail /\ Forall item_wf items /\
    ((tail = [] /\ (strong = true -> loop fuel (msg_cond (exact (vis b))) (msg_body h (exact (vis b))) (n, st) = Ok (n', st'))) \/
     exists k body, tail = k ++ body /\ is_varint k /\ overlong body).
Proof.
  intros HS G HP. destruct (go_slice_len b G) as [Hb Hl].
  assert (Sle : sle (exact (vis b)) b) by (split; [reflexivity|exists (ext b); reflexivity]).
  assert (SL : slen (exact (vis b)) = slen b) by reflexivity.
  induction fuel as [|fuel IH]; intros n st n' st' pre rest Hv Hn; cbn [loop];
    change (msg_cond b (n, st)) with (n <? slen b); change (msg_cond (exact (vis b)) (n, st)) with (n <? slen b);
    (destruct (Z.ltb_spec n (slen b)) as [Hlt|Hge]; [|intros H; injection H as <- <-;
      exists [], rest; assert (rest = []) by (apply zlen_0; rewrite slen_zlen, Hv, zlen_app in Hge;
        pose proof (zlen_nonneg rest); lia); subst; auto]).
  { discriminate. }
  change (msg_body h b (n, st)) with
    ('(id, n1) <- DecodeVarInt b n ;; '(n1, u) <- h id b n1 ;; Ok (n1, u st)).
  change (msg_body h (exact (vis b)) (n, st)) with
    ('(id, n1) <- DecodeVarInt (exact (vis b)) n ;; '(n1, u) <- h id (exact (vis b)) n1 ;; Ok (n1, u st)).
  rewrite <- (DecodeVarInt_sle (exact (vis b)) b n Sle).
  destruct (DecodeVarInt b n) as [[id n1]|p|] eqn:E; cbn [bind]; try discriminate.
  apply DecodeVarInt_split in E; [|assumption..].
  destruct E as (p0 & k & post & F1 & F2 & F3 & F4 & -> & F5).
  destruct (h (leb_value k) b n1) as [[n2 u]|p|] eqn:Eh; cbn [bind]; try discriminate.
  intros Hloop.
  assert (Hp : p0 = pre /\ k ++ post = rest).
  { apply split_unique; [congruence|]. unfold zlen in *. lia. }
  destruct Hp as [-> Hr]. clear F2.
  assert (Hn1 : 0 <= n1) by (pose proof (zlen_nonneg pre); pose proof (zlen_nonneg k); lia).
  destruct (HS _ _ _ _ _ G HP Hn1 Eh) as [(body & post2 & (p1 & A1 & A2) & A3 & A4 & AX)|[Hneg|(Hov & body & (p1 & A1 & A2) & A3)]].
  - assert (Hp1 : p1 = pre ++ k /\ body ++ post2 = post).
    { apply split_unique; [rewrite <- app_assoc; congruence|]. unfold zlen in *. rewrite app_length. lia. }
    destruct Hp1 as [-> Hpost]. subst post rest.
    destruct (IH n2 (u st) n' st' (pre ++ k ++ body) post2) as (items & tail & I1 & I2 & I3);
      [rewrite A1, <- !app_assoc; reflexivity|rewrite !zlen_app; lia|exact Hloop|].
    assert (I3' : (tail = [] /\ (strong = true -> (s' <- '(n1, u0) <- h (leb_value k) (exact (vis b)) n1;; Ok (n1, u0 st) ;; loop fuel (msg_cond (exact (vis b))) (msg_body h (exact (vis b))) s') = Ok (n', st'))) \/
      exists k body, tail = k ++ body /\ is_varint k /\ overlong body).
    { destruct I3 as [[-> X]|X]; [left; split; [reflexivity|]|right; exact X]. intros Q. rewrite (AX Q). cbn [bind]. apply X, Q. }
    destruct A4 as [A4|(l & p & -> & A4 & A5)].
    + exists (IVarint k body :: items), tail. split; [cbn [map concat item_bytes]; rewrite I1, <- !app_assoc; reflexivity|].
      split; [constructor; [split; assumption|assumption]|exact I3'].
    + exists (IBytes k l p :: items), tail. split; [cbn [map concat item_bytes]; rewrite I1, <- !app_assoc; reflexivity|].
      split; [constructor; [repeat split; assumption|assumption]|exact I3'].
  - destruct fuel; cbn [loop] in Hloop; change (msg_cond b (n2, u st)) with (n2 <? slen b) in Hloop;
      (destruct (Z.ltb_spec n2 (slen b)); [|unfold slen in *; lia]); [discriminate|].
    change (msg_body h b (n2, u st)) with
      ('(id, n1) <- DecodeVarInt b n2 ;; '(n1, u0) <- h id b n1 ;; Ok (n1, u0 (u st))) in Hloop.
    rewrite DecodeVarInt_neg in Hloop by lia. discriminate.
  - assert (Hp1 : p1 = pre ++ k /\ body ++ [] = post).
    { apply split_unique; [rewrite <- app_assoc; congruence|]. unfold zlen in *. rewrite app_length. lia. }
    destruct Hp1 as [-> Hpost]. rewrite app_nil_r in Hpost. subst post rest.
    exists [], (k ++ body). split; [reflexivity|]. split; [constructor|]. right. exists k, body. auto.
Qed.

Lemma cap_read {St} P strong (h : handler St) v e st r : cap_step P strong h ->
  bytes v -> bytes e -> zlen v + zlen e < 2^63 -> P v -> read_msg h (mkslice v e) st = Ok r ->
  exists items tail, v = concat (map item_bytes items) ++ tail /\ Forall item_wf items /\
    ((tail = [] /\ (strong = true -> read_msg h (exact v) st = Ok r)) \/ exists k body, tail = k ++ body /\ is_varint k /\ overlong body).
Proof.
  intros HS Hb He Hl HP H. unfold read_msg, read_fuel in *.
  destruct (loop _ _ _ _) as [[n' st']|p|] eqn:E; cbn [bind] in H; try discriminate.
  assert (G : go_slice (mkslice v e)) by (split; [exact Hb|]; split; [exact He|]; unfold scap, slen; cbn; unfold zlen in Hl; lia).
  destruct (cap_loop P strong h (mkslice v e) HS G HP _ _ _ _ _ [] v eq_refl eq_refl E) as (items & tail & I1 & I2 & I3).
  exists items, tail. split; [exact I1|]. split; [exact I2|]. destruct I3 as [[-> X]|X]; [left; split; [reflexivity|]|right; exact X].
  intros Q. specialize (X Q). cbn [vis] in X. change (zlen (@nil Z)) with 0 in X. cbn [vis exact]. cbn [vis exact] in X. rewrite X. exact H.
Qed.

(** steps *)
Lemma vi_exact b n : DecodeVarInt (exact (vis b)) n = DecodeVarInt b n.
Proof. destruct b. reflexivity. Qed.
Lemma pl_vis c f o o' : vis o' = vis o -> packed_loop c f o' = packed_loop c f o.
Proof. destruct o, o'. cbn. intros ->. reflexivity. Qed.
Ltac cp_varint :=
  match goal with H : bind (DecodeI64 ?b ?n) _ = Ok _ |- _ => unfold DecodeI64 in H |- * | H : bind (DecodeI32 ?b ?n) _ = Ok _ |- _ => unfold DecodeI32 in H |- * end;
  rewrite ?vi_exact;
  match goal with H : context [DecodeVarInt ?b ?n] |- _ =>
    let E := fresh in
    destruct (DecodeVarInt b n) as [[? ?]|?|] eqn:E; cbn [bind] in H |- *; try discriminate;
    injection H as <- <-; apply at_varint in E; [|assumption];
    destruct E as (? & ? & ? & ? & ? & ?); left; do 2 eexists;
    split; [eassumption|]; split; [assumption|split; [left; assumption|reflexivity]] end.
Ltac cp_bytes :=
  match goal with H : context [DecodeBytes ?b ?n] |- _ =>
    let E := fresh in let o' := fresh "o" in let X1 := fresh in let X2 := fresh in
    destruct (DecodeBytes b n) as [[? ?]|?|] eqn:E; cbn [bind] in H; try discriminate;
    apply at_bytes_cap in E; [|assumption];
    destruct E as [(? & ? & ? & ? & ? & o' & X1 & X2)|E];
      [rewrite X1; cbn [bind]; rewrite ?(pl_vis _ _ _ _ X2), ?X2|];
    try match goal with H : context [packed_loop ?c ?f ?i] |- _ => destruct (packed_loop c f i); cbn [bind] in H |- *; try discriminate end;
    injection H as <- <-; [left; do 2 eexists; split; [eassumption|]; split; [assumption|split; [assumption|reflexivity]]|right; right; exact E] end.
Ltac cp_skip :=
  match goal with H : bind (SkipBytes ?b ?n) _ = Ok _ |- _ =>
      let E := fresh in let X := fresh in
      assert (X : SkipBytes (exact (vis b)) n = SkipBytes b n) by (unfold SkipBytes; rewrite vi_exact; reflexivity);
      rewrite X;
      destruct (SkipBytes b n) as [?|?|] eqn:E; cbn [bind] in H |- *; try discriminate;
      injection H as <- <-; apply at_skip in E; [|assumption|assumption];
      destruct E as [(? & ? & ? & ? & ?)|E]; [left; do 2 eexists; split; [eassumption|]; split; [assumption|split; [assumption|reflexivity]]|right; exact E]
  end.
Ltac cp_case :=
  match goal with
  | H : Panic _ = Ok _ |- _ => discriminate H
  | H : (if ?c then _ else _) = Ok _ |- _ => destruct c
  | H : bind (DecodeI64 _ _) _ = Ok _ |- _ => cp_varint
  | H : bind (DecodeI32 _ _) _ = Ok _ |- _ => cp_varint
  | H : bind (DecodeString _ _) _ = Ok _ |- _ => unfold DecodeString in H |- *; cp_bytes
  | H : bind (DecodeU32Packed _ _) _ = Ok _ |- _ => unfold DecodeU32Packed, decode_packed in H |- *; cp_bytes
  | H : bind (DecodeI32Packed _ _) _ = Ok _ |- _ => unfold DecodeI32Packed, decode_packed in H |- *; cp_bytes
  | H : bind (DecodeU64Packed _ _) _ = Ok _ |- _ => unfold DecodeU64Packed, decode_packed in H |- *; cp_bytes
  | H : bind (DecodeS64PackedDelta _ _) _ = Ok _ |- _ => unfold DecodeS64PackedDelta, decode_packed in H |- *; cp_bytes
  | H : bind (SkipBytes ?b ?n) _ = Ok _ |- _ => cp_skip
  end.
Lemma way_cap : cap_step no_huge true way_handler.
Proof. intros id b n n' u G HP Hn H. unfold way_handler in H |- *. repeat cp_case. Qed.
Lemma relation_cap : cap_step no_huge true relation_handler.
Proof. intros id b n n' u G HP Hn H. unfold relation_handler in H |- *. repeat cp_case. Qed.
Lemma dense_cap : cap_step no_huge true dense_handler.
Proof. intros id b n n' u G HP Hn H. unfold dense_handler in H |- *. repeat cp_case. Qed.
Lemma st_cap : cap_step (fun _ => True) true st_handler.
Proof. intros id b n n' u G HP Hn H. unfold st_handler in H |- *. repeat cp_case. Qed.
Lemma bh_cap : cap_step (fun _ => True) true bh_handler.
Proof. intros id b n n' u G HP Hn H. unfold bh_handler in H |- *. repeat cp_case. Qed.
Ltac cw_bytes :=
  match goal with H : bind (DecodeBytes ?b ?n) _ = Ok _ |- _ =>
    let E := fresh in
    destruct (DecodeBytes b n) as [[? ?]|?|] eqn:E; cbn [bind] in H; try discriminate;
    apply at_bytes_cap in E; [|assumption];
    repeat match type of H with bind ?m _ = Ok _ => destruct m; cbn [bind] in H; try discriminate end;
    injection H as <- <-;
    destruct E as [(? & ? & ? & ? & ? & _)|E]; [left; do 2 eexists; split; [eassumption|]; split; [assumption|split; [assumption|discriminate]]|right; right; exact E]
  end.
Ltac cw_varint :=
  match goal with H : bind (DecodeI64 ?b ?n) _ = Ok _ |- _ => unfold DecodeI64 in H | H : bind (DecodeI32 ?b ?n) _ = Ok _ |- _ => unfold DecodeI32 in H end;
  match goal with H : context [DecodeVarInt ?b ?n] |- _ =>
    let E := fresh in
    destruct (DecodeVarInt b n) as [[? ?]|?|] eqn:E; cbn [bind] in H; try discriminate;
    injection H as <- <-; apply at_varint in E; [|assumption];
    destruct E as (? & ? & ? & ? & ? & ?); left; do 2 eexists;
    split; [eassumption|]; split; [assumption|split; [left; assumption|discriminate]] end.
Ltac cw_skip :=
  match goal with H : bind (SkipBytes ?b ?n) _ = Ok _ |- _ =>
      let E := fresh in
      destruct (SkipBytes b n) as [?|?|] eqn:E; cbn [bind] in H; try discriminate;
      injection H as <- <-; apply at_skip in E; [|assumption|assumption];
      destruct E as [(? & ? & ? & ? & ?)|E]; [left; do 2 eexists; split; [eassumption|]; split; [assumption|split; [assumption|discriminate]]|right; exact E]
  end.
Ltac cw_case :=
  match goal with
  | H : Panic _ = Ok _ |- _ => discriminate H
  | H : (if ?c then _ else _) = Ok _ |- _ => destruct c
  | H : bind (DecodeI64 _ _) _ = Ok _ |- _ => cw_varint
  | H : bind (DecodeI32 _ _) _ = Ok _ |- _ => cw_varint
  | H : bind (DecodeBytes _ _) _ = Ok _ |- _ => cw_bytes
  | H : bind (SkipBytes ?b ?n) _ = Ok _ |- _ => cw_skip
  end.
Lemma group_cap pbr : cap_step no_huge false (group_handler pbr).
Proof. intros id b n n' u G HP Hn H. unfold group_handler in H. repeat cw_case. Qed.
Lemma block_cap pbr : cap_step (fun _ => True) false (block_handler pbr).
Proof. intros id b n n' u G HP Hn H. unfold block_handler in H. repeat cw_case. Qed.
Lemma blob_cap : cap_step (fun _ => True) false blob_handler.
Proof. intros id b n n' u G HP Hn H. unfold blob_handler in H. repeat cw_case. Qed.

(** C10, with any bytes [e] behind the message: whenever a reader accepts a message, either
    the message is sound (and then ways, relations, dense sections, string tables and
    blob headers are read exactly as if nothing lay behind it), or it is sound up to one
    last field that claims more bytes than are left.  So the only way to read a
    neighbour's bytes is through the last field of a message.  Missing: rejection in
    that case (see the refutation); lengths of 2^63 and more in ways, relations, dense
    sections and groups, which may be negative as Go ints. *)
Lemma pC10_capacity_partial : forall v e, bytes v -> bytes e -> zlen v + zlen e < 2^63 ->
  (forall st r, ReadStringTable (mkslice v e) st = Ok r -> sound v /\ ReadStringTable (exact v) st = Ok r \/ overruns v) /\
  (forall r, ReadBlobHeader (mkslice v e) = Ok r -> sound v /\ ReadBlobHeader (exact v) = Ok r \/ overruns v) /\
  (forall st r, ReadBlob (mkslice v e) st = Ok r -> sound v \/ overruns v) /\
  (forall pbr st r, ReadPrimitiveBlock pbr (mkslice v e) st = Ok r -> sound v \/ overruns v) /\
  (no_huge v ->
    (forall st r, ReadWay (mkslice v e) st = Ok r -> sound v /\ ReadWay (exact v) st = Ok r \/ overruns v) /\
    (forall st r, ReadRelation (mkslice v e) st = Ok r -> sound v /\ ReadRelation (exact v) st = Ok r \/ overruns v) /\
    (forall st r, ReadDenseNodes (mkslice v e) st = Ok r -> sound v /\ ReadDenseNodes (exact v) st = Ok r \/ overruns v) /\
    (forall pbr st r, ReadPrimitiveGroup pbr (mkslice v e) st = Ok r -> sound v \/ overruns v)).
Proof.
  intros v e Hb He Hl.
  assert (A : forall St P strong (h : handler St) st r, cap_step P strong h -> P v -> read_msg h (mkslice v e) st = Ok r ->
    sound v /\ (strong = true -> read_msg h (exact v) st = Ok r) \/ overruns v).
  { intros St P strong h st r HS HP H. destruct (cap_read P strong h v e st r HS Hb He Hl HP H) as (items & tail & E & W & [[-> X]|(k & body & T1 & T2 & l & p & T3 & T4 & T5)]).
    - left. rewrite app_nil_r in E. split; [exists items; auto|exact X].
    - right. exists items, k, l, p. subst. auto. }
  assert (S1 : forall St P (h : handler St) st r, cap_step P true h -> P v -> read_msg h (mkslice v e) st = Ok r ->
    sound v /\ read_msg h (exact v) st = Ok r \/ overruns v).
  { intros St P h st r HS HP H. destruct (A St P true h st r HS HP H) as [[X Y]|X]; auto. }
  assert (S2 : forall St P strong (h : handler St) st r, cap_step P strong h -> P v -> read_msg h (mkslice v e) st = Ok r -> sound v \/ overruns v).
  { intros St P strong h st r HS HP H. destruct (A St P strong h st r HS HP H) as [[X Y]|X]; auto. }
  split; [intros st r; apply (S1 _ _ _ _ _ st_cap Logic.I)|]. split; [intros r; apply (S1 _ _ _ _ _ bh_cap Logic.I)|].
  split; [intros st r; apply (S2 _ _ _ _ _ _ blob_cap Logic.I)|]. split; [intros pbr st r; apply (S2 _ _ _ _ _ _ (block_cap pbr) Logic.I)|].
  intros N. split; [intros st r; apply (S1 _ _ _ _ _ way_cap N)|]. split; [intros st r; apply (S1 _ _ _ _ _ relation_cap N)|].
  split; [intros st r; apply (S1 _ _ _ _ _ dense_cap N)|]. intros pbr st r; apply (S2 _ _ _ _ _ _ (group_cap pbr) N).
Qed.
Lemma pC10_capacity_ex :
  (exists r, ReadWay (mkslice [8; 5; 66; 1; 6] [42; 1; 0]) Way0 = Ok r) /\ no_huge [8; 5; 66; 1; 6] /\ sound [8; 5; 66; 1; 6] /\
  (exists r, ReadWay (mkslice [66; 3] [42; 1; 0]) Way0 = Ok r) /\ overruns [66; 3].
Proof.
  split; [eexists; vm_compute; reflexivity|]. split; [apply no_huge_short; vm_compute; discriminate|].
  split; [exists [IVarint [8] [5]; IBytes [66] [1] [6]]; split; [reflexivity|repeat constructor; cbn; lia]|].
  split; [eexists; vm_compute; reflexivity|]. exists [], [66], [3], []. repeat split; repeat constructor; cbn; lia.
Qed.

(** ** Nested messages kept to their extent *)
Definition iso_step {St} (P : list Z -> Prop) (Bad : list Z -> Prop) (h h' : handler St) : Prop :=
  forall id b n n' u, go_slice b -> P (vis b) -> 0 <= n ->
    h id b n = Ok (n', u) ->
    (exists body post, at_ b n body post /\ n' = n + zlen body /\ body_wf body /\ h' id (exact (vis b)) n = Ok (n', u)) \/
    (exists l p post, at_ b n (l ++ p) post /\ n' = n + zlen (l ++ p) /\ is_varint l /\ leb_value l = zlen p /\ Bad p) \/
    (n' < 0 \/ (slen b < n' /\ exists body, at_ b n body [] /\ overlong body)).

Lemma iso_loop {St} P Bad (h h' : handler St) b : iso_step P Bad h h' ->
  go_slice b -> P (vis b) ->
  forall fuel n st n' st' pre rest, vis b = pre ++ rest -> zlen pre = n ->
  loop fuel (msg_cond b) (msg_body h b) (n, st) = Ok (n', st') ->
  exists items tail, rest = concat (map item_bytes items) ++ tail /\ Forall item_wf items /\
    ((tail = [] /\ loop fuel (msg_cond (exact (vis b))) (msg_body h' (exact (vis b))) (n, st) = Ok (n', st')) \/
     (tail = [] /\ exists k l p, In (IBytes k l p) items /\ Bad p) \/
     exists k body, tail = k ++ body /\ is_varint k /\ overlong body).
Proof.
  intros HS G HP. destruct (go_slice_len b G) as [Hb Hl].
  assert (Sle : sle (exact (vis b)) b) by (split; [reflexivity|exists (ext b); reflexivity]).
  assert (SL : slen (exact (vis b)) = slen b) by reflexivity.
  induction fuel as [|fuel IH]; intros n st n' st' pre rest Hv Hn; cbn [loop];
    change (msg_cond b (n, st)) with (n <? slen b); change (msg_cond (exact (vis b)) (n, st)) with (n <? slen b);
    (destruct (Z.ltb_spec n (slen b)) as [Hlt|Hge]; [|intros H; injection H as <- <-;
      exists [], rest; assert (rest = []) by (apply zlen_0; rewrite slen_zlen, Hv, zlen_app in Hge;
        pose proof (zlen_nonneg rest); lia); subst; auto]).
  { discriminate. }
  change (msg_body h b (n, st)) with
    ('(id, n1) <- DecodeVarInt b n ;; '(n1, u) <- h id b n1 ;; Ok (n1, u st)).
  change (msg_body h' (exact (vis b)) (n, st)) with
    ('(id, n1) <- DecodeVarInt (exact (vis b)) n ;; '(n1, u) <- h' id (exact (vis b)) n1 ;; Ok (n1, u st)).
  rewrite <- (DecodeVarInt_sle (exact (vis b)) b n Sle).
  destruct (DecodeVarInt b n) as [[id n1]|p|] eqn:E; cbn [bind]; try discriminate.
  apply DecodeVarInt_split in E; [|assumption..].
  destruct E as (p0 & k & post & F1 & F2 & F3 & F4 & -> & F5).
  destruct (h (leb_value k) b n1) as [[n2 u]|p|] eqn:Eh; cbn [bind]; try discriminate.
  intros Hloop.
  assert (Hp : p0 = pre /\ k ++ post = rest).
  { apply split_unique; [congruence|]. unfold zlen in *. lia. }
  destruct Hp as [-> Hr]. clear F2.
  assert (Hn1 : 0 <= n1) by (pose proof (zlen_nonneg pre); pose proof (zlen_nonneg k); lia).
  assert (Next : forall body post2, (exists p1, vis b = p1 ++ body ++ post2 /\ zlen p1 = n1) -> n2 = n1 + zlen body ->
    body ++ post2 = post /\
    exists items tail, post2 = concat (map item_bytes items) ++ tail /\ Forall item_wf items /\
    ((tail = [] /\ loop fuel (msg_cond (exact (vis b))) (msg_body h' (exact (vis b))) (n2, u st) = Ok (n', st')) \/
     (tail = [] /\ exists k l p, In (IBytes k l p) items /\ Bad p) \/
     exists k body, tail = k ++ body /\ is_varint k /\ overlong body)).
  { intros body post2 (p1 & A1 & A2) A3.
    assert (Hp1 : p1 = pre ++ k /\ body ++ post2 = post).
    { apply split_unique; [rewrite <- app_assoc; congruence|]. unfold zlen in *. rewrite app_length. lia. }
    destruct Hp1 as [-> Hpost]. split; [exact Hpost|].
    apply (IH n2 (u st) n' st' (pre ++ k ++ body) post2); [rewrite A1, <- !app_assoc; reflexivity|rewrite !zlen_app; lia|exact Hloop]. }
  destruct (HS _ _ _ _ _ G HP Hn1 Eh) as [(body & post2 & A0 & A3 & A4 & AX)|[(l & p & post2 & A0 & A3 & A4 & A5 & AB)|[Hneg|(Hov & body & (p1 & A1 & A2) & A3)]]].
  - destruct (Next body post2 A0 A3) as (Hpost & items & tail & I1 & I2 & I3). subst post rest.
    assert (Fin : exists it, item_bytes it = k ++ body /\ item_wf it).
    { destruct A4 as [A4|(l & p & -> & A4 & A5)]; [exists (IVarint k body); repeat split; assumption|exists (IBytes k l p); repeat split; assumption]. }
    destruct Fin as (it & B1 & B2). exists (it :: items), tail. split; [cbn [map concat]; rewrite B1, I1, <- !app_assoc; reflexivity|].
    split; [constructor; assumption|]. rewrite AX. cbn [bind]. destruct I3 as [X|[(-> & k2 & l2 & p2 & X & Y)|X]]; [left; exact X| |right; right; exact X].
    right; left. split; [reflexivity|]. exists k2, l2, p2. split; [right; exact X|exact Y].
  - destruct (Next (l ++ p) post2 A0 A3) as (Hpost & items & tail & I1 & I2 & I3). subst post rest.
    exists (IBytes k l p :: items), tail. split; [cbn [map concat item_bytes]; rewrite I1, <- !app_assoc; reflexivity|].
    split; [constructor; [repeat split; assumption|assumption]|].
    destruct I3 as [[-> X]|[(-> & X)|X]]; [| |right; right; exact X]; right; left; (split; [reflexivity|]); exists k, l, p; (split; [left; reflexivity|exact AB]).
  - destruct fuel; cbn [loop] in Hloop; change (msg_cond b (n2, u st)) with (n2 <? slen b) in Hloop;
      (destruct (Z.ltb_spec n2 (slen b)); [|unfold slen in *; lia]); [discriminate|].
    change (msg_body h b (n2, u st)) with
      ('(id, n1) <- DecodeVarInt b n2 ;; '(n1, u0) <- h id b n1 ;; Ok (n1, u0 (u st))) in Hloop.
    rewrite DecodeVarInt_neg in Hloop by lia. discriminate.
  - assert (Hp1 : p1 = pre ++ k /\ body ++ [] = post).
    { apply split_unique; [rewrite <- app_assoc; congruence|]. unfold zlen in *. rewrite app_length. lia. }
    destruct Hp1 as [-> Hpost]. rewrite app_nil_r in Hpost. subst post rest.
    exists [], (k ++ body). split; [reflexivity|]. split; [constructor|]. right; right. exists k, body. auto.
Qed.

Lemma iso_read {St} P Bad (h h' : handler St) b st r : iso_step P Bad h h' ->
  go_slice b -> P (vis b) -> (forall p, Bad p -> overrun_in p) -> read_msg h b st = Ok r ->
  read_msg h' (exact (vis b)) st = Ok r \/ overrun_in (vis b).
Proof.
  intros HS G HP HB H. destruct b as [v e]. cbn [vis] in *. unfold read_msg, read_fuel in *.
  destruct (loop _ _ _ _) as [[n' st']|p|] eqn:E; cbn [bind] in H; try discriminate.
  destruct (iso_loop P Bad h h' (mkslice v e) HS G HP _ _ _ _ _ [] v eq_refl eq_refl E) as (items & tail & I1 & I2 & I3).
  cbn [vis] in I3. change (zlen (@nil Z)) with 0 in I3.
  destruct I3 as [[-> X]|[(-> & k & l & p & X & Y)|(k & body & T1 & T2 & l & p & T3 & T4 & T5)]].
  - left. cbn [vis exact] in *. rewrite X. exact H.
  - right. rewrite app_nil_r in I1. eapply over_within; [exact I1|exact I2|exact X|apply HB, Y].
  - right. apply over_here. exists items, k, l, p. subst. auto.
Qed.

Lemma no_huge_infix b n body post : no_huge (vis b) -> at_ b n body post -> no_huge body.
Proof.
  intros H (pre & E & _) p v q Eb. apply (H (pre ++ p) v (q ++ post)). rewrite E, Eb, <- !app_assoc. reflexivity.
Qed.
Lemma no_huge_sfx l p : no_huge (l ++ p) -> no_huge p.
Proof. intros H a v q E. apply (H (l ++ a) v q). rewrite E, <- !app_assoc. reflexivity. Qed.

Lemma nested_read {A} (rd rd' : slice -> res A) :
  (forall b a, go_slice b -> no_huge (vis b) -> rd b = Ok a -> rd' (exact (vis b)) = Ok a \/ overrun_in (vis b)) ->
  forall b n o n' a, go_slice b -> no_huge (vis b) -> DecodeBytes b n = Ok (o, n') -> rd o = Ok a ->
  (exists body post, at_ b n body post /\ n' = n + zlen body /\ body_wf body /\
     exists o', DecodeBytes (exact (vis b)) n = Ok (o', n') /\ vis o' = vis o /\ rd' (exact (vis o)) = Ok a) \/
  (exists l p post, at_ b n (l ++ p) post /\ n' = n + zlen (l ++ p) /\ is_varint l /\ leb_value l = zlen p /\ overrun_in p) \/
  (slen b < n' /\ exists body, at_ b n body [] /\ overlong body).
Proof.
  intros R b n o n' a G N E Ra. pose proof (DecodeBytes_ok b n o n' G E) as (_ & _ & _ & Go & _).
  destruct (at_bytes_cap0 b n o n' G E) as [(lb & post & H1 & H2 & H3 & H4 & o' & H5 & H6)|X]; [|right; right; exact X].
  assert (No : no_huge (vis o)) by (eapply no_huge_sfx, no_huge_infix; eassumption).
  destruct (R o a Go No Ra) as [X|X].
  - left. exists (lb ++ vis o), post. split; [exact H1|]. split; [exact H2|]. split; [right; exists lb, (vis o); auto|]. exists o'. auto.
  - right; left. exists lb, (vis o), post. auto.
Qed.
Lemma slice_cap b : go_slice b -> bytes (vis b) /\ bytes (ext b) /\ zlen (vis b) + zlen (ext b) < 2^63 /\ b = mkslice (vis b) (ext b).
Proof. intros (H1 & H2 & H3). split; [exact H1|]. split; [exact H2|]. split; [unfold scap, slen, zlen in *; lia|destruct b; reflexivity]. Qed.
Lemma way_nested b a : go_slice b -> no_huge (vis b) -> ReadWay b Way0 = Ok a -> ReadWay (exact (vis b)) Way0 = Ok a \/ overrun_in (vis b).
Proof.
  intros G N H. destruct (slice_cap b G) as (B1 & B2 & B3 & B4). rewrite B4 in H. destruct (pC10_capacity_partial _ _ B1 B2 B3) as (_ & _ & _ & _ & X).
  destruct (X N) as (W & _). destruct (W _ _ H) as [[_ Y]|Y]; [left; exact Y|right; apply over_here, Y].
Qed.
Lemma relation_nested b a : go_slice b -> no_huge (vis b) -> ReadRelation b Relation0 = Ok a -> ReadRelation (exact (vis b)) Relation0 = Ok a \/ overrun_in (vis b).
Proof.
  intros G N H. destruct (slice_cap b G) as (B1 & B2 & B3 & B4). rewrite B4 in H. destruct (pC10_capacity_partial _ _ B1 B2 B3) as (_ & _ & _ & _ & X).
  destruct (X N) as (_ & W & _). destruct (W _ _ H) as [[_ Y]|Y]; [left; exact Y|right; apply over_here, Y].
Qed.
Lemma dense_nested b a : go_slice b -> no_huge (vis b) -> ReadDenseNodes b DenseNodes0 = Ok a -> ReadDenseNodes (exact (vis b)) DenseNodes0 = Ok a \/ overrun_in (vis b).
Proof.
  intros G N H. destruct (slice_cap b G) as (B1 & B2 & B3 & B4). rewrite B4 in H. destruct (pC10_capacity_partial _ _ B1 B2 B3) as (_ & _ & _ & _ & X).
  destruct (X N) as (_ & _ & W & _). destruct (W _ _ H) as [[_ Y]|Y]; [left; exact Y|right; apply over_here, Y].
Qed.
Lemma st_nested b a : go_slice b -> no_huge (vis b) -> ReadStringTable b [] = Ok a -> ReadStringTable (exact (vis b)) [] = Ok a \/ overrun_in (vis b).
Proof.
  intros G N H. destruct (slice_cap b G) as (B1 & B2 & B3 & B4). rewrite B4 in H. destruct (pC10_capacity_partial _ _ B1 B2 B3) as (W & _).
  destruct (W _ _ H) as [[_ Y]|Y]; [left; exact Y|right; apply over_here, Y].
Qed.

Ltac is_nested lem rd rd' :=
  match goal with H : bind (DecodeBytes ?b ?n) _ = Ok _ |- _ =>
    let E := fresh in let o := fresh "o" in let k := fresh in let Ra := fresh in
    destruct (DecodeBytes b n) as [[o k]|?|] eqn:E; cbn [bind] in H; try discriminate;
    match type of H with bind ?m _ = Ok _ => destruct m eqn:Ra; cbn [bind] in H; try discriminate end;
    injection H as <- <-;
    destruct (nested_read rd rd' lem b n o k _ ltac:(assumption) ltac:(assumption) E Ra) as [(? & ? & ? & ? & ? & ? & X1 & X2 & X3)|[X|X]];
      [left; do 2 eexists; split; [eassumption|]; split; [assumption|]; split; [assumption|]; rewrite X1; cbn [bind]; rewrite X2, X3; reflexivity
      |right; left; exact X|right; right; right; exact X]
  end.
Ltac is_raw :=
  match goal with H : bind (DecodeBytes ?b ?n) _ = Ok _ |- _ =>
    let E := fresh in
    destruct (DecodeBytes b n) as [[? ?]|?|] eqn:E; cbn [bind] in H; try discriminate;
    injection H as <- <-;
    apply at_bytes_cap in E; [|assumption];
    destruct E as [(? & ? & ? & ? & ? & ? & X1 & X2)|E];
      [left; do 2 eexists; split; [eassumption|]; split; [assumption|]; split; [assumption|]; rewrite X1; cbn [bind]; rewrite X2; reflexivity
      |right; right; right; exact E]
  end.
Ltac is_varint_ :=
  match goal with H : bind (DecodeI64 ?b ?n) _ = Ok _ |- _ => unfold DecodeI64 in H |- * | H : bind (DecodeI32 ?b ?n) _ = Ok _ |- _ => unfold DecodeI32 in H |- * end;
  rewrite ?vi_exact;
  match goal with H : context [DecodeVarInt ?b ?n] |- _ =>
    let E := fresh in
    destruct (DecodeVarInt b n) as [[? ?]|?|] eqn:E; cbn [bind] in H |- *; try discriminate;
    injection H as <- <-; apply at_varint in E; [|assumption];
    destruct E as (? & ? & ? & ? & ? & ?); left; do 2 eexists;
    split; [eassumption|]; split; [assumption|split; [left; assumption|reflexivity]] end.
Ltac is_skip :=
  match goal with H : bind (SkipBytes ?b ?n) _ = Ok _ |- _ =>
      let E := fresh in let X := fresh in
      assert (X : SkipBytes (exact (vis b)) n = SkipBytes b n) by (unfold SkipBytes; rewrite vi_exact; reflexivity);
      rewrite X;
      destruct (SkipBytes b n) as [?|?|] eqn:E; cbn [bind] in H |- *; try discriminate;
      injection H as <- <-; apply at_skip in E; [|assumption|assumption];
      destruct E as [(? & ? & ? & ? & ?)|E]; [left; do 2 eexists; split; [eassumption|]; split; [assumption|split; [assumption|reflexivity]]|right; right; exact E]
  end.
Ltac is_case lems :=
  match goal with
  | H : Panic _ = Ok _ |- _ => discriminate H
  | H : (if ?c then _ else _) = Ok _ |- _ => destruct c
  | H : bind (DecodeI64 _ _) _ = Ok _ |- _ => is_varint_
  | H : bind (DecodeI32 _ _) _ = Ok _ |- _ => is_varint_
  | H : bind (SkipBytes ?b ?n) _ = Ok _ |- _ => is_skip
  | H : bind (DecodeBytes _ _) _ = Ok _ |- _ => first [is_raw | lems]
  end.
Lemma group_iso pbr : iso_step no_huge overrun_in (group_handler pbr) (iso_group_handler pbr).
Proof.
  intros id b n n' u G HP Hn H. unfold group_handler in H. unfold iso_group_handler.
  repeat is_case ltac:(first [is_nested way_nested (fun b => ReadWay b Way0) (fun b => ReadWay b Way0) | is_nested relation_nested (fun b => ReadRelation b Relation0) (fun b => ReadRelation b Relation0) | is_nested dense_nested (fun b => ReadDenseNodes b DenseNodes0) (fun b => ReadDenseNodes b DenseNodes0)]).
Qed.
Lemma group_nested pbr b a : go_slice b -> no_huge (vis b) -> ReadPrimitiveGroup pbr b PrimitiveGroup0 = Ok a ->
  iso_ReadPrimitiveGroup pbr (exact (vis b)) PrimitiveGroup0 = Ok a \/ overrun_in (vis b).
Proof. intros G N H. exact (iso_read no_huge overrun_in _ _ b _ _ (group_iso pbr) G N (fun p X => X) H). Qed.
Lemma block_iso pbr : iso_step no_huge overrun_in (block_handler pbr) (iso_block_handler pbr).
Proof.
  intros id b n n' u G HP Hn H. unfold block_handler in H. unfold iso_block_handler.
  repeat is_case ltac:(first [is_nested st_nested (fun b => ReadStringTable b []) (fun b => ReadStringTable b []) | is_nested (group_nested pbr) (fun b => ReadPrimitiveGroup pbr b PrimitiveGroup0) (fun b => iso_ReadPrimitiveGroup pbr b PrimitiveGroup0)]).
Qed.

(** C10, whole blocks and groups: what is read from any slice (with or without bytes behind
    it) is what readers that keep to the extent of every nested message would read, unless
    some nested message overruns its own extent with its last field.  Missing: rejection
    in that case (see the refutation), and lengths of 2^63 and more. *)
Lemma pC10_isolated_partial : forall pbr b st r, go_slice b -> no_huge (vis b) ->
  (ReadPrimitiveBlock pbr b st = Ok r -> iso_ReadPrimitiveBlock pbr (exact (vis b)) st = Ok r \/ overrun_in (vis b)) /\
  (forall st r, ReadPrimitiveGroup pbr b st = Ok r -> iso_ReadPrimitiveGroup pbr (exact (vis b)) st = Ok r \/ overrun_in (vis b)).
Proof.
  intros pbr b st r G N. split.
  - intros H. exact (iso_read no_huge overrun_in _ _ b _ _ (block_iso pbr) G N (fun p X => X) H).
  - intros st' r' H. exact (iso_read no_huge overrun_in _ _ b _ _ (group_iso pbr) G N (fun p X => X) H).
Qed.
Lemma pC10_isolated_ex :
  let pbr := mkReader false false false false in
  let good := [26; 4; 8; 5; 66; 0] in
  go_slice (mkslice good [7]) /\ no_huge good /\
  (exists r, ReadPrimitiveGroup pbr (mkslice good [7]) PrimitiveGroup0 = Ok r /\ iso_ReadPrimitiveGroup pbr (exact good) PrimitiveGroup0 = Ok r) /\
  (exists p, iso_ReadPrimitiveGroup pbr (exact [26; 2; 66; 3; 42; 1; 0]) PrimitiveGroup0 = Panic p) /\
  overrun_in [26; 2; 66; 3; 42; 1; 0].
Proof.
  cbv zeta. split; [split; [repeat constructor; unfold is_u8; lia|split; [repeat constructor; unfold is_u8; lia|vm_compute; reflexivity]]|].
  split; [apply no_huge_short; vm_compute; discriminate|].
  split; [eexists; split; vm_compute; reflexivity|]. split; [eexists; vm_compute; reflexivity|].
  apply over_within with (items := [IBytes [26] [2] [66; 3]; IBytes [42] [1] [0]]) (key := [26]) (len := [2]) (p := [66; 3]); [reflexivity|repeat constructor; cbn; lia|left; reflexivity|].
  apply over_here. exists [], [66], [3], []. repeat split; repeat constructor; cbn; lia.
Qed.

(** ** The other direction *)
Definition back {St} (h' h : handler St) : Prop :=
  forall id b b' n n' u, sle b b' -> h' id b n = Ok (n', u) -> h id b' n = Ok (n', u).
Lemma loop_back {St} (h' h : handler St) b b' m n s n2 s2 :
  back h' h -> sle b b' ->
  loop m (msg_cond b) (msg_body h' b) (n, s) = Ok (n2, s2) ->
  loop m (msg_cond b') (msg_body h b') (n, s) = Ok (n2, s2).
Proof.
  intros Hm Hs. revert n s. induction m as [|m IH]; intros n s; cbn [loop];
    change (msg_cond b (n, s)) with (n <? slen b); change (msg_cond b' (n, s)) with (n <? slen b');
    rewrite (sle_slen b b' Hs); destruct (n <? slen b); try discriminate; auto.
  change (msg_body h' b (n, s)) with
    ('(id, n1) <- DecodeVarInt b n ;; '(n1, u) <- h' id b n1 ;; Ok (n1, u s)).
  change (msg_body h b' (n, s)) with
    ('(id, n1) <- DecodeVarInt b' n ;; '(n1, u) <- h id b' n1 ;; Ok (n1, u s)).
  rewrite (DecodeVarInt_sle b b' n Hs).
  destruct (DecodeVarInt b n) as [[id n1]|p|]; cbn [bind]; try discriminate.
  destruct (h' id b n1) as [[n3 u]|p|] eqn:Eh; cbn [bind]; try discriminate.
  rewrite (Hm _ _ _ _ _ _ Hs Eh). cbn [bind]. apply IH.
Qed.
Lemma read_back {St} (h' h : handler St) b b' s r :
  back h' h -> sle b b' -> read_msg h' b s = Ok r -> read_msg h b' s = Ok r.
Proof.
  intros Hm Hs H. unfold read_msg, read_fuel in *.
  destruct (loop _ (msg_cond b) _ _) as [[n2 s2]|p|] eqn:E; cbn [bind] in H; try discriminate.
  rewrite (proj1 Hs). rewrite (loop_back h' h b b' _ _ _ _ _ Hm Hs E). exact H.
Qed.
Lemma mono_eq_read {St} (h : handler St) b b' s r : mono eq h -> sle b b' -> read_msg h b s = Ok r -> read_msg h b' s = Ok r.
Proof. intros M Hs H. destruct (read_msg_mono eq h b b' s s r M Hs eq_refl H) as (r' & E & <-). exact E. Qed.
Lemma sle_vis i o : sle i o -> sle (exact (vis i)) o.
Proof. intros [H _]. split; [exact H|]. exists (ext o). reflexivity. Qed.
Ltac bk_plain lem := match goal with
  | Hs : sle ?b ?b', E : bind (?f ?b ?n) _ = Ok _ |- _ =>
    let E1 := fresh in destruct (f b n) as [[? ?]|?|] eqn:E1; cbn [bind] in E; try discriminate;
    rewrite (lem _ _ _ _ Hs E1); cbn [bind]; exact E end.
Ltac bk_case :=
  match goal with
  | E : Panic _ = Ok _ |- _ => discriminate E
  | E : (if ?c then _ else _) = Ok _ |- _ => destruct c
  | E : bind (DecodeI64 _ _) _ = Ok _ |- _ => bk_plain I64_sle
  | E : bind (DecodeI32 _ _) _ = Ok _ |- _ => bk_plain I32_sle
  | Hs : sle ?b ?b', E : bind (SkipBytes ?b ?n) _ = Ok _ |- _ =>
      unfold SkipBytes in *; rewrite (DecodeVarInt_sle b b' n Hs);
      destruct (DecodeVarInt b n) as [[? ?]|?|]; cbn [bind] in *; try discriminate; exact E
  end.
Ltac bk_raw := match goal with E : Ok _ = Ok _, Ho : sle _ _ |- _ => rewrite (proj1 Ho); exact E end.
Ltac bk_nested lem :=
  match goal with
  | E : bind ?m _ = Ok _ |- _ => let E1 := fresh in
      destruct m eqn:E1; cbn [bind] in E; try discriminate;
      match goal with Ho : sle ?i ?o |- _ => rewrite (lem _ _ _ (sle_vis _ _ Ho) E1); exact E end
  end.
Lemma way_back i o r : sle i o -> ReadWay i Way0 = Ok r -> ReadWay o Way0 = Ok r.
Proof. intros Hs. apply (mono_eq_read way_handler _ _ _ _ way_mono Hs). Qed.
Lemma relation_back i o r : sle i o -> ReadRelation i Relation0 = Ok r -> ReadRelation o Relation0 = Ok r.
Proof. intros Hs. apply (mono_eq_read relation_handler _ _ _ _ relation_mono Hs). Qed.
Lemma dense_back i o r : sle i o -> ReadDenseNodes i DenseNodes0 = Ok r -> ReadDenseNodes o DenseNodes0 = Ok r.
Proof. intros Hs. apply (mono_eq_read dense_handler _ _ _ _ dense_mono Hs). Qed.
Lemma st_back i o r : sle i o -> ReadStringTable i [] = Ok r -> ReadStringTable o [] = Ok r.
Proof. intros Hs. apply (mono_eq_read st_handler _ _ _ _ st_mono Hs). Qed.
Lemma group_back_h pbr : back (iso_group_handler pbr) (group_handler pbr).
Proof.
  intros id b b' n n' u Hs E. unfold group_handler, iso_group_handler in *. repeat bk_case.
  all: mono_bytes.
  all: try bk_raw.
  - bk_nested dense_back.
  - bk_nested way_back.
  - bk_nested relation_back.
Qed.
Lemma group_back pbr i o r : sle i o -> iso_ReadPrimitiveGroup pbr i PrimitiveGroup0 = Ok r -> ReadPrimitiveGroup pbr o PrimitiveGroup0 = Ok r.
Proof. intros Hs. apply (read_back _ _ _ _ _ _ (group_back_h pbr) Hs). Qed.
Lemma block_back_h pbr : back (iso_block_handler pbr) (block_handler pbr).
Proof.
  intros id b b' n n' u Hs E. unfold block_handler, iso_block_handler in *. repeat bk_case.
  all: mono_bytes.
  all: try bk_raw.
  - bk_nested st_back.
  - bk_nested (group_back pbr).
Qed.

(** The other direction: whatever the isolated readers accept is read the same way by the
    code, from any slice with the same bytes. *)
Lemma pC10_isolated_accepted : forall (pbr : PBReader) (v e : list Z),
  (forall st r, iso_ReadPrimitiveBlock pbr (exact v) st = Ok r -> ReadPrimitiveBlock pbr (mkslice v e) st = Ok r) /\
  (forall st r, iso_ReadPrimitiveGroup pbr (exact v) st = Ok r -> ReadPrimitiveGroup pbr (mkslice v e) st = Ok r).
Proof.
  intros pbr v e. assert (Hs : sle (exact v) (mkslice v e)) by (split; [reflexivity|exists e; reflexivity]). split; intros st r H.
  - exact (read_back _ _ _ _ _ _ (block_back_h pbr) Hs H).
  - exact (read_back _ _ _ _ _ _ (group_back_h pbr) Hs H).
Qed.
