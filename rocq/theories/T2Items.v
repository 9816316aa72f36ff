(** * T2Items: a successful read of an exactly sized buffer consumed well-formed items. *)
From Verif Require Import Base BaseLemmas PbModel PbSpec PbProofs PbProofs2 TModel TSpec TProofs TMsg TMsg2 T2Proofs.

Definition body_wf (body : list Z) : Prop :=
  is_varint body \/ exists l p, body = l ++ p /\ is_varint l /\ leb_value l = zlen p.
(** a skipped field that claims more bytes than there are *)
Definition overlong (body : list Z) : Prop :=
  exists l p, body = l ++ p /\ is_varint l /\ zlen p < leb_value l.

Definition at_ (b : slice) (n : Z) (body : list Z) (post : list Z) : Prop :=
  exists pre, vis b = pre ++ body ++ post /\ zlen pre = n.

Definition item_step {St} (P : list Z -> Prop) (strict : bool) (h : handler St) : Prop :=
  forall id b n n' u, go_slice b -> ext b = [] -> P (vis b) -> 0 <= n ->
    h id b n = Ok (n', u) ->
    (exists body post, at_ b n body post /\ n' = n + zlen body /\ body_wf body) \/
    (strict = false /\ (n' < 0 \/ (slen b < n' /\ exists body, at_ b n body [] /\ overlong body))).

Lemma split_unique {A} (p p' q q' : list A) :
  p ++ q = p' ++ q' -> List.length p = List.length p' -> p = p' /\ q = q'.
Proof.
  revert p'. induction p as [|a p IH]; intros [|a' p'] E Hl; simpl in *; try discriminate.
  - auto.
  - injection E as -> E. injection Hl as Hl. destruct (IH _ E Hl). subst. auto.
Qed.

Lemma items_loop {St} P strict (h : handler St) b : item_step P strict h ->
  go_slice b -> ext b = [] -> P (vis b) ->
  forall fuel n st n' st' pre rest, vis b = pre ++ rest -> zlen pre = n ->
  loop fuel (msg_cond b) (msg_body h b) (n, st) = Ok (n', st') ->
  exists items tail, rest = concat (map item_bytes items) ++ tail /\ Forall item_wf items /\
    (tail = [] \/ (strict = false /\ exists k body, tail = k ++ body /\ is_varint k /\ overlong body)).
Proof.
  intros HS G He HP. destruct (go_slice_len b G) as [Hb Hl].
  induction fuel as [|fuel IH]; intros n st n' st' pre rest Hv Hn; cbn [loop];
    change (msg_cond b (n, st)) with (n <? slen b);
    (destruct (Z.ltb_spec n (slen b)) as [Hlt|Hge]; [|intros H; injection H as <- <-;
      exists [], rest; assert (rest = []) by (apply zlen_0; rewrite slen_zlen, Hv, zlen_app in Hge;
        pose proof (zlen_nonneg rest); lia); subst; auto]).
  { discriminate. }
  change (msg_body h b (n, st)) with
    ('(id, n1) <- DecodeVarInt b n ;; '(n1, u) <- h id b n1 ;; Ok (n1, u st)).
  destruct (DecodeVarInt b n) as [[id n1]|p|] eqn:E; cbn [bind]; try discriminate.
  apply DecodeVarInt_split in E; [|assumption..].
  destruct E as (p0 & k & post & F1 & F2 & F3 & F4 & -> & F5).
  destruct (h (leb_value k) b n1) as [[n2 u]|p|] eqn:Eh; cbn [bind]; try discriminate.
  intros Hloop.
  assert (Hp : p0 = pre /\ k ++ post = rest).
  { apply split_unique; [congruence|]. unfold zlen in *. lia. }
  destruct Hp as [-> Hr]. clear F2.
  assert (Hn1 : 0 <= n1) by (pose proof (zlen_nonneg pre); pose proof (zlen_nonneg k); lia).
  destruct (HS _ _ _ _ _ G He HP Hn1 Eh) as [(body & post2 & (p1 & A1 & A2) & A3 & A4)|(Hst & [Hneg|(Hov & body & (p1 & A1 & A2) & A3)])].
  - assert (Hp1 : p1 = pre ++ k /\ body ++ post2 = post).
    { apply split_unique; [rewrite <- app_assoc; congruence|]. unfold zlen in *. rewrite app_length. lia. }
    destruct Hp1 as [-> Hpost]. subst post rest.
    destruct (IH n2 (u st) n' st' (pre ++ k ++ body) post2) as (items & tail & I1 & I2 & I3);
      [rewrite A1, <- !app_assoc; reflexivity|rewrite !zlen_app; lia|exact Hloop|].
    destruct A4 as [A4|(l & p & -> & A4 & A5)].
    + exists (IVarint k body :: items), tail. split; [cbn [map concat item_bytes]; rewrite I1, <- !app_assoc; reflexivity|].
      split; [constructor; [split; assumption|assumption]|exact I3].
    + exists (IBytes k l p :: items), tail. split; [cbn [map concat item_bytes]; rewrite I1, <- !app_assoc; reflexivity|].
      split; [constructor; [repeat split; assumption|assumption]|exact I3].
  - destruct fuel; cbn [loop] in Hloop; change (msg_cond b (n2, u st)) with (n2 <? slen b) in Hloop;
      (destruct (Z.ltb_spec n2 (slen b)); [|unfold slen in *; lia]); [discriminate|].
    change (msg_body h b (n2, u st)) with
      ('(id, n1) <- DecodeVarInt b n2 ;; '(n1, u0) <- h id b n1 ;; Ok (n1, u0 (u st))) in Hloop.
    rewrite DecodeVarInt_neg in Hloop by lia. discriminate.
  - assert (Hp1 : p1 = pre ++ k /\ body ++ [] = post).
    { apply split_unique; [rewrite <- app_assoc; congruence|]. unfold zlen in *. rewrite app_length. lia. }
    destruct Hp1 as [-> Hpost]. rewrite app_nil_r in Hpost. subst post rest.
    exists [], (k ++ body). split; [reflexivity|]. split; [constructor|]. right.
    split; [assumption|]. exists k, body. auto.
Qed.

Lemma items_read {St} P strict (h : handler St) v st r : item_step P strict h ->
  bytes v -> zlen v < 2^63 -> P v -> read_msg h (exact v) st = Ok r ->
  exists items tail, v = concat (map item_bytes items) ++ tail /\ Forall item_wf items /\
    (tail = [] \/ (strict = false /\ exists k body, tail = k ++ body /\ is_varint k /\ overlong body)).
Proof.
  intros HS Hb Hl HP H. unfold read_msg, read_fuel in H.
  destruct (loop _ _ _ _) as [[n' st']|p|] eqn:E; cbn [bind] in H; try discriminate.
  eapply (items_loop P strict h (exact v) HS) with (pre := []); try exact E; try reflexivity; try assumption.
  split; [exact Hb|]. split; [constructor|]. unfold scap, slen, exact. cbn. unfold zlen in Hl. lia.
Qed.

(** steps *)
Lemma at_varint b n v n' :
  go_slice b -> DecodeVarInt b n = Ok (v, n') ->
  exists body post, at_ b n body post /\ n' = n + zlen body /\ is_varint body /\ v = leb_value body.
Proof.
  intros G E. destruct (go_slice_len b G). apply DecodeVarInt_split in E; [|assumption..].
  destruct E as (pre & bs & post & F1 & F2 & F3 & F4 & F5 & F6).
  exists bs, post. split; [exists pre; auto|]. auto.
Qed.
Lemma at_bytes b n o n' :
  go_slice b -> ext b = [] -> DecodeBytes b n = Ok (o, n') ->
  exists body post, at_ b n body post /\ n' = n + zlen body /\ body_wf body.
Proof.
  intros G He E. destruct (go_slice_len b G) as [Hb Hl]. unfold DecodeBytes, ReadBytes in E.
  destruct (DecodeVarInt b n) as [[l n1]|p|] eqn:Ed; cbn [bind] in E; try discriminate.
  pose proof Ed as Ed'. apply DecodeVarInt_ok in Ed'; [|assumption..].
  destruct (sslice b n1 (s64 (n1 + s64 l))) as [o1|p|] eqn:Es; cbn [bind] in E; try discriminate.
  injection E as <- <-. pose proof (sslice_ok _ _ _ _ Es) as (S1 & S2 & S3).
  pose proof (sslice_all _ _ _ _ Es) as (A1 & A2 & A3).
  apply DecodeVarInt_split in Ed; [|assumption..].
  destruct Ed as (pre & lb & post & F1 & F2 & F3 & F4 & F5 & F6).
  assert (Hall : all b = vis b) by (unfold all; rewrite He, app_nil_r; reflexivity).
  assert (Hpost : post = all o1).
  { assert (X : firstn (Z.to_nat n1) (vis b) = pre ++ lb /\ all o1 = post).
    { apply split_unique.
      - rewrite <- app_assoc, <- F1. rewrite <- Hall at 1. rewrite <- A1. exact Hall.
      - rewrite firstn_length, app_length. unfold zlen, slen in *. lia. }
    symmetry; apply X. }
  exists (lb ++ vis o1), (ext o1). split.
  - exists pre. split; [|exact F2]. rewrite F1, Hpost. unfold all. rewrite <- app_assoc. reflexivity.
  - rewrite zlen_app, S3. split; [lia|]. right. exists lb, (vis o1).
    split; [reflexivity|]. split; [exact F3|]. rewrite S3.
    assert (Hu : is_u64 l) by tauto.
    assert (Hscap : scap b < 2^63) by apply G.
    rewrite <- F5. unfold is_u64 in Hu.
    destruct (Z.ltb_spec l (2^63)) as [Hs|Hs].
    + rewrite (s64_id l) by (unfold is_s64; lia).
      destruct (Z.ltb_spec (n1 + l) (2^63)) as [Hs2|Hs2]; [rewrite s64_id by (unfold is_s64; lia); lia|].
      exfalso. rewrite (s64_id l) in S1 by (unfold is_s64; lia).
      assert (s64 (n1 + l) = n1 + l - 2^64).
      { unfold s64. replace ((n1 + l + 2^63) mod 2^64) with (n1 + l + 2^63 - 2^64); [lia|].
        apply Z.mod_unique with (q := 1); lia. }
      lia.
    + exfalso. assert (E64 : s64 l = l - 2^64) by (rewrite s64_alt by (unfold is_u64; lia); destruct (Z.ltb_spec l (2^63)); lia).
      rewrite E64, (s64_id (n1 + _)) in S1 by (unfold is_s64; lia). lia.
Qed.
Lemma at_skip b n n' :
  go_slice b -> no_huge (vis b) -> SkipBytes b n = Ok n' ->
  (exists body post, at_ b n body post /\ n' = n + zlen body /\ body_wf body) \/
  (n' < 0 \/ (slen b < n' /\ exists body, at_ b n body [] /\ overlong body)).
Proof.
  intros G Hh E. destruct (go_slice_len b G) as [Hb Hl]. unfold SkipBytes in E.
  destruct (DecodeVarInt b n) as [[l n1]|p|] eqn:Ed; cbn [bind] in E; try discriminate.
  injection E as <-.
  pose proof Ed as Ed'. apply DecodeVarInt_ok in Ed'; [|assumption..].
  apply DecodeVarInt_split in Ed; [|assumption..].
  destruct Ed as (pre & lb & post & F1 & F2 & F3 & F4 & -> & F6).
  pose proof (Hh pre lb post F1 F3 F4). pose proof (leb_value_nonneg lb).
  rewrite (s64_id (leb_value lb)) by (unfold is_s64; lia).
  destruct (Z.ltb_spec (n1 + leb_value lb) (2^63)) as [Hs|Hs].
  2:{ right; left. unfold s64.
      replace ((n1 + leb_value lb + 2^63) mod 2^64) with (n1 + leb_value lb + 2^63 - 2^64); [lia|].
      apply Z.mod_unique with (q := 1); lia. }
  rewrite s64_id by (unfold is_s64; lia).
  assert (Hlen : slen b = n + zlen lb + zlen post) by (rewrite slen_zlen, F1, !zlen_app; lia).
  destruct (Z.leb_spec (n1 + leb_value lb) (slen b)) as [Hin|Hout].
  - left. exists (lb ++ firstn (Z.to_nat (leb_value lb)) post), (skipn (Z.to_nat (leb_value lb)) post).
    assert (Hf : zlen (firstn (Z.to_nat (leb_value lb)) post) = leb_value lb)
      by (unfold zlen in *; rewrite firstn_length; lia).
    split.
    { exists pre. rewrite <- app_assoc, firstn_skipn. auto. }
    rewrite zlen_app, Hf. split; [lia|]. right.
    eexists. eexists. split; [reflexivity|]. auto.
  - right; right. split; [lia|]. exists (lb ++ post). split; [exists pre; rewrite app_nil_r; auto|].
    exists lb, post. split; [reflexivity|]. split; [assumption|]. lia.
Qed.

Ltac st_varint :=
  match goal with H : bind (DecodeI64 ?b ?n) _ = Ok _ |- _ => unfold DecodeI64 in H | H : bind (DecodeI32 ?b ?n) _ = Ok _ |- _ => unfold DecodeI32 in H end;
  match goal with H : context [DecodeVarInt ?b ?n] |- _ =>
    let E := fresh in
    destruct (DecodeVarInt b n) as [[? ?]|?|] eqn:E; cbn [bind] in H; try discriminate;
    injection H as <- <-; apply at_varint in E; [|assumption];
    destruct E as (? & ? & ? & ? & ? & ?); left; do 2 eexists;
    split; [eassumption|]; split; [assumption|left; assumption] end.
Ltac st_bytes :=
  match goal with H : context [DecodeBytes ?b ?n] |- _ =>
    let E := fresh in
    destruct (DecodeBytes b n) as [[? ?]|?|] eqn:E; cbn [bind] in H; try discriminate;
    apply at_bytes in E; [|assumption|assumption];
    destruct E as (? & ? & ? & ? & ?);
    try match goal with H : context [packed_loop ?c ?f ?i] |- _ => destruct (packed_loop c f i); cbn [bind] in H; try discriminate end;
    injection H as <- <-; left; do 2 eexists; split; [eassumption|]; split; [assumption|assumption] end.
Ltac st_case :=
  match goal with
  | H : Panic _ = Ok _ |- _ => discriminate H
  | H : (if ?c then _ else _) = Ok _ |- _ => destruct c
  | H : bind (DecodeI64 _ _) _ = Ok _ |- _ => st_varint
  | H : bind (DecodeI32 _ _) _ = Ok _ |- _ => st_varint
  | H : bind (DecodeString _ _) _ = Ok _ |- _ => unfold DecodeString in H; st_bytes
  | H : bind (DecodeU32Packed _ _) _ = Ok _ |- _ => unfold DecodeU32Packed, decode_packed in H; st_bytes
  | H : bind (DecodeI32Packed _ _) _ = Ok _ |- _ => unfold DecodeI32Packed, decode_packed in H; st_bytes
  | H : bind (DecodeU64Packed _ _) _ = Ok _ |- _ => unfold DecodeU64Packed, decode_packed in H; st_bytes
  | H : bind (DecodeS64PackedDelta _ _) _ = Ok _ |- _ => unfold DecodeS64PackedDelta, decode_packed in H; st_bytes
  | H : bind (DecodeBytes _ _) _ = Ok _ |- _ => st_bytes
  | H : bind (SkipBytes ?b ?n) _ = Ok _ |- _ =>
      let E := fresh in
      destruct (SkipBytes b n) as [?|?|] eqn:E; cbn [bind] in H; try discriminate;
      injection H as <- <-; apply at_skip in E; [|assumption|assumption];
      destruct E as [E|E]; [left; exact E|right; split; [reflexivity|exact E]]
  end.
Lemma way_items : item_step no_huge false way_handler.
Proof. intros id b n n' u G He HP Hn H. unfold way_handler in H. repeat st_case. Qed.
Lemma relation_items : item_step no_huge false relation_handler.
Proof. intros id b n n' u G He HP Hn H. unfold relation_handler in H. repeat st_case. Qed.
Lemma dense_items : item_step no_huge false dense_handler.
Proof. intros id b n n' u G He HP Hn H. unfold dense_handler in H. repeat st_case. Qed.
Lemma st_items : item_step (fun _ => True) true st_handler.
Proof. intros id b n n' u G He HP Hn H. unfold st_handler in H. repeat st_case. Qed.
Lemma bh_items : item_step (fun _ => True) true bh_handler.
Proof. intros id b n n' u G He HP Hn H. unfold bh_handler in H. repeat st_case. Qed.
Lemma blob_items : item_step (fun _ => True) true blob_handler.
Proof. intros id b n n' u G He HP Hn H. unfold blob_handler in H. repeat st_case. Qed.
