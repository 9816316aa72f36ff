(** * T2Thms: malformed input, termination, hidden capacity, size limit, skipped
    sections (C10, C11, C12, C16, C20). *)
From Verif Require Import Base BaseLemmas PbModel PbSpec PbProofs PbProofs2 TModel TSpec TProofs TMsg TMsg2 T2Proofs T2Items T2Raw.

(** C10 is false of the code: here the nested way declares 2 bytes, inside which a refs
    field claims 3 bytes; the reader takes them from the enclosing group and returns
    refs 21, 20, 20 instead of rejecting the input.  (Read on its own the same way is
    rejected.) *)
Lemma pC10_nested_overread_refuted :
  let way := [66; 3] in
  ReadPrimitiveGroup (mkReader false false false false) (exact (26 :: 2 :: way ++ [42; 1; 0])) PrimitiveGroup0
    = Ok (mkGroup None None (Some [mkWay 0 [] [] [21; 20; 20]]) [] None []) /\
  ReadWay (exact way) Way0 = Panic SliceOutOfRange.
Proof. split; vm_compute; reflexivity. Qed.

(** C10, the part that holds: when nothing lies beyond the buffer (capacity equal to
    length), a string table, blob or blob header that is accepted consists exactly of
    well-formed items, each inner length covering bytes of the buffer; a way, relation or
    dense section consists of well-formed items followed at most by one skipped field
    that claims more bytes than are left.  Missing: readers handed a slice with spare
    capacity, i.e. every nested message (see the refutation), and blobs and groups with
    huge (negative) lengths. *)
Lemma pC10_exact_extent_partial : forall v,
  bytes v -> zlen v < 2^63 ->
  let whole := exists items, v = concat (map item_bytes items) /\ Forall item_wf items in
  let up_to_skip := exists items tail, v = concat (map item_bytes items) ++ tail /\
    Forall item_wf items /\
    (tail = [] \/ exists key len rest, tail = key ++ len ++ rest /\ is_varint key /\
       is_varint len /\ zlen rest < leb_value len) in
  (forall st r, ReadStringTable (exact v) st = Ok r -> whole) /\
  (forall st r, ReadBlob (exact v) st = Ok r -> whole) /\
  (forall r, ReadBlobHeader (exact v) = Ok r -> whole) /\
  (no_huge v -> forall st r, ReadWay (exact v) st = Ok r -> up_to_skip) /\
  (no_huge v -> forall st r, ReadRelation (exact v) st = Ok r -> up_to_skip) /\
  (no_huge v -> forall st r, ReadDenseNodes (exact v) st = Ok r -> up_to_skip).
Proof.
  intros v Hb Hl whole up_to_skip.
  assert (A : forall St (h : handler St) st r, item_step (fun _ => True) true h ->
             read_msg h (exact v) st = Ok r -> whole).
  { intros St h st r Hi H. pose proof (items_read _ _ h v st r Hi Hb Hl I H) as Q. clear H. rename Q into H.
    destruct H as (items & tail & E & W & [->|[? _]]); [|discriminate].
    rewrite app_nil_r in E. exists items. auto. }
  assert (B : forall St (h : handler St) st r, item_step no_huge false h -> no_huge v ->
             read_msg h (exact v) st = Ok r -> up_to_skip).
  { intros St h st r Hi Hn H. pose proof (items_read _ _ h v st r Hi Hb Hl Hn H) as Q. clear H. rename Q into H.
    destruct H as (items & tail & E & W & T). exists items, tail. split; [exact E|]. split; [exact W|].
    destruct T as [T|(_ & k & body & T1 & T2 & l & p & T3 & T4 & T5)]; [left; exact T|].
    right. exists k, l, p. subst. auto. }
  repeat split; intros.
  - eapply A; [apply st_items|eassumption].
  - eapply A; [apply blob_items|eassumption].
  - eapply A; [apply bh_items|eassumption].
  - eapply B; [apply way_items|assumption|eassumption].
  - eapply B; [apply relation_items|assumption|eassumption].
  - eapply B; [apply dense_items|assumption|eassumption].
Qed.

Lemma leb_bound bs : is_varint bs -> leb_value bs < 128 ^ Z.of_nat (List.length bs).
Proof.
  induction bs as [|b r IH]; [contradiction|]. intros H. cbn [leb_value].
  pose proof (Z.mod_pos_bound b 128 ltac:(lia)).
  destruct r as [|b2 r].
  - cbn. change (Z.of_nat 1) with 1. lia.
  - destruct H as [_ H]. specialize (IH H). replace (Z.of_nat (List.length (b :: b2 :: r))) with
      (Z.succ (Z.of_nat (List.length (b2 :: r)))) by (cbn [List.length]; lia).
    rewrite Z.pow_succ_r by lia. lia.
Qed.
Lemma no_huge_short l : zlen l <= 9 -> no_huge l.
Proof.
  intros H pre bs post -> V _. rewrite !zlen_app in H.
  pose proof (zlen_nonneg pre). pose proof (zlen_nonneg post).
  pose proof (leb_bound bs V). assert (128 ^ Z.of_nat (List.length bs) <= 128 ^ 9)
    by (apply Z.pow_le_mono_r; unfold zlen in *; lia).
  change (128 ^ 9) with (2 ^ 63) in *. lia.
Qed.
Lemma pC10_ex :
  (exists r, ReadStringTable (exact [10; 1; 65]) [] = Ok r) /\
  no_huge [8; 5; 34; 1; 7] /\ ReadWay (exact [8; 5; 34; 1; 7]) Way0 = Ok (mkWay 5 [] [] []) /\
  ReadWay (exact [8; 5; 34; 9; 7]) Way0 = Ok (mkWay 5 [] [] []).
Proof.
  split; [eexists; reflexivity|]. split; [apply no_huge_short; vm_compute; discriminate|].
  split; reflexivity.
Qed.

(** The reader loop is modelled with as much fuel as there are bytes.  That is
    adequate: if it does not suffice, no amount of iterations does, i.e. the Go loop
    runs forever.  (For every reader of the package: [h] is the reader's switch.) *)
Lemma pC11_fuel_adequate : forall St (h : handler St) b st,
  bytes (vis b) -> slen b < 2^63 ->
  read_msg h b st = Diverge -> forall fuel, read_fuel fuel h b st = Diverge.
Proof. intros. apply read_msg_adequate; assumption. Qed.

(** C11 is false of the code: a skipped way field with length -11 moves the cursor back
    to the start of the buffer, forever.  The same input hangs the relation reader;
    analogous ones the dense section and group readers. *)
Definition minus_eleven : list Z := [245; 255; 255; 255; 255; 255; 255; 255; 255; 1].
Lemma pC11_skip_loops_refuted :
  (forall fuel w, read_fuel fuel way_handler (exact (34 :: minus_eleven)) w = Diverge) /\
  (forall fuel r, read_fuel fuel relation_handler (exact (34 :: minus_eleven)) r = Diverge) /\
  (forall fuel d, read_fuel fuel dense_handler (exact (42 :: minus_eleven)) d = Diverge) /\
  (forall pbr fuel g, read_fuel fuel (group_handler pbr) (exact (42 :: minus_eleven)) g = Diverge).
Proof.
  assert (B : forall l, Forall is_u8 l -> zlen l < 2^63 -> bytes (vis (exact l)) /\ slen (exact l) < 2^63)
    by (intros; split; assumption).
  repeat split; intros; apply pC11_fuel_adequate; try (apply B);
    try (repeat constructor; vm_compute; repeat split; discriminate || reflexivity);
    try reflexivity.
Qed.

(** C11, the part that holds: blob, blob header and string table readers return or panic
    on every input; the others do so when no varint of the buffer (or of the memory up
    to its capacity) has a value of 2^63 or more, i.e. when no length is negative. *)
Lemma pC11_readers_terminate_partial : forall b,
  go_slice b ->
  (forall st, ReadBlob b st <> Diverge) /\
  ReadBlobHeader b <> Diverge /\
  (forall st, ReadStringTable b st <> Diverge) /\
  (no_huge (vis b ++ ext b) ->
    (forall st, ReadWay b st <> Diverge) /\
    (forall st, ReadRelation b st <> Diverge) /\
    (forall st, ReadDenseNodes b st <> Diverge) /\
    (forall pbr st, ReadPrimitiveGroup pbr b st <> Diverge) /\
    (forall pbr st, ReadPrimitiveBlock pbr b st <> Diverge)).
Proof.
  intros b G. repeat split; intros.
  - eapply read_msg_nodiv; [apply blob_adv|assumption|exact I].
  - eapply read_msg_nodiv; [apply bh_adv|assumption|exact I].
  - eapply read_msg_nodiv; [apply st_adv|assumption|exact I].
  - eapply read_msg_nodiv; [apply way_adv|assumption|assumption].
  - eapply read_msg_nodiv; [apply relation_adv|assumption|assumption].
  - eapply read_msg_nodiv; [apply dense_adv|assumption|assumption].
  - eapply read_msg_nodiv; [apply group_adv|assumption|assumption].
  - eapply read_msg_nodiv; [apply block_adv|assumption|assumption].
Qed.
Lemma pC11_ex : go_slice (mkslice [34; 1; 7; 8; 9] [200]) /\ no_huge ([34; 1; 7; 8; 9] ++ [200]).
Proof.
  split; [|apply no_huge_short; vm_compute; discriminate].
  split; [|split]; [| |vm_compute; reflexivity]; repeat constructor; vm_compute; repeat split; discriminate || reflexivity.
Qed.

(** C12. Whatever lies beyond the end.  A blob's [Raw] keeps the memory after it as
    its own spare capacity, so for blobs the payload bytes, not that capacity, are
    compared. *)
Definition same_blob_bytes (x y : Blob) : Prop :=
  match blob_Raw x, blob_Raw y with
  | Some s, Some s' => vis s' = vis s
  | None, None => True
  | _, _ => False
  end /\ blob_RawSize y = blob_RawSize x /\ blob_ZLibData y = blob_ZLibData x.
Lemma pC12_beyond_end_irrelevant : forall v e,
  (forall st r, ReadWay (exact v) st = Ok r -> ReadWay (mkslice v e) st = Ok r) /\
  (forall st r, ReadRelation (exact v) st = Ok r -> ReadRelation (mkslice v e) st = Ok r) /\
  (forall st r, ReadDenseNodes (exact v) st = Ok r -> ReadDenseNodes (mkslice v e) st = Ok r) /\
  (forall st r, ReadStringTable (exact v) st = Ok r -> ReadStringTable (mkslice v e) st = Ok r) /\
  (forall r, ReadBlobHeader (exact v) = Ok r -> ReadBlobHeader (mkslice v e) = Ok r) /\
  (forall pbr st r, ReadPrimitiveGroup pbr (exact v) st = Ok r ->
     ReadPrimitiveGroup pbr (mkslice v e) st = Ok r) /\
  (forall pbr st r, ReadPrimitiveBlock pbr (exact v) st = Ok r ->
     ReadPrimitiveBlock pbr (mkslice v e) st = Ok r) /\
  (forall r, ReadBlob (exact v) Blob0 = Ok r ->
     exists r', ReadBlob (mkslice v e) Blob0 = Ok r' /\ same_blob_bytes r r').
Proof.
  intros v e.
  assert (S : sle (exact v) (mkslice v e)) by (split; [reflexivity|exists e; reflexivity]).
  assert (A : forall St (h : handler St) st r, mono eq h ->
    read_msg h (exact v) st = Ok r -> read_msg h (mkslice v e) st = Ok r).
  { intros St h st r M H. destruct (read_msg_mono eq h _ _ st st r M S eq_refl H) as (r' & H' & ->). exact H'. }
  repeat split; intros.
  - eapply A; [apply way_mono|assumption].
  - eapply A; [apply relation_mono|assumption].
  - eapply A; [apply dense_mono|assumption].
  - eapply A; [apply st_mono|assumption].
  - eapply A; [apply bh_mono|assumption].
  - eapply A; [apply group_mono|assumption].
  - eapply A; [apply block_mono|assumption].
  - destruct (read_msg_mono blob_rel blob_handler _ _ Blob0 Blob0 r blob_mono S) with (2 := H) as (r' & H' & R).
    + repeat split.
    + exists r'. split; [exact H'|].
      destruct R as (R1 & R2 & R3 & _). split; [|split; assumption].
      destruct (blob_Raw r), (blob_Raw r'); try contradiction; [|exact I]. apply R1.
Qed.
Lemma pC12_ex : ReadWay (exact [8; 5; 66; 1; 6]) Way0 = Ok (mkWay 5 [] [] [3]) /\
  ReadBlob (exact [10; 1; 7]) Blob0 <> Panic SliceOutOfRange.
Proof. split; [reflexivity|vm_compute; discriminate]. Qed.

(** C16 is false of the code: ways whose refs are locations (or any 64-bit values) need
    up to 10 bytes per ref and overflow the 16 KiB field. *)
Definition alternating (n : nat) : list Z := concat (repeat [-2^62; 2^62 - 1] n).
Lemma pC16_way_too_large_refuted :
  let w := mkWay 1 [] [] (alternating 1000) in
  way_typed w /\ zlen (way_Refs w) = 2000 /\
  exists p, PrimitiveGroup_Write (mkGroup None None (Some [w]) [] None []) [] = Panic p.
Proof.
  cbv zeta. split; [|split].
  - split; [split; vm_compute; discriminate || reflexivity|].
    split; [constructor|]. split; [constructor|]. unfold way_Refs, alternating.
    generalize 1000%nat. induction n; [constructor|]. cbn [repeat concat app].
    repeat constructor; try assumption; vm_compute; discriminate.
  - vm_compute. reflexivity.
  - eexists. vm_compute. reflexivity.
Qed.

Lemma venc_small k v : 0 <= v < 128 ^ Z.of_nat (S k) -> (k <= 8)%nat -> zlen (venc v) <= Z.of_nat (S k).
Proof.
  intros H Hk. assert (128 ^ Z.of_nat (S k) <= 128 ^ 9) by (apply Z.pow_le_mono_r; lia).
  change (128 ^ 9) with (2 ^ 63) in *.
  destruct (leb_fixed_spec k v H) as [A B].
  assert (U : is_u64 v) by (unfold is_u64; lia).
  pose proof (venc_minimal v _ U A B) as L. rewrite leb_fixed_length in L. unfold zlen. lia.
Qed.
Lemma vencs_small k raws : (k <= 8)%nat -> Forall (fun v => 0 <= v < 128 ^ Z.of_nat (S k)) raws ->
  zlen (vencs raws) <= Z.of_nat (S k) * zlen raws.
Proof.
  intros Hk. induction 1 as [|x l Hx Hl IH]; [change (zlen (vencs [])) with 0; change (zlen (@nil Z)) with 0; lia|]. unfold vencs in *. cbn [map concat].
  rewrite zlen_cons, zlen_app. pose proof (venc_small k x Hx Hk). lia.
Qed.

(** C16, the part that holds: node ids below 2^34 (today they are below 2^34), at most 1000
    tags, string table indexes below 2^21.  Missing: refs that are not small ids, see the
    refutation. *)
Definition way_small (w : Way) : Prop :=
  zlen (way_Refs w) <= 2000 /\ Forall (fun r => 0 <= r < 2^34) (way_Refs w) /\
  zlen (way_Keys w) <= 1000 /\ Forall (fun k => 0 <= k < 2^21) (way_Keys w) /\
  zlen (way_Vals w) <= 1000 /\ Forall (fun k => 0 <= k < 2^21) (way_Vals w).

Lemma deltas_small l : Forall (fun r => 0 <= r < 2^34) l -> forall last, 0 <= last < 2^34 ->
  Forall (fun v => 0 <= v < 128 ^ Z.of_nat 5) (map EncodeZigZag (deltas s64 last l)).
Proof.
  induction 1 as [|x l Hx Hl IH]; intros last Hlast; [constructor|]. cbn [deltas map].
  constructor; [|apply IH; assumption].
  change (128 ^ Z.of_nat 5) with (2^35).
  rewrite EncodeZigZag_spec by apply s64_range. rewrite s64_id by (unfold is_s64; lia).
  unfold zigzag. destruct (Z.ltb_spec (x - last) 0); lia.
Qed.
Lemma deltas_len w l : forall last, zlen (deltas w last l) = zlen l.
Proof. induction l; intros last; [reflexivity|]. cbn [deltas]. rewrite !zlen_cons, IHl. reflexivity. Qed.
Lemma keys_small l : zlen l <= 1000 -> Forall (fun k => 0 <= k < 2^21) l -> zlen (p_u64ext l) <= 3000.
Proof.
  intros Hl H. unfold p_u64ext. pose proof (vencs_small 2 (map u64 l) ltac:(lia)) as L.
  rewrite zlen_map in L.
  enough (zlen (vencs (map u64 l)) <= Z.of_nat 3 * zlen l) by lia. apply L.
  apply Forall_map. eapply Forall_impl; [|exact H]. cbn. intros a Ha. change (128 ^ Z.of_nat 3) with (2^21).
  rewrite u64_id by (unfold is_u64; lia). lia.
Qed.
Lemma pC16_way_within_limit_partial : forall ws buf,
  Forall way_small ws ->
  exists out, PrimitiveGroup_Write (mkGroup None None (Some ws) [] None []) buf = Ok out.
Proof.
  intros ws buf H. eexists. apply PrimitiveGroup_Write_app. split; [|reflexivity].
  unfold group_fits. cbn. split; [discriminate|]. split; [|discriminate].
  intros ws' E. injection E as <-. eapply Forall_impl; [|exact H]. clear.
  intros w (R1 & R2 & K1 & K2 & V1 & V2).
  pose proof (keys_small _ K1 K2). pose proof (keys_small _ V1 V2).
  assert (L : zlen (p_delta (way_Refs w)) <= 10000).
  { unfold p_delta. pose proof (vencs_small 4 _ ltac:(lia) (deltas_small _ R2 0 ltac:(lia))) as L.
    rewrite zlen_map, deltas_len in L. lia. }
  split; [unfold way_fits; lia|].
  unfold way_enc, fixed_field. rewrite !zlen_app.
  assert (F : forall n v, zlen (leb_fixed n v) = Z.of_nat n) by (intros; unfold zlen; rewrite leb_fixed_length; reflexivity).
  rewrite !F. pose proof (venc_zlen (u64 (way_ID w)) (u64_range _)).
  change (zlen (venc (MakeIdType wayId PbVarInt))) with 1.
  change (zlen (venc (MakeIdType wayKeys PbFixedBytes))) with 1.
  change (zlen (venc (MakeIdType wayVals PbFixedBytes))) with 1.
  change (zlen (venc (MakeIdType wayRefs PbFixedBytes))) with 1.
  lia.
Qed.
Lemma pC16_ex : way_small (mkWay 7 [1; 2^21 - 1] [0; 5] (repeat (2^34 - 1) 2000)).
Proof.
  unfold way_small. cbn [way_Refs way_Keys way_Vals]. split; [vm_compute; discriminate|].
  split; [|repeat split; repeat constructor; vm_compute; discriminate].
  generalize 2000%nat. induction n; constructor; [lia|assumption].
Qed.

(** C20, groups.  [fs] is any sequence of length-delimited fields, written with any valid
    length varint; what is written is again such a sequence, and the skipped sections
    in it carry the same bytes in the same order. *)
Lemma pC20_group_sections_preserved : forall pbr fs e g out,
  fields_wf fs -> bytes (fields_bytes fs) -> zlen (fields_bytes fs) < 2^63 ->
  ReadPrimitiveGroup pbr (mkslice (fields_bytes fs) e) PrimitiveGroup0 = Ok g ->
  PrimitiveGroup_Write g [] = Ok out -> zlen out < 2^63 ->
  exists fs', out = fields_bytes fs' /\ fields_wf fs' /\ raw_preserved pbr fs fs'.
Proof. exact group_raw. Qed.

(** C20, blocks: the string table section when skipped, and the groups in order, each
    with its skipped sections preserved. *)
Lemma pC20_block_sections_preserved : forall pbr l e p out,
  Forall bitem_wf l -> bytes (block_bytes_of l) -> zlen (block_bytes_of l) < 2^63 ->
  ReadPrimitiveBlock pbr (mkslice (block_bytes_of l) e) PrimitiveBlock0 = Ok p ->
  PrimitiveBlock_Write p [] = Ok out -> zlen out < 2^63 ->
  exists l', out = block_bytes_of l' /\ Forall bitem_wf l' /\
    (SkipStringTable pbr = true -> last_payload 1 (bfields l') = last_payload 1 (bfields l)) /\
    Forall2 (fun q q' => forall fs, q = fields_bytes fs -> fields_wf fs ->
       exists fs', q' = fields_bytes fs' /\ fields_wf fs' /\ raw_preserved pbr fs fs')
      (payloads 2 (bfields l)) (payloads 2 (bfields l')).
Proof. exact block_raw. Qed.

(** A skipped dense section that is not even parseable (its bytes are 255 255) survives,
    while the way next to it is parsed. *)
Lemma pC20_ex :
  let pbr := mkReader true true false false in
  let g := fields_bytes [mkField 2 [2] [255; 255]; mkField 3 [2] [8; 5]] in
  let l := [BF (mkField 1 [131; 0] [10; 1; 65]); BF (mkField 2 [8] g); BV 17 [10]] in
  Forall bitem_wf l /\
  exists p out, ReadPrimitiveBlock pbr (exact (block_bytes_of l)) PrimitiveBlock0 = Ok p /\
    PrimitiveBlock_Write p [] = Ok out /\ zlen out < 2^63.
Proof.
  cbv zeta. split.
  - repeat (apply Forall_cons; [|]); try apply Forall_nil;
      unfold bitem_wf, field_wf; cbn; unfold zlen; cbn; lia.
  - eexists. eexists. split; [vm_compute; reflexivity|]. split; [vm_compute; reflexivity|].
    vm_compute. reflexivity.
Qed.
