(** * WsProofs: reading and writing messages of the OSM PBF schema. *)
From Verif Require Import Base BaseLemmas PbModel PbSpec PbProofs PbProofs2 PbThms TModel TSpec TProofs TMsg TMsg2 T2Raw WsSpec.

(** ** Varints *)
Lemma leb_nonneg bs : 0 <= leb_value bs.
Proof. induction bs as [|b r IH]; cbn [leb_value]; [lia|]. pose proof (Z.mod_pos_bound b 128). lia. Qed.
Lemma vof_u64 v bs : varint_of v bs -> is_u64 v.
Proof. intros (_ & _ & <- & H). pose proof (leb_nonneg bs). split; assumption. Qed.
Lemma vof_self v bs : varint_of v bs -> varint_of (leb_value bs) bs.
Proof. intros (A & B & <- & D). repeat split; assumption. Qed.
Lemma vof_bytes v bs : varint_of v bs -> bytes bs.
Proof. intros (A & _). apply is_varint_bytes, A. Qed.
Lemma vof_len v bs : varint_of v bs -> 1 <= zlen bs.
Proof. intros (A & _). destruct bs; [contradiction|]. rewrite zlen_cons. pose proof (zlen_nonneg bs). lia. Qed.
Lemma reads_vof u bs : varint_of u bs -> reads DecodeVarInt bs u.
Proof.
  intros (A & B & <- & D) b pre post Hv Hb Hl. apply (decode_at b pre bs post); try assumption. rewrite <- Hv. assumption.
Qed.
Lemma vof_venc v : is_u64 v -> varint_of v (venc v).
Proof.
  intros H. split; [apply venc_varint, H|]. split; [apply venc_length, H|]. split; [apply venc_value, H|]. apply H.
Qed.
Lemma vof_lenprefix p L : zlen p < 2^64 -> len_prefix L p -> varint_of (zlen p) L.
Proof. intros H (A & B & C). repeat split; assumption. Qed.
Lemma lenprefix_vof p L : varint_of (zlen p) L -> len_prefix L p.
Proof. intros (A & B & C & _). repeat split; assumption. Qed.

(** the varints in a list of bytes *)
Fixpoint unpack (acc m : Z) (p : list Z) : list Z :=
  match p with
  | [] => []
  | b :: r => if b <? 128 then (acc + m * (b mod 128)) :: unpack 0 1 r else unpack (acc + m * (b mod 128)) (m * 128) r
  end.
Lemma unpack_varint bs : forall acc m r, is_varint bs -> unpack acc m (bs ++ r) = (acc + m * leb_value bs) :: unpack 0 1 r.
Proof.
  induction bs as [|b bs IH]; intros acc m r H; [contradiction|]. cbn [app unpack leb_value].
  destruct bs as [|b2 bs].
  - cbn [is_varint] in H. destruct (Z.ltb_spec b 128); [|lia]. cbn [app leb_value]. f_equal. ring.
  - destruct H as [H1 H2]. destruct (Z.ltb_spec b 128); [lia|]. rewrite IH by exact H2. f_equal. ring.
Qed.
Lemma unpack_seq us p : sequence_of us p -> unpack 0 1 p = us.
Proof.
  intros (vs & -> & F). induction F as [|u v us vs (A & _ & C & _) F IH]; [reflexivity|].
  cbn [concat]. rewrite unpack_varint, IH by exact A. f_equal. lia.
Qed.
Lemma seq_bytes us p : sequence_of us p -> bytes p.
Proof.
  intros (vs & -> & F). induction F as [|u v us vs H F IH]; [constructor|]. cbn [concat]. apply bytes_app. split; [eapply vof_bytes; exact H|exact IH].
Qed.

(** ** Packed fields *)
Lemma packed_any checked f innerBuf : forall vs us dn acc out fuel,
  Forall2 varint_of us vs -> vis innerBuf = dn ++ concat vs -> slen innerBuf < 2^63 -> bytes (vis innerBuf) ->
  zlen out <= zlen dn -> (List.length (concat vs) < fuel)%nat ->
  exists acc' n', loop fuel (packed_cond innerBuf) (packed_body checked f innerBuf) (zlen dn, acc, out) = Ok (n', acc', out ++ outputs f acc us).
Proof.
  induction vs as [|v vs IH]; intros us dn acc out fuel F Hv Hl Hb Ho Hf; inversion F as [|u ? us' ? Hu F']; subst.
  - destruct fuel; [lia|]. cbn [loop]. unfold packed_cond at 1. cbn [concat] in Hv. rewrite app_nil_r in Hv.
    rewrite slen_zlen, Hv. destruct (Z.ltb_spec (zlen dn) (zlen dn)); [lia|]. cbn [outputs]. rewrite app_nil_r. eauto.
  - destruct fuel as [|fuel]; [lia|]. cbn [concat] in *. pose proof (vof_len _ _ Hu) as L1.
    assert (Hlen : slen innerBuf = zlen dn + (zlen v + zlen (concat vs))) by (rewrite slen_zlen, Hv, !zlen_app; reflexivity).
    pose proof (zlen_nonneg (concat vs)).
    cbn [loop]. unfold packed_cond at 1. destruct (Z.ltb_spec (zlen dn) (slen innerBuf)); [|lia].
    unfold packed_body at 1. rewrite (reads_vof _ _ Hu innerBuf dn (concat vs)) by assumption.
    cbn [bind outputs]. destruct (f acc u) as [acc' x]. destruct (Z.ltb_spec (zlen out) (slen innerBuf)); [|lia].
    rewrite andb_false_r. cbn [bind]. rewrite <- zlen_app.
    destruct (IH us' (dn ++ v) acc' (out ++ [x]) fuel) as (a2 & n2 & E); try assumption.
    + rewrite <- app_assoc. exact Hv.
    + rewrite !zlen_app. change (zlen [x]) with 1. lia.
    + rewrite app_length in Hf. unfold zlen in L1. lia.
    + rewrite E, <- app_assoc. eauto.
Qed.
Lemma reads_packed_any checked f us p L : sequence_of us p -> len_prefix L p ->
  reads (decode_packed checked f) (L ++ p) (outputs f 0 us).
Proof.
  intros S HL b pre post Hv Hb Hlb. pose proof (seq_bytes _ _ S) as Bp. destruct S as (vs & -> & F). unfold decode_packed.
  rewrite (DecodeBytes_at b pre L (concat vs) post) by assumption. cbn [bind]. unfold packed_loop.
  set (ib := mkslice (concat vs) (post ++ ext b)).
  assert (Hl : slen ib < 2^63).
  { assert (slen b = zlen pre + (zlen L + zlen (concat vs) + zlen post)) by (rewrite slen_zlen, Hv, !zlen_app; lia).
    pose proof (zlen_nonneg pre). pose proof (zlen_nonneg L). pose proof (zlen_nonneg post). rewrite slen_zlen. cbn [ib vis]. lia. }
  destruct (packed_any checked f ib vs us [] 0 [] (S (List.length (vis ib))) F) as (a & n & E); try assumption; try reflexivity; try (cbn; lia).
  change (zlen []) with 0 in E. rewrite E. reflexivity.
Qed.
Lemma outputs_map1 g us : outputs (fun acc raw => (acc, g raw)) 0 us = map g us.
Proof. generalize 0. induction us as [|u us IH]; intros a; [reflexivity|]. cbn [outputs map]. rewrite IH. reflexivity. Qed.
Lemma outputs_sums us : forall a, outputs (fun last raw => let last := s64 (last + DecodeZigZag raw) in (last, last)) a us = sums a (map DecodeZigZag us).
Proof. induction us as [|u us IH]; intros a; [reflexivity|]. cbn [outputs map sums]. cbn zeta. rewrite IH. reflexivity. Qed.

Definition v_u32 (p : list Z) := map u32 (unpack 0 1 p).
Definition v_i32 (p : list Z) := map s32 (unpack 0 1 p).
Definition v_u64 (p : list Z) := unpack 0 1 p.
Definition v_delta (p : list Z) := sums 0 (map DecodeZigZag (unpack 0 1 p)).
Definition seq_ok (p : list Z) : Prop := exists us, sequence_of us p.
Lemma reads_u32 p L : seq_ok p -> len_prefix L p -> reads DecodeU32Packed (L ++ p) (v_u32 p).
Proof. intros (us & S) HL. unfold v_u32. rewrite (unpack_seq _ _ S), <- outputs_map1. apply reads_packed_any; assumption. Qed.
Lemma reads_i32 p L : seq_ok p -> len_prefix L p -> reads DecodeI32Packed (L ++ p) (v_i32 p).
Proof. intros (us & S) HL. unfold v_i32. rewrite (unpack_seq _ _ S), <- outputs_map1. apply reads_packed_any; assumption. Qed.
Lemma reads_u64 p L : seq_ok p -> len_prefix L p -> reads DecodeU64Packed (L ++ p) (v_u64 p).
Proof.
  intros (us & S) HL. unfold v_u64. rewrite (unpack_seq _ _ S).
  replace us with (outputs (fun acc raw => (acc, raw)) 0 us) at 1 by (rewrite (outputs_map1 (fun x => x)); apply map_id).
  apply reads_packed_any; assumption.
Qed.
Lemma reads_delta p L : seq_ok p -> len_prefix L p -> reads DecodeS64PackedDelta (L ++ p) (v_delta p).
Proof. intros (us & S) HL. unfold v_delta. rewrite (unpack_seq _ _ S), <- outputs_sums. apply reads_packed_any; assumption. Qed.

(** ** Fields *)
Lemma consumes_key {St} (h : handler St) kv key body U : varint_of kv key ->
  (forall b pre post, vis b = pre ++ body ++ post -> bytes (vis b) -> slen b < 2^63 ->
     h kv b (zlen pre) = Ok (zlen pre + zlen body, U (post ++ ext b))) ->
  consumes h (key ++ body) U.
Proof.
  intros Hk H b pre post st fuel Hv Hb Hl Hf. pose proof (vof_len _ _ Hk) as Hz.
  assert (Hlen : slen b = zlen pre + (zlen key + zlen body + zlen post)) by (rewrite slen_zlen, Hv, !zlen_app; lia).
  pose proof (zlen_nonneg body); pose proof (zlen_nonneg post).
  destruct fuel as [|fuel]; [lia|]. exists fuel. split.
  { rewrite !app_length in Hf. unfold zlen in Hz. lia. }
  cbn [loop]. unfold msg_cond at 1. cbn [fst]. destruct (Z.ltb_spec (zlen pre) (slen b)); [|lia].
  unfold msg_body at 1.
  rewrite (reads_vof _ _ Hk b pre (body ++ post)); [|rewrite Hv, <- app_assoc; reflexivity|assumption..].
  cbn [bind]. rewrite <- zlen_app.
  rewrite (H b (pre ++ key) post); [|rewrite Hv, <- !app_assoc; reflexivity|assumption..].
  cbn [bind]. rewrite <- zlen_app, <- app_assoc. reflexivity.
Qed.
Lemma field_reads {St A} (h : handler St) kv key (f : slice -> Z -> res (A * Z)) g body a : varint_of kv key ->
  (forall b n, h kv b n = ('(v, n) <- f b n ;; Ok (n, g v))) -> reads f body a -> consumes h (key ++ body) (fun _ => g a).
Proof. intros Hk Hh R. apply (consumes_key h kv); [exact Hk|]. intros b pre post Hv Hb Hl. rewrite Hh, (R b pre post) by assumption. reflexivity. Qed.
Lemma field_skip {St} (h : handler St) kv key L p : varint_of kv key -> len_prefix L p ->
  (forall b n, h kv b n = (n <- SkipBytes b n ;; Ok (n, fun st => st))) -> consumes h (key ++ L ++ p) (fun _ st => st).
Proof. intros Hk HL Hh. apply (consumes_key h kv _ _ (fun _ st => st)); [exact Hk|]. intros b pre post Hv Hb Hl. rewrite Hh, (SkipBytes_at b pre L p post) by assumption. reflexivity. Qed.
Lemma field_nested {St A} (h : handler St) kv key (rd : slice -> res A) g L p a : varint_of kv key -> len_prefix L p ->
  (forall b k, h kv b k = ('(i, k) <- DecodeBytes b k ;; v <- rd i ;; Ok (k, g v))) ->
  (forall e, rd (mkslice p e) = Ok a) -> consumes h (key ++ L ++ p) (fun _ => g a).
Proof.
  intros Hk HL Hh Hr. apply (consumes_key h kv); [exact Hk|]. intros b pre post Hv Hb Hl.
  rewrite Hh, (DecodeBytes_at b pre L p post) by assumption. cbn [bind]. rewrite Hr. reflexivity.
Qed.
Lemma field_raw {St} (h : handler St) kv key (g : list Z -> St -> St) L p : varint_of kv key -> len_prefix L p ->
  (forall b k, h kv b k = ('(i, k) <- DecodeBytes b k ;; Ok (k, g (vis i)))) -> consumes h (key ++ L ++ p) (fun _ => g p).
Proof.
  intros Hk HL Hh. apply (consumes_key h kv); [exact Hk|]. intros b pre post Hv Hb Hl.
  rewrite Hh, (DecodeBytes_at b pre L p post) by assumption. reflexivity.
Qed.
Lemma reads_i64_any u bs : varint_of u bs -> reads DecodeI64 bs (s64 (leb_value bs)).
Proof. intros H b pre post Hv Hb Hl. unfold DecodeI64. rewrite (reads_vof _ _ (vof_self _ _ H) b pre post) by assumption. reflexivity. Qed.
Lemma reads_i32_any u bs : varint_of u bs -> reads DecodeI32 bs (s32 (leb_value bs)).
Proof. intros H b pre post Hv Hb Hl. unfold DecodeI32. rewrite (reads_vof _ _ (vof_self _ _ H) b pre post) by assumption. reflexivity. Qed.

(** ** Messages *)
Lemma ok_bytes f : pb_ok f -> bytes (pb_wire f).
Proof.
  destruct f; cbn [pb_ok pb_wire]; intros H; [destruct H as (_ & A & B)|destruct H as (_ & A & B & C)]; rewrite ?bytes_app; repeat split; try (eapply vof_bytes; eassumption). exact C.
Qed.
Lemma message_bytes p fs : message p fs -> bytes p.
Proof. intros [-> F]. induction F; [constructor|]. cbn [map concat]. apply bytes_app. split; [apply ok_bytes; assumption|assumption]. Qed.
Lemma chunk_in n p fs : In p (chunks n fs) -> exists key len, In (PB n key len p) fs.
Proof.
  unfold chunks. intros H. apply in_concat in H as (l & Hl & Hp). apply in_map_iff in Hl as (f & <- & Hf).
  destruct f as [m k v|m k l q]; [destruct Hp|]. destruct (Z.eqb_spec m n); [|destruct Hp]. destruct Hp as [<-|[]]. subst. eauto.
Qed.
Lemma chunk_len n p q fs : message q fs -> In p (chunks n fs) -> zlen p <= zlen q.
Proof.
  intros [-> _] H. apply chunk_in in H as (k & l & H). apply in_split in H as (a & b & ->). rewrite map_app, concat_app. cbn [map concat pb_wire].
  rewrite !zlen_app. pose proof (zlen_nonneg (concat (map pb_wire a))). pose proof (zlen_nonneg (concat (map pb_wire b))). pose proof (zlen_nonneg k). pose proof (zlen_nonneg l). lia.
Qed.
Lemma read_fold {St} (h : handler St) (upd : pbfield -> St -> St) p fs e st : message p fs -> zlen p < 2^63 ->
  (forall f, In f fs -> pb_ok f -> consumes h (pb_wire f) (fun _ => upd f)) ->
  read_msg h (mkslice p e) st = Ok (fold_left (fun st f => upd f st) fs st).
Proof.
  intros M Hl H. pose proof (message_bytes _ _ M) as B. destruct M as [-> F].
  apply (read_msg_consumes h _ e st (fun _ st => fold_left (fun st f => upd f st) fs st)); [|exact B|exact Hl].
  apply consumes_concat. intros f Hf. apply H; [exact Hf|]. rewrite Forall_forall in F. apply F, Hf.
Qed.

Lemma last_app {A} (a b : list A) : last_of (a ++ b) = match last_of b with Some x => Some x | None => last_of a end.
Proof. unfold last_of. rewrite rev_app_distr. destruct (rev b); reflexivity. Qed.
Lemma last_sing {A} (a : A) : last_of [a] = Some a.
Proof. reflexivity. Qed.
Lemma fold_last {St X Y} (upd : pbfield -> St -> St) (pi : St -> X) (src : pbfield -> list Y) (g : Y -> X) :
  (forall f st, pi (upd f st) = match last_of (src f) with Some y => g y | None => pi st end) ->
  forall fs st, pi (fold_left (fun st f => upd f st) fs st) = match last_of (concat (map src fs)) with Some y => g y | None => pi st end.
Proof.
  intros H fs. induction fs as [|f fs IH]; intros st; [reflexivity|]. cbn [fold_left map concat]. rewrite IH, last_app, H.
  destruct (last_of (concat (map src fs))); reflexivity.
Qed.
Lemma fold_const {St X} (upd : pbfield -> St -> St) (pi : St -> X) : (forall f st, pi (upd f st) = pi st) ->
  forall fs st, pi (fold_left (fun st f => upd f st) fs st) = pi st.
Proof. intros H fs. induction fs as [|f fs IH]; intros st; [reflexivity|]. cbn [fold_left]. rewrite IH. apply H. Qed.
Lemma fold_append {St X Y} (upd : pbfield -> St -> St) (pi : St -> list X) (src : pbfield -> list Y) (g : Y -> X) :
  (forall f st, pi (upd f st) = pi st ++ map g (src f)) ->
  forall fs st, pi (fold_left (fun st f => upd f st) fs st) = pi st ++ map g (concat (map src fs)).
Proof.
  intros H fs. induction fs as [|f fs IH]; intros st; [cbn; rewrite app_nil_r; reflexivity|]. cbn [fold_left map concat]. rewrite IH, H, map_app, app_assoc. reflexivity.
Qed.

(** one packed occurrence *)
Lemma filter_occ n fs : zlen (chunks n fs) <= occurs n fs.
Proof.
  unfold chunks, occurs. induction fs as [|f fs IH]; [reflexivity|]. cbn [map concat filter].
  destruct f as [m k v|m k l p]; destruct (m =? n); rewrite ?zlen_app, ?zlen_cons; change (zlen (@nil (list Z))) with 0; lia.
Qed.
Lemma once_elements n fs : Forall (fun f => match f with PV m _ _ => m <> n | PB _ _ _ _ => True end) fs -> occurs n fs <= 1 ->
  elements n fs = match last_of (chunks n fs) with Some p => p | None => [] end.
Proof.
  intros F O. pose proof (filter_occ n fs) as L.
  assert (E : elements n fs = concat (chunks n fs)).
  { clear O L. unfold elements, chunks. induction F as [|f fs H F IH]; [reflexivity|]. cbn [map concat]. rewrite concat_app, IH. f_equal.
    destruct f as [m k v|m k l p]; destruct (Z.eqb_spec m n); cbn; rewrite ?app_nil_r; try reflexivity. contradiction. }
  rewrite E. destruct (chunks n fs) as [|p [|q r]]; cbn; rewrite ?app_nil_r; try reflexivity.
  rewrite !zlen_cons in L. pose proof (zlen_nonneg r). lia.
Qed.
Lemma once_chunk n fs p : occurs n fs <= 1 -> In p (chunks n fs) -> last_of (chunks n fs) = Some p.
Proof.
  intros O H. pose proof (filter_occ n fs) as L. destruct (chunks n fs) as [|q [|q' r]]; [destruct H| |].
  - destruct H as [->|[]]. reflexivity.
  - rewrite !zlen_cons in L. pose proof (zlen_nonneg r). lia.
Qed.

(** values *)
Lemma rep_u32 us xs : Forall2 uint32_of us xs -> xs = map u32 us.
Proof. induction 1 as [|u x us xs E H IH]; [reflexivity|]. cbn [map]. rewrite IH, E. reflexivity. Qed.
Lemma rep_u64 us xs : Forall2 uint64_of us xs -> xs = us.
Proof. induction 1 as [|u x us xs E H IH]; [reflexivity|]. rewrite IH, E. reflexivity. Qed.
Lemma i32_val u x : int32_of u x -> x = s32 u.
Proof.
  intros [H E]. rewrite <- (s32_id x H). rewrite <- (s32_u32 x), <- (s32_u32 u). unfold u32. rewrite E. reflexivity.
Qed.
Lemma i64_val u x : int64_of u x -> x = s64 u.
Proof. intros [H ->]. change (x mod 2^64) with (u64 x). rewrite s64_u64, s64_id by exact H. reflexivity. Qed.
Lemma rep_i32 us xs : Forall2 int32_of us xs -> xs = map s32 us.
Proof. induction 1 as [|u x us xs E H IH]; [reflexivity|]. cbn [map]. rewrite IH, (i32_val _ _ E). reflexivity. Qed.
Lemma zz_val u x : is_u64 u -> sint64_of u x -> x = DecodeZigZag u.
Proof.
  unfold sint64_of, zigzag. intros U E. destruct (pC04_zigzag) as (A & B & C).
  assert (S : is_s64 x). { unfold is_u64 in U. unfold is_s64. destruct (Z.ltb_spec x 0); lia. }
  destruct (B x S) as [_ D]. rewrite (A x S), <- E in D. symmetry. exact D.
Qed.
Lemma rep_zz us ds p : sequence_of us p -> Forall2 sint64_of us ds -> ds = map DecodeZigZag us.
Proof.
  intros (vs & _ & F) G. revert ds G. induction F as [|u v us vs H F IH]; intros ds G; inversion G as [|? d ? ds' E G']; subst; [reflexivity|].
  cbn [map]. rewrite <- (IH _ G'), <- (zz_val u d); [reflexivity|eapply vof_u64; exact H|exact E].
Qed.
Lemma rep_value_u32 n fs xs : repeated uint32_of n fs xs -> seq_ok (elements n fs) /\ v_u32 (elements n fs) = xs.
Proof. intros (us & S & F). split; [exists us; exact S|]. unfold v_u32. rewrite (unpack_seq _ _ S). symmetry. apply rep_u32, F. Qed.
Lemma rep_value_u64 n fs xs : repeated uint64_of n fs xs -> seq_ok (elements n fs) /\ v_u64 (elements n fs) = xs.
Proof. intros (us & S & F). split; [exists us; exact S|]. unfold v_u64. rewrite (unpack_seq _ _ S). symmetry. apply rep_u64, F. Qed.
Lemma rep_value_i32 n fs xs : repeated int32_of n fs xs -> seq_ok (elements n fs) /\ v_i32 (elements n fs) = xs.
Proof. intros (us & S & F). split; [exists us; exact S|]. unfold v_i32. rewrite (unpack_seq _ _ S). symmetry. apply rep_i32, F. Qed.
Lemma rep_value_delta n fs xs : delta_coded n fs xs -> seq_ok (elements n fs) /\ v_delta (elements n fs) = xs.
Proof. intros (us & ds & S & F & ->). split; [exists us; exact S|]. unfold v_delta. rewrite (unpack_seq _ _ S), <- (rep_zz _ _ _ S F). reflexivity. Qed.
(** the value after reading all fields *)
Lemma packed_value {X} (v : list Z -> list X) n vs bs once fs : v [] = [] -> plain vs bs once fs -> ~ In n vs -> In n once ->
  match last_of (chunks n fs) with Some p => v p | None => [] end = v (elements n fs) /\
  (seq_ok (elements n fs) -> forall p, In p (chunks n fs) -> seq_ok p).
Proof.
  intros V [P1 P2] Hn Ho. rewrite Forall_forall in P2. specialize (P2 n Ho).
  assert (E := once_elements n fs). rewrite E; [|eapply Forall_impl; [|exact P1]; intros [m k x|m k l x] H; [intros ->; contradiction|exact I]|exact P2].
  split; [destruct (last_of (chunks n fs)); [reflexivity|symmetry; exact V]|].
  intros S p Hp. rewrite (once_chunk n fs p P2 Hp) in S. exact S.
Qed.
