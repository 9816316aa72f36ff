(** * ZlThms: proofs of the pool and decompression properties (C64-C67). *)
From Verif Require Import Base BaseLemmas PbModel PbSpec PbProofs PbProofs2 TModel TSpec TProofs TMsg TMsg2 HLModel HLSpec HLProofs FrModel FrSpec FrProofs FrThms ZlModel ZlSpec.

(** ** the pool *)
Definition ids (l : list storage) : list nat := map st_id l.
Definition out_ids (o : list BorrowedBuffer) : list nat := map (fun b => st_id (bb_storage b)) o.
Definition pool_ok (s : pstate) (out : list BorrowedBuffer) : Prop :=
  NoDup (ids (ps_free s) ++ out_ids out) /\
  Forall (fun i => (i < ps_next s)%nat) (ids (ps_free s) ++ out_ids out) /\
  Forall (fun b => bb_isBorrowed b = true) out.

Lemma nth_error_cut {A} (l : list A) k a : nth_error l k = Some a ->
  l = firstn k l ++ a :: skipn (S k) l.
Proof.
  revert k. induction l as [|x l IH]; intros [|k] H; cbn in *; try discriminate.
  - injection H as ->. reflexivity.
  - f_equal. apply IH, H.
Qed.
Lemma Forall_lt_S n l : Forall (fun i => (i < n)%nat) l -> Forall (fun i => (i < S n)%nat) l.
Proof. apply Forall_impl. intros. lia. Qed.
Lemma NoDup_mid {A} (a : A) l1 l2 : NoDup (a :: l1 ++ l2) <-> NoDup (l1 ++ a :: l2).
Proof.
  split; intros H.
  - eapply Permutation.Permutation_NoDup; [|exact H]. apply Permutation.Permutation_middle.
  - eapply Permutation.Permutation_NoDup; [|exact H]. apply Permutation.Permutation_sym, Permutation.Permutation_middle.
Qed.
Lemma Forall_mid {A} (P : A -> Prop) a l1 l2 : Forall P (l1 ++ a :: l2) <-> P a /\ Forall P (l1 ++ l2).
Proof. rewrite !Forall_app, Forall_cons_iff. tauto. Qed.

Lemma cut_ids s k st : nth_error (ps_free s) k = Some st ->
  ids (ps_free s) = ids (firstn k (ps_free s)) ++ st_id st :: ids (skipn (S k) (ps_free s)).
Proof.
  intros H. apply nth_error_cut in H. rewrite H at 1. unfold ids. rewrite map_app. reflexivity.
Qed.
(** a freshly made buffer *)
Lemma pool_make_ok s out n st s' : pool_ok s out -> pool_make s n = (st, s') ->
  st_cap st = n /\ ~ In (st_id st) (out_ids out) /\ NoDup (st_id st :: ids (ps_free s') ++ out_ids out) /\
  Forall (fun i => (i < ps_next s')%nat) (st_id st :: ids (ps_free s') ++ out_ids out).
Proof.
  intros (H1 & H2 & H3) E. injection E as <- <-. cbn [st_id st_cap ps_free ps_next].
  assert (N : ~ In (ps_next s) (ids (ps_free s) ++ out_ids out)).
  { intros Hin. eapply Forall_forall in H2; [|exact Hin]. cbn in H2. lia. }
  split; [reflexivity|]. split; [intros Hi; apply N, in_or_app; auto|].
  split; [constructor; assumption|]. constructor; [lia|]. apply Forall_lt_S, H2.
Qed.
Lemma syncpool_get_ok s out k def st s' : pool_ok s out -> syncpool_get s k def = (st, s') ->
  ~ In (st_id st) (out_ids out) /\ NoDup (st_id st :: ids (ps_free s') ++ out_ids out) /\
  Forall (fun i => (i < ps_next s')%nat) (st_id st :: ids (ps_free s') ++ out_ids out) /\
  pool_ok s' out.
Proof.
  intros H E. unfold syncpool_get in E. destruct (nth_error (ps_free s) k) as [st0|] eqn:En.
  - injection E as <- <-. destruct H as (H1 & H2 & H3). rewrite (cut_ids s k st0 En) in *.
    cbn [ps_free ps_next]. unfold ids in *. rewrite map_app, <- !app_assoc in *. cbn [app] in *.
    rewrite <- NoDup_mid in H1. apply Forall_mid in H2 as [H2 H2'].
    split.
    { intros Hi. inversion H1; subst. apply H4. rewrite !in_app_iff. auto. }
    split; [exact H1|]. split; [constructor; assumption|].
    unfold pool_ok, ids. cbn [ps_free ps_next]. rewrite map_app, <- app_assoc.
    inversion H1; subst. auto.
  - pose proof (pool_make_ok s out def st s' H E) as (H1 & H2 & H3 & H4).
    split; [exact H2|]. split; [exact H3|]. split; [exact H4|].
    destruct H as (_ & _ & H). unfold pool_ok. inversion H3; subst. inversion H4; subst. auto.
Qed.
Lemma pool_Get_ok s out sz k def b s' : pool_ok s out -> pool_Get s sz k def = Ok (b, s') ->
  bb_len b = sz /\ sz <= st_cap (bb_storage b) /\ ~ In (st_id (bb_storage b)) (out_ids out) /\ pool_ok s' (b :: out).
Proof.
  intros H E. unfold pool_Get in E. destruct (syncpool_get s k def) as [st s1] eqn:E1.
  apply (syncpool_get_ok s out) in E1 as (N1 & D1 & L1 & O1); [|exact H].
  assert (Fin : forall st0 s0, NoDup (st_id st0 :: ids (ps_free s0) ++ out_ids out) ->
    Forall (fun i => (i < ps_next s0)%nat) (st_id st0 :: ids (ps_free s0) ++ out_ids out) ->
    pool_ok s0 (mkBorrow st0 sz true :: out)).
  { intros st0 s0 D L. unfold pool_ok. cbn [out_ids map bb_storage]. fold (out_ids out).
    rewrite NoDup_mid in D. apply Forall_cons_iff in L as [L1' L2'].
    split; [exact D|]. split; [apply Forall_mid; auto|]. constructor; [reflexivity|]. apply H. }
  destruct (st_cap st <? s64 sz).
  - destruct (pool_make s1 sz) as [st2 s2] eqn:E2. pose proof (pool_make_ok s1 out sz st2 s2 O1 E2) as (C & N & D & L).
    destruct (sz <=? st_cap st2) eqn:Ec; [|discriminate]. injection E as <- <-. cbn [bb_len bb_storage].
    split; [reflexivity|]. split; [lia|]. split; [exact N|]. apply Fin; assumption.
  - destruct (sz <=? st_cap st) eqn:Ec; [|discriminate]. injection E as <- <-. cbn [bb_len bb_storage].
    split; [reflexivity|]. split; [lia|]. split; [exact N1|]. apply Fin; assumption.
Qed.
Lemma history_ok s out : history s out -> pool_ok s out.
Proof.
  induction 1 as [n|s out sz k def b s' H IH _ _ E|s o1 b o2 H IH|s out st len H IH|s out k H IH].
  - unfold pool_ok. cbn. repeat constructor.
  - eapply pool_Get_ok; eauto.
  - destruct IH as (H1 & H2 & H3). unfold out_ids in *. rewrite map_app in *. cbn [map] in *.
    apply Forall_mid in H3 as [Hb H3].
    rewrite app_assoc, <- NoDup_mid in H1. rewrite app_assoc, Forall_mid in H2. rewrite <- app_assoc in *.
    unfold pool_ok, out_ids, pool_Put. rewrite Hb. cbn [ps_free ps_next ids map]. fold (ids (ps_free s)). rewrite map_app. cbn [app].
    split; [exact H1|]. split; [constructor; apply H2|exact H3].
  - exact IH.
  - destruct IH as (H1 & H2 & H3). unfold pool_ok, pool_drop. cbn [ps_free ps_next].
    destruct (nth_error (ps_free s) k) as [st|] eqn:En.
    + rewrite (cut_ids s k st En) in *. unfold ids in *. rewrite map_app, <- !app_assoc in *. cbn [app] in *.
      rewrite <- NoDup_mid in H1. apply Forall_mid in H2 as [H2 H2']. inversion H1; subst. auto.
    + assert (L : (List.length (ps_free s) <= k)%nat) by (apply nth_error_None; exact En).
      rewrite firstn_all2, skipn_all2, app_nil_r by lia. auto.
Qed.

(** C64.  In every history: outstanding borrows are backed by pairwise different arrays,
    none of which is in the pool; and every further request of less than 2^63 bytes,
    whatever sync.Pool chooses, succeeds, has exactly the requested length within its
    capacity, and is backed by an array no outstanding borrow has. *)
Lemma pC64_borrows : forall s out, history s out ->
  NoDup (map (fun b => st_id (bb_storage b)) out) /\
  (forall b st, In b out -> In st (ps_free s) -> st_id (bb_storage b) <> st_id st) /\
  forall sz k def, 0 <= sz < 2^63 -> 0 <= def ->
    exists b s', pool_Get s sz k def = Ok (b, s') /\ bb_len b = sz /\ sz <= st_cap (bb_storage b) /\
      Forall (fun b' => st_id (bb_storage b') <> st_id (bb_storage b)) out.
Proof.
  intros s out H. pose proof (history_ok s out H) as O. destruct O as (H1 & H2 & H3).
  split; [|split].
  - clear -H1. induction (ids (ps_free s)) as [|i l IH]; [exact H1|]. apply IH. inversion H1; assumption.
  - intros b st Hb Hs E. clear -H1 Hb Hs E. induction (ps_free s) as [|x l IH]; [destruct Hs|].
    cbn [ids map app] in H1. apply NoDup_cons_iff in H1 as [Hn H1]. destruct Hs as [->|Hs]; [|apply IH; assumption].
    apply Hn, in_or_app. right. rewrite <- E. unfold out_ids. apply (in_map (fun b => st_id (bb_storage b))), Hb.
  - intros sz k def Hsz Hd.
    assert (X : exists b s', pool_Get s sz k def = Ok (b, s')).
    { unfold pool_Get. destruct (syncpool_get s k def) as [st s1]. rewrite s64_id by (unfold is_s64; lia).
      destruct (Z.ltb_spec (st_cap st) sz).
      - unfold pool_make. cbn [st_cap]. rewrite (proj2 (Z.leb_le sz sz)) by lia. eauto.
      - rewrite (proj2 (Z.leb_le sz (st_cap st))) by lia. eauto. }
    destruct X as (b & s' & E). exists b, s'. split; [exact E|].
    pose proof (pool_Get_ok s out sz k def b s' (conj H1 (conj H2 H3)) E) as (E1 & E2 & E3 & _).
    split; [exact E1|]. split; [exact E2|]. apply Forall_forall. intros b' Hb' E'. apply E3. rewrite <- E'.
    unfold out_ids. apply (in_map (fun b => st_id (bb_storage b))), Hb'.
Qed.
(** The return discipline is needed: returning one borrow twice lets the pool hand out
    the same array twice. *)
Lemma pC64_double_return_shares :
  exists s0 b s1 b1 s3 b2 s4, pool_Get s0 10 0 64 = Ok (b, s1) /\ s0 = mkPool 0 [] /\
    let s2 := pool_Put (pool_Put s1 b) b in
    pool_Get s2 5 0 64 = Ok (b1, s3) /\ pool_Get s3 6 0 64 = Ok (b2, s4) /\
    st_id (bb_storage b1) = st_id (bb_storage b2).
Proof.
  eexists. eexists. eexists. eexists. eexists. eexists. eexists.
  split; [|split; [reflexivity|]]; [vm_compute; reflexivity|]. cbn zeta. split; [vm_compute; reflexivity|].
  split; [vm_compute; reflexivity|]. vm_compute. reflexivity.
Qed.
Lemma pC64_ex :
  exists b1 b2 b3, history (mkPool 2 []) [b3; b2] /\
    bb_len b2 = 100 /\ bb_storage b2 = mkStorage 1 100 /\ bb_len b3 = 7 /\ bb_storage b3 = mkStorage 0 64 /\
    bb_storage b1 = mkStorage 0 64.
Proof.
  exists (mkBorrow (mkStorage 0 64) 10 true), (mkBorrow (mkStorage 1 100) 100 true), (mkBorrow (mkStorage 0 64) 7 true).
  split; [|cbn; auto].
  eapply (h_get (mkPool 2 [mkStorage 0 64]) _ 7 0 0); [|lia|lia|vm_compute; reflexivity].
  apply (h_put (mkPool 2 []) [mkBorrow (mkStorage 1 100) 100 true] (mkBorrow (mkStorage 0 64) 10 true) []).
  cbn [app].
  eapply (h_get (mkPool 1 []) _ 100 0 100); [|lia|lia|vm_compute; reflexivity].
  eapply (h_get (mkPool 0 []) _ 10 3 64); [|lia|lia|vm_compute; reflexivity].
  apply h_init.
Qed.

(** ** decodeZLib *)
Lemma blit_len l i c : 0 <= i -> i + zlen c <= zlen l -> zlen (blit l i c) = zlen l.
Proof.
  intros H1 H2. unfold blit, zlen in *. rewrite !app_length, firstn_length, skipn_length. lia.
Qed.
Lemma blit_firstn l i c : 0 <= i -> i + zlen c <= zlen l ->
  firstn (Z.to_nat (i + zlen c)) (blit l i c) = firstn (Z.to_nat i) l ++ c.
Proof.
  intros H1 H2. unfold blit. rewrite app_assoc, firstn_app.
  assert (L : List.length (firstn (Z.to_nat i) l ++ c) = Z.to_nat (i + zlen c)).
  { unfold zlen in *. rewrite app_length, firstn_length. lia. }
  rewrite L, Nat.sub_diag, firstn_O, app_nil_r. apply firstn_all2. lia.
Qed.
Definition zmeasure (evs : list (list Z * bool)) : nat := (List.length evs + List.length (concat (map fst evs)))%nat.
Lemma zread_ok evs n chunk err evs' : 0 < n -> zread evs n = (chunk, err, evs') ->
  zlen chunk <= n /\ stream evs = chunk ++ (if err then [] else stream evs') /\
  (err = false -> (zmeasure evs' < zmeasure evs)%nat).
Proof.
  intros Hn H. unfold zread in H. destruct evs as [|[seg e] r].
  - injection H as <- <- <-. cbn. split; [change (zlen (@nil Z)) with 0; lia|]. split; [reflexivity|discriminate].
  - destruct (zlen seg <=? n) eqn:E.
    + injection H as <- <- <-. split; [lia|]. split; [reflexivity|]. intros _. unfold zmeasure. cbn [map concat fst List.length].
      rewrite app_length. lia.
    + injection H as <- <- <-. split; [unfold zlen in *; rewrite firstn_length; lia|]. split.
      * cbn [stream]. rewrite app_assoc, firstn_skipn. reflexivity.
      * intros _. unfold zmeasure. cbn [map concat fst List.length]. rewrite !app_length, skipn_length. unfold zlen in E. lia.
Qed.
Lemma zl_loop cap n S : n <= cap -> forall fuel start mem evs,
  (zmeasure evs < fuel)%nat -> zlen mem = cap -> 0 <= start <= cap ->
  S = firstn (Z.to_nat start) mem ++ stream evs ->
  match loop fuel zl_cond zl_body (n - start, start, mem, evs) with
  | Ok (_, _, mem', _) => zlen mem' = cap /\ n <= zlen S /\ firstn (Z.to_nat n) mem' = firstn (Z.to_nat n) S
  | Panic _ => zlen S <> n
  | Diverge => False
  end.
Proof.
  intros Hn. induction fuel as [|fuel IH]; intros start mem evs Hm Hc Hs HS; [lia|].
  assert (Base : n <= start -> zlen mem = cap /\ n <= zlen S /\ firstn (Z.to_nat n) mem = firstn (Z.to_nat n) S).
  { intros Hle. split; [exact Hc|].
    assert (L : zlen (firstn (Z.to_nat start) mem) = start) by (unfold zlen in *; rewrite firstn_length; lia).
    split; [rewrite HS, zlen_app, L; pose proof (zlen_nonneg (stream evs)); lia|].
    rewrite HS, firstn_app. replace (Z.to_nat n - List.length (firstn (Z.to_nat start) mem))%nat with 0%nat by (unfold zlen in L; lia).
    rewrite firstn_O, app_nil_r, firstn_firstn. f_equal. lia. }
  cbn [loop]. unfold zl_cond at 1. destruct (Z.ltb_spec 0 (n - start)) as [Hp|Hp]; [|apply Base; lia].
  unfold zl_body at 1.
  assert (Sl : sslice (exact mem) start (zlen mem) = Ok (mkslice (skipn (Z.to_nat start) mem) [])).
  { unfold sslice, scap, slen. cbn [vis ext exact List.length]. rewrite app_nil_r.
    replace ((0 <=? start) && (start <=? zlen mem) && (zlen mem <=? Z.of_nat (List.length mem) + Z.of_nat 0)) with true by (unfold zlen in *; lia).
    f_equal. f_equal.
    - apply firstn_all2. rewrite skipn_length. unfold zlen. lia.
    - apply skipn_all2. unfold zlen. lia. }
  rewrite Sl. cbn [bind]. unfold slen. cbn [vis].
  replace (Z.of_nat (List.length (skipn (Z.to_nat start) mem))) with (cap - start) by (rewrite skipn_length; unfold zlen in *; lia).
  destruct (zread evs (cap - start)) as [[chunk err] evs'] eqn:Er.
  apply zread_ok in Er as (Lc & St & Me); [|lia]. pose proof (zlen_nonneg chunk).
  assert (HS' : S = firstn (Z.to_nat (start + zlen chunk)) (blit mem start chunk) ++ (if err then [] else stream evs')).
  { rewrite HS, St, blit_firstn by lia. rewrite <- app_assoc. reflexivity. }
  assert (Hlen : zlen (firstn (Z.to_nat (start + zlen chunk)) (blit mem start chunk)) = start + zlen chunk).
  { rewrite blit_firstn by lia. unfold zlen in *. rewrite app_length, firstn_length. lia. }
  destruct (Z.eqb_spec (n - start - zlen chunk) 0) as [Ez|Nz].
  - cbn [bind]. destruct fuel; cbn [loop]; unfold zl_cond at 1; cbn [Z.ltb Z.compare].
    + change (0 <? 0) with false. cbn match.
      split; [rewrite blit_len by lia; exact Hc|].
      assert (Hn' : n = start + zlen chunk) by lia.
      split; [rewrite HS', zlen_app, Hlen; pose proof (zlen_nonneg (if err then [] else stream evs')); lia|].
      rewrite HS'. rewrite Hn', firstn_app, firstn_firstn, Nat.min_id.
      replace (Z.to_nat (start + zlen chunk) - _)%nat with 0%nat by (unfold zlen in Hlen at 1; lia).
      rewrite firstn_O, app_nil_r. reflexivity.
    + change (0 <? 0) with false. cbn match.
      split; [rewrite blit_len by lia; exact Hc|].
      assert (Hn' : n = start + zlen chunk) by lia.
      split; [rewrite HS', zlen_app, Hlen; pose proof (zlen_nonneg (if err then [] else stream evs')); lia|].
      rewrite HS'. rewrite Hn', firstn_app, firstn_firstn, Nat.min_id.
      replace (Z.to_nat (start + zlen chunk) - _)%nat with 0%nat by (unfold zlen in Hlen at 1; lia).
      rewrite firstn_O, app_nil_r. reflexivity.
  - destruct err; cbn [bind].
    + rewrite HS', app_nil_r, Hlen. lia.
    + replace (n - start - zlen chunk) with (n - (start + zlen chunk)) by lia.
      apply IH; [specialize (Me eq_refl); lia|rewrite blit_len by lia; exact Hc|lia|exact HS'].
Qed.
Lemma pool_get_ok pooled n : 0 <= n < 2^63 -> exists buf, pool_get pooled (u64 n) = Ok buf /\ slen buf = n.
Proof.
  intros H. unfold pool_get. rewrite (u64_id n) by (unfold is_u64; lia). rewrite s64_id by (unfold is_s64; lia).
  set (buf := if zlen pooled <? n then repeat 0 (Z.to_nat n) else pooled).
  assert (L : n <= zlen buf).
  { unfold buf. destruct (Z.ltb_spec (zlen pooled) n); [rewrite zlen_repeat; lia|lia]. }
  destruct (sslice (exact buf) 0 n) as [o| |] eqn:E.
  - exists o. split; [reflexivity|]. apply sslice_ok in E as (_ & _ & E). rewrite slen_zlen. lia.
  - exfalso. unfold sslice, scap, slen in E. cbn [exact vis ext List.length] in E.
    destruct (_ && _) eqn:Eb in E; [discriminate|]. unfold zlen in L. lia.
  - exfalso. unfold sslice in E. destruct (_ && _) in E; discriminate.
Qed.

Lemma decodeZLib_core env n : ze_open env = true -> 0 <= n < 2^31 ->
  match decodeZLib env (Some n) with
  | Ok s => vis s = firstn (Z.to_nat n) (stream (ze_reads env)) /\ n <= zlen (stream (ze_reads env))
  | Panic _ => zlen (stream (ze_reads env)) <> n
  | Diverge => False
  end.
Proof.
  intros Ho Hn. unfold decodeZLib. rewrite Ho. cbn [negb].
  destruct (pool_get_ok (ze_pooled env) n ltac:(lia)) as (buf & -> & L). cbn [bind].
  set (mem := vis buf ++ ext buf).
  assert (Lm : n <= zlen mem). { unfold mem. rewrite zlen_app, <- L, slen_zlen. pose proof (zlen_nonneg (ext buf)). lia. }
  pose proof (zl_loop (zlen mem) n (stream (ze_reads env)) Lm (zl_fuel (ze_reads env)) 0 mem (ze_reads env)
    ltac:(unfold zl_fuel, zmeasure; lia) eq_refl ltac:(lia) eq_refl) as X.
  rewrite Z.sub_0_r in X.
  destruct (loop (zl_fuel (ze_reads env)) zl_cond zl_body (n, 0, mem, ze_reads env)) as [[[[r st] mem'] e']| |]; cbn [bind]; [|exact X..].
  destruct X as (Lm' & Ls & F). rewrite L.
  unfold sslice, scap, slen. cbn [exact vis ext List.length]. rewrite app_nil_r.
  replace ((0 <=? 0) && (0 <=? n) && (n <=? Z.of_nat (List.length mem') + Z.of_nat 0)) with true by (unfold zlen in *; lia).
  cbn [vis]. rewrite Z.sub_0_r. change (Z.to_nat 0) with 0%nat. rewrite skipn_O. auto.
Qed.

(** C65.  Decompressing a blob with declared size [n], for every zlib stream, every way
    the reader splits it, and every buffer the pool hands out: it always terminates; if
    it returns, the result is the first [n] bytes of the stream; if the stream has exactly
    [n] bytes it returns; if the stream is shorter it panics. *)
Lemma pC65_decompress : forall env n, ze_open env = true -> 0 <= n < 2^31 ->
  decodeZLib env (Some n) <> Diverge /\
  (forall s, decodeZLib env (Some n) = Ok s ->
     zlen (vis s) = n /\ exists rest, stream (ze_reads env) = vis s ++ rest) /\
  (zlen (stream (ze_reads env)) = n -> exists s, decodeZLib env (Some n) = Ok s /\ vis s = stream (ze_reads env)) /\
  (zlen (stream (ze_reads env)) < n -> exists m, decodeZLib env (Some n) = Panic m).
Proof.
  intros env n Ho Hn. pose proof (decodeZLib_core env n Ho Hn) as X.
  set (S := stream (ze_reads env)) in *.
  destruct (decodeZLib env (Some n)) as [s|p|]; [|split; [discriminate|split; [discriminate|split; [congruence|eauto]]]|destruct X].
  destruct X as [Ev Hl]. split; [discriminate|]. split; [|split].
  - intros s' E. injection E as <-. rewrite Ev. split; [unfold zlen in *; rewrite firstn_length; lia|].
    exists (skipn (Z.to_nat n) S). symmetry. apply firstn_skipn.
  - intros E. exists s. split; [reflexivity|]. rewrite Ev. apply firstn_all2. unfold zlen in E. lia.
  - lia.
Qed.
(** C65, malformed blobs: no declared size, a negative size, or a stream zlib rejects all
    panic. *)
Lemma pC65_malformed : forall env n,
  (ze_open env = false -> exists m, decodeZLib env n = Panic m) /\
  (ze_open env = true -> decodeZLib env None = Panic NilDeref) /\
  (forall k, n = Some k -> -2^31 <= k < 0 -> zlen (ze_pooled env) < 2^62 -> exists m, decodeZLib env n = Panic m).
Proof.
  intros env n. split; [|split].
  - intros H. unfold decodeZLib. rewrite H. cbn [negb]. eauto.
  - intros H. unfold decodeZLib. rewrite H. reflexivity.
  - intros k -> Hk Hp. unfold decodeZLib. destruct (ze_open env); cbn [negb]; [|eauto].
    unfold pool_get.
    assert (U : u64 k = k + 2^64) by (rewrite u64_alt by (unfold is_s64; lia); rewrite (proj2 (Z.ltb_lt k 0)) by lia; reflexivity).
    rewrite s64_u64, U. rewrite s64_id by (unfold is_s64; lia).
    pose proof (zlen_nonneg (ze_pooled env)).
    rewrite (proj2 (Z.ltb_ge (zlen (ze_pooled env)) k)) by lia.
    unfold sslice, scap, slen. cbn [exact vis ext List.length].
    replace ((0 <=? 0) && (0 <=? k + 2^64) && (k + 2^64 <=? Z.of_nat (List.length (ze_pooled env)) + Z.of_nat 0)) with false by (unfold zlen in *; lia).
    cbn [bind]. eauto.
Qed.
(** C65, which data is used: raw data if there is some, otherwise the zlib data; a blob with
    neither (for instance with another compression) is rejected. *)
Lemma pC65_which_data : forall env b,
  (forall raw, blob_Raw b = Some raw -> GetRawData env b = Ok raw) /\
  (forall z, blob_Raw b = None -> blob_ZLibData b = Some z -> GetRawData env b = decodeZLib env (blob_RawSize b)) /\
  (blob_Raw b = None -> blob_ZLibData b = None -> exists m, GetRawData env b = Panic m).
Proof.
  intros env b. unfold GetRawData. split; [intros raw ->; reflexivity|]. split; [intros z -> ->; reflexivity|]. intros -> ->. eauto.
Qed.
Lemma pC65_ex :
  let env := mkZenv true [([1; 2], false); ([], false); ([3; 4; 5], true)] [9; 9; 9; 9; 9; 9] in
  ze_open env = true /\ stream (ze_reads env) = [1; 2; 3; 4; 5] /\
  decodeZLib env (Some 5) = Ok (mkslice [1; 2; 3; 4; 5] [9]) /\
  decodeZLib env (Some 6) = Panic IOError /\
  decodeZLib (mkZenv true [([1; 2], false); ([3], true)] [9]) (Some 1) = Ok (mkslice [1] []).
Proof. cbn zeta. repeat split; vm_compute; reflexivity. Qed.

(** ** the decompress tool *)
Definition raw_blob (raw : list Z) : list Z := id_buffer blobRaw raw.
Lemma raw_blob_len raw : zlen (raw_blob raw) <= 20 + zlen raw.
Proof.
  unfold raw_blob, id_buffer. rewrite !zlen_app.
  pose proof (venc_zlen (MakeIdType blobRaw PbFixedBytes) ltac:(vm_compute; split; discriminate || reflexivity)).
  pose proof (venc_zlen (u64 (zlen raw)) (u64_range _)). lia.
Qed.
Lemma raw_blob_read raw e : bytes raw -> zlen raw < 2^31 ->
  ReadBlob (mkslice (raw_blob raw) e) Blob0 = Ok (mkBlob (Some (mkslice raw e)) None None None).
Proof.
  intros Hb Hl. pose proof (raw_blob_len raw) as L.
  pose proof (ReadBlob_raw (mkBlob None None None None) (venc (u64 (zlen raw))) raw e
    ltac:(apply len_prefix_venc; lia) Hb ltac:(discriminate) ltac:(discriminate)) as X.
  unfold blob_size_part, blob_zlib_part, set_zlib, set_size in X. cbn [blob_RawSize blob_ZLibData app] in X.
  cbn zeta in X. rewrite !app_nil_r in X. apply X. unfold raw_blob, id_buffer in L. lia.
Qed.
Lemma raw_blob_bytes raw : bytes raw -> bytes (raw_blob raw).
Proof.
  intros H. unfold raw_blob, id_buffer, bytes. rewrite !Forall_app. split; [|split; [|exact H]].
  - apply venc_bytes. vm_compute; split; discriminate || reflexivity.
  - apply venc_bytes, u64_range.
Qed.
Lemma dblock env b raw : payload env b raw -> raw <> [] ->
  decompress_block env b = write_frame zero4 (blk_Type b) (raw_blob raw).
Proof.
  intros (bl & s & E1 & E2 & <-) Hn. unfold decompress_block. rewrite E1. cbn [bind]. rewrite E2. cbn [bind].
  unfold Blob_Write. cbn [blob_RawFunc blob_Raw blob_RawSize blob_ZLibData].
  assert (0 < slen s). { rewrite slen_zlen. pose proof (zlen_nonneg (vis s)). destruct (vis s); [congruence|]. rewrite zlen_cons. pose proof (zlen_nonneg l). lia. }
  rewrite (proj2 (Z.ltb_lt 0 (slen s))) by lia. cbn [bind]. rewrite EncodeIdBuffer_eq. reflexivity.
Qed.
(** what the tool writes for blobs of these types and payloads *)
Definition frames_of (pl : list (list Z * list Z)) : res (list (list Z)) :=
  mapm (fun p => write_frame zero4 (fst p) (raw_blob (snd p))) pl.
Definition fits (p : list Z * list Z) : Prop := snd p <> [] /\ bytes (snd p) /\ zlen (snd p) < 2^31 - 20.

Lemma read_file_known file bs : bytes file -> zlen file < 2^63 -> read_file file = Ok bs ->
  Forall (fun b => known_type (blk_Type b)) bs.
Proof.
  intros Hb Hl H. apply read_file_inv in H as (blobs & Hc & M); [|assumption..].
  assert (F : Forall (fun b => known_type (fst b)) blobs).
  { clear M. revert file Hb Hl Hc. induction blobs as [|[ty d] r IH]; intros file Hb Hl Hc; [constructor|].
    cbn [covers] in Hc. destruct Hc as (sz & hdr & rest & -> & _ & _ & K & Hc). constructor; [exact K|].
    apply (IH rest); [|rewrite !zlen_app in Hl; pose proof (zlen_nonneg sz); pose proof (zlen_nonneg hdr); pose proof (zlen_nonneg d); lia|exact Hc].
    do 3 (apply bytes_app_inv in Hb as [_ Hb]). exact Hb. }
  apply (f_equal (map snd)) in M. rewrite map_map in M. unfold numbered in M.
  assert (S2 : forall (l : list (list Z * list Z)) (s : list Z), List.length s = List.length l -> map snd (combine s l) = l).
  { clear. intros l. induction l as [|a l IH]; intros [|x s] H; cbn in *; try discriminate; [reflexivity|].
    f_equal. apply IH. lia. }
  rewrite S2 in M by (rewrite map_length, seq_length; reflexivity).
  rewrite <- M in F. rewrite Forall_map in F. exact F.
Qed.
Lemma mapm_frames envs bs pl :
  Forall2 (fun b p => blk_Type b = fst p /\ payload (envs (blk_Index b)) b (snd p)) bs pl -> Forall fits pl ->
  mapm (fun b => decompress_block (envs (blk_Index b)) b) bs = frames_of pl.
Proof.
  intros H F. unfold frames_of. induction H as [|b p bs pl (E1 & E2) H IH]; [reflexivity|].
  apply Forall_cons_iff in F as [(F1 & _) F]. cbn [mapm]. rewrite (dblock _ _ _ E2 F1), E1.
  destruct (write_frame _ _ _); cbn [bind]; [|reflexivity..]. rewrite IH by assumption. reflexivity.
Qed.
Lemma frames_file pl : Forall fits pl -> Forall (fun p => known_type (fst p)) pl ->
  exists outs, frames_of pl = Ok outs /\ is_file (concat outs) (map (fun p => (fst p, raw_blob (snd p))) pl) /\
    bytes (concat outs).
Proof.
  unfold frames_of. induction pl as [|[ty raw] pl IH]; intros F K.
  - exists []. cbn. repeat split. constructor.
  - apply Forall_cons_iff in F as [(F1 & F2 & F3) F]. apply Forall_cons_iff in K as [K1 K]. cbn [fst snd] in *.
    destruct (IH F K) as (outs & E & I & B).
    pose proof (raw_blob_len raw).
    destruct (write_frame_is zero4 ty (raw_blob raw) eq_refl K1 (raw_blob_bytes raw F2) ltac:(lia)) as (fb & Ew & Fr & Bf & _).
    exists (fb :: outs). cbn [mapm fst snd]. rewrite Ew. cbn [bind]. rewrite E. cbn [bind concat map is_file].
    split; [reflexivity|]. split; [exists fb, (concat outs); auto|].
    unfold bytes in *. apply Forall_app. auto.
Qed.
Lemma Forall2_length' {A B} (R : A -> B -> Prop) l1 l2 : Forall2 R l1 l2 -> List.length l1 = List.length l2.
Proof. induction 1; cbn; congruence. Qed.
Lemma file_contents file pl envs : bytes file -> zlen file < 2^63 ->
  Forall fits pl -> Forall (fun p => known_type (fst p)) pl ->
  is_file file (map (fun p => (fst p, raw_blob (snd p))) pl) -> contents envs file pl.
Proof.
  intros Hb Hl F K I. destruct (pC34_split file _ Hb Hl I) as (bs & E & M).
  { apply Forall_map. cbn. exact K. }
  exists bs. split; [exact E|]. clear -F M.
  unfold numbered in M. rewrite map_length in M.
  assert (G : forall pl, Forall fits pl -> forall bs s, map seen bs = combine (map Z.of_nat (seq s (List.length pl))) (map (fun p => (fst p, raw_blob (snd p))) pl) ->
    Forall2 (fun b p => blk_Type b = fst p /\ payload (envs (blk_Index b)) b (snd p)) bs pl).
  { clear. induction pl as [|[ty raw] pl IH]; intros F bs s M.
    - destruct bs; [constructor|discriminate].
    - destruct bs as [|b bs]; [discriminate|]. cbn [map List.length seq combine] in M. unfold seen at 1 in M. cbn [fst snd] in M. injection M as _ M2 M3 M.
      apply Forall_cons_iff in F as [(F1 & F2 & F3) F]. cbn [fst snd] in *.
      constructor; [|eapply IH; eauto]. cbn [fst snd] in *. split; [exact M2|].
      destruct (blk_Data b) as [v e] eqn:Ed. cbn [vis] in M3. subst v.
      eexists. eexists. split; [rewrite Ed; apply raw_blob_read; [exact F2|lia]|]. split; [reflexivity|]. reflexivity. }
  eapply G; eauto.
Qed.

(** C66, for input files none of whose payloads is empty (and each below 2^31-20 bytes):
    the output is a file with the same sequence of types and payloads, in whatever
    environment it is read. *)
Lemma pC66_same_contents_partial : forall envs file pl,
  bytes file -> zlen file < 2^63 -> contents envs file pl ->
  Forall (fun p => snd p <> [] /\ bytes (snd p) /\ zlen (snd p) < 2^31 - 20) pl ->
  exists out, decompress envs file = Ok out /\ (zlen out < 2^63 -> forall envs', contents envs' out pl).
Proof.
  intros envs file pl Hb Hl (bs & E & F2) F.
  assert (K : Forall (fun p => known_type (fst p)) pl).
  { pose proof (read_file_known file bs Hb Hl E) as K. clear -F2 K. induction F2 as [|b p bs pl (T & _) F2 IH]; [constructor|].
    apply Forall_cons_iff in K as [K1 K]. constructor; [rewrite <- T; exact K1|auto]. }
  destruct (frames_file pl F K) as (outs & Eo & I & B).
  exists (concat outs). split.
  - unfold decompress. rewrite E. cbn [bind]. rewrite (mapm_frames envs bs pl F2 F), Eo. reflexivity.
  - intros Hlo envs'. apply file_contents; assumption.
Qed.
(** C67, under the same condition: decompressing the output again reproduces it byte for
    byte, in whatever environment. *)
Lemma pC67_idempotent_partial : forall envs file pl out,
  bytes file -> zlen file < 2^63 -> contents envs file pl ->
  Forall (fun p => snd p <> [] /\ bytes (snd p) /\ zlen (snd p) < 2^31 - 20) pl ->
  decompress envs file = Ok out -> zlen out < 2^63 ->
  forall envs', decompress envs' out = Ok out.
Proof.
  intros envs file pl out Hb Hl C F D Hlo envs'.
  destruct (pC66_same_contents_partial envs file pl Hb Hl C F) as (out' & D' & C').
  rewrite D in D'. injection D' as <-. destruct (C' Hlo envs') as (bs' & E' & F2').
  destruct C as (bs & E & F2).
  unfold decompress in D |- *. rewrite E in D. cbn [bind] in D. rewrite E'. cbn [bind].
  rewrite (mapm_frames envs bs pl F2 F) in D. rewrite (mapm_frames envs' bs' pl F2' F).
  exact D.
Qed.
Definition ex_zenv (_ : Z) : zenv := mkZenv true [([1; 2], false); ([3], false)] [].
(** an OSMHeader stored raw and an OSMData blob stored compressed with size 3 *)
Definition ex_zfile : list Z :=
  [0; 0; 0; 13; 10; 9] ++ bytes_of "OSMHeader" ++ [24; 4] ++ [10; 2; 7; 8] ++
  [0; 0; 0; 11; 10; 7] ++ bytes_of "OSMData" ++ [24; 6] ++ [16; 3; 26; 2; 120; 156].
Definition ex_zout : list Z :=
  [0; 0; 0; 13; 10; 9] ++ bytes_of "OSMHeader" ++ [24; 4] ++ [10; 2; 7; 8] ++
  [0; 0; 0; 11; 10; 7] ++ bytes_of "OSMData" ++ [24; 5] ++ [10; 3; 1; 2; 3].
Lemma pC66_ex :
  contents ex_zenv ex_zfile [(bytes_of "OSMHeader", [7; 8]); (bytes_of "OSMData", [1; 2; 3])] /\
  decompress ex_zenv ex_zfile = Ok ex_zout.
Proof.
  split; [|vm_compute; reflexivity].
  eexists. split; [vm_compute; reflexivity|].
  repeat apply Forall2_cons; try apply Forall2_nil.
  - split; [reflexivity|]. eexists. eexists. split; [vm_compute; reflexivity|]. split; [vm_compute; reflexivity|]. vm_compute. reflexivity.
  - split; [reflexivity|]. eexists. eexists. split; [vm_compute; reflexivity|]. split; [vm_compute; reflexivity|]. vm_compute. reflexivity.
Qed.
Lemma pC67_ex : decompress ex_zenv ex_zout = Ok ex_zout.
Proof. vm_compute. reflexivity. Qed.

(** C66 and C67 fail for an empty payload: the output blob has neither raw nor
    compressed data, so nothing can read it and decompressing it again panics. *)
Lemma pC66_empty_payload_refuted :
  exists envs file out, bytes file /\ contents envs file [(bytes_of "OSMData", [])] /\
    decompress envs file = Ok out /\ forall envs' pl, ~ contents envs' out pl.
Proof.
  exists ex_zenv, ([0; 0; 0; 11; 10; 7] ++ bytes_of "OSMData" ++ [24; 2] ++ [10; 0]), ([0; 0; 0; 9; 10; 7] ++ bytes_of "OSMData").
  split; [|split; [|split]].
  - unfold bytes, is_u8. vm_compute bytes_of. cbn [app]. repeat (apply Forall_cons; [lia|]). apply Forall_nil.
  - eexists. split; [vm_compute; reflexivity|]. constructor; [|constructor].
    split; [reflexivity|]. eexists. eexists. split; [vm_compute; reflexivity|]. split; [vm_compute; reflexivity|]. vm_compute. reflexivity.
  - vm_compute. reflexivity.
  - intros envs' pl (bs & E & F2). vm_compute in E. injection E as <-. inversion F2 as [|b p bs pl' (_ & P) F2']; subst.
    destruct P as (bl & s & R & G & _). vm_compute in R. injection R as <-. discriminate G.
Qed.
Lemma pC67_empty_payload_refuted :
  exists envs file out, contents envs file [(bytes_of "OSMData", [])] /\
    decompress envs file = Ok out /\ forall envs', exists m, decompress envs' out = Panic m.
Proof.
  exists ex_zenv, ([0; 0; 0; 11; 10; 7] ++ bytes_of "OSMData" ++ [24; 2] ++ [10; 0]), ([0; 0; 0; 9; 10; 7] ++ bytes_of "OSMData").
  split; [|split].
  - eexists. split; [vm_compute; reflexivity|]. constructor; [|constructor].
    split; [reflexivity|]. eexists. eexists. split; [vm_compute; reflexivity|]. split; [vm_compute; reflexivity|]. vm_compute. reflexivity.
  - vm_compute. reflexivity.
  - intros envs'. eexists. unfold decompress.
    replace (read_file _) with (Ok [mkBlk 0 (exact []) (bytes_of "OSMData")]) by (symmetry; vm_compute; reflexivity).
    cbn [bind mapm]. unfold decompress_block.
    replace (ReadBlob _ _) with (Ok Blob0) by (symmetry; vm_compute; reflexivity).
    cbn [bind]. unfold GetRawData, Blob0. cbn [blob_Raw blob_ZLibData bind]. reflexivity.
Qed.
