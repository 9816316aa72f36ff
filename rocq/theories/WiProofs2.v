(** * WiProofs2: the worker and the writer of the way index. *)
From Verif Require Import Base PbSpec PbModel TModel HLModel FrModel ZlModel IoModel IoSpec WiModel WiSpec.
From Verif Require Import BaseLemmas PbProofs PbProofs2 PbThms IoThms NiProofs NiProofs3 NiProofs4 WiProofs.
From Verif Require HLProofs.

(** ** one way *)
Lemma dedupe_kept refs : forall last, wi_dedupe refs last = kept last refs.
Proof.
  induction refs as [|r refs IH]; intros last; [reflexivity|]. cbn [wi_dedupe kept]. destruct (Z.eqb_spec r last) as [->|N]; cbn [negb app]; rewrite IH; reflexivity.
Qed.
Lemma kept_norepeat refs : forall prev l1 x y l2, prev :: kept prev refs = l1 ++ x :: y :: l2 -> x <> y.
Proof.
  induction refs as [|r refs IH]; intros prev l1 x y l2 H; cbn [kept] in H.
  - destruct l1 as [|? [|? ?]]; discriminate.
  - destruct (Z.eqb_spec r prev) as [->|N]; cbn [app] in H; [exact (IH prev l1 x y l2 H)|].
    destruct l1 as [|a l1]; cbn [app] in H.
    + assert (A : prev = x) by congruence. assert (B : r = y) by congruence. congruence.
    + assert (B : r :: kept r refs = l1 ++ x :: y :: l2) by congruence. exact (IH r l1 x y l2 B).
Qed.
Lemma kept_Forall P refs : forall prev, Forall P refs -> Forall P (kept prev refs).
Proof. induction refs as [|r refs IH]; intros prev H; [constructor|]. cbn [kept]. apply Forall_app. split; [destruct (r =? prev); [constructor|constructor; [exact (Forall_inv H)|constructor]]|]. apply IH. exact (Forall_inv_tail H). Qed.
Lemma kept_len refs : forall prev, zlen (kept prev refs) <= zlen refs.
Proof. induction refs as [|r refs IH]; intros prev; [reflexivity|]. cbn [kept]. rewrite zlen_app, zlen_cons. specialize (IH r). destruct (r =? prev); [unfold zlen at 1|change (zlen [r]) with 1]; cbn [List.length]; lia. Qed.
Definition way_enc (refs : list Z) : list Z := EncodeS64PackedDeltaZero [] (kept 0 refs).
Lemma way_enc_eq refs : way_enc refs = vencs (map EncodeZigZag (deltas s64 0 (kept 0 refs))) ++ [0].
Proof. unfold way_enc, EncodeS64PackedDeltaZero. rewrite enc_deltas_eq. reflexivity. Qed.
Lemma way_enc_bytes refs : bytes (way_enc refs).
Proof. rewrite way_enc_eq. apply Forall_app. split; [apply vencs_bytes, zz_deltas_u64|]. constructor; [unfold is_u8; lia|constructor]. Qed.
Lemma vencs_upper raws : Forall is_u64 raws -> zlen (vencs raws) <= 10 * zlen raws.
Proof.
  induction 1 as [|x l Hx Hl IH]; [reflexivity|]. unfold vencs in *. cbn [map concat]. rewrite zlen_app, zlen_cons. pose proof (venc_length x Hx). unfold zlen in *. lia.
Qed.
Lemma deltas_len w values : forall last, List.length (deltas w last values) = List.length values.
Proof. induction values as [|v values IH]; intros last; [reflexivity|]. cbn [deltas List.length]. rewrite IH. reflexivity. Qed.
Lemma way_enc_len refs : 1 <= zlen (way_enc refs) <= 10 * zlen refs + 1.
Proof.
  rewrite way_enc_eq, zlen_app. change (zlen [0]) with 1. pose proof (vencs_upper _ (zz_deltas_u64 0 (kept 0 refs))) as U.
  rewrite zlen_map in U. assert (D : zlen (deltas s64 0 (kept 0 refs)) = zlen (kept 0 refs)) by (unfold zlen; rewrite deltas_len; reflexivity).
  rewrite D in U. pose proof (kept_len refs 0). pose proof (zlen_nonneg (vencs (map EncodeZigZag (deltas s64 0 (kept 0 refs))))). lia.
Qed.
(** the bytes of a way *)
Definition way_bytes (a : Z) (refs : list Z) : list Z :=
  way_enc refs ++ repeat 0 (Z.to_nat (2^a - zlen (way_enc refs) mod 2^a)).
Lemma way_bytes_bytes a refs : bytes (way_bytes a refs).
Proof. apply Forall_app. split; [apply way_enc_bytes|]. apply Forall_forall. intros x H. apply repeat_spec in H. subst x. unfold is_u8; lia. Qed.
Lemma way_bytes_len a refs : 0 <= a -> exists m, zlen (way_bytes a refs) = m * 2^a /\ 1 <= m /\ zlen (way_bytes a refs) <= 10 * zlen refs + 1 + 2^a.
Proof.
  intros H. pose proof (zpow_pos a H) as P. pose proof (Z.mod_pos_bound (zlen (way_enc refs)) (2^a) P) as M.
  pose proof (Z.div_mod (zlen (way_enc refs)) (2^a)) as D. pose proof (way_enc_len refs) as L.
  exists (zlen (way_enc refs) / 2^a + 1). unfold way_bytes. rewrite zlen_app, zlen_repeat.
  assert (0 <= zlen (way_enc refs) / 2^a) by (apply Z.div_pos; lia). lia.
Qed.

(** ** one block *)
Fixpoint way_dirs (a off : Z) (ws : list (Z * list Z)) : list (Z * Z) :=
  match ws with
  | [] => []
  | (id, refs) :: r => (id, off) :: way_dirs a (off + zlen (way_bytes a refs) / 2^a) r
  end.
Definition mk (p : Z * Z) : res Z := MakeIndexData (fst p) (snd p).
Definition all_bytes (a : Z) (ws : list (Z * list Z)) : list Z := concat (map (fun w => way_bytes a (snd w)) ws).
Lemma pad_spec a out refs m : 0 <= a -> zlen out = m * 2^a -> padToAlignment (out ++ way_enc refs) (2^a) = Ok (out ++ way_bytes a refs).
Proof.
  intros Ha Hm. pose proof (zpow_pos a Ha) as P. unfold padToAlignment. replace (2^a =? 0) with false by lia.
  rewrite zlen_app, Hm. pose proof (way_enc_len refs) as L. assert (0 <= m * 2^a) by (rewrite <- Hm; apply zlen_nonneg).
  rewrite Z.rem_mod_nonneg by lia. rewrite Z.add_comm, Z.mod_add by lia.
  pose proof (Z.mod_pos_bound (zlen (way_enc refs)) (2^a) P) as M.
  replace (2^a - zlen (way_enc refs) mod 2^a <? 0) with false by lia. unfold way_bytes. rewrite app_assoc. reflexivity.
Qed.
Lemma ways_fold a ws : 0 <= a -> Forall (fun w => is_s64 (way_ID w)) ws -> forall ds out m, zlen out = m * 2^a ->
  foldm (wi_way a (2^a)) ws (ds, out) =
  (ds' <- mapm mk (way_dirs a m (map (fun w => (way_ID w, way_Refs w)) ws)) ;;
   Ok (ds ++ ds', out ++ all_bytes a (map (fun w => (way_ID w, way_Refs w)) ws))).
Proof.
  intros Ha. pose proof (zpow_pos a Ha) as P. induction ws as [|w ws IH]; intros T ds out m Hm; cbn [foldm map way_dirs mapm].
  - cbn [bind]. unfold all_bytes. cbn [map concat]. rewrite !app_nil_r. reflexivity.
  - unfold wi_way at 1. rewrite (s64_id (way_ID w)) by exact (Forall_inv T). unfold mk at 1. cbn [fst snd].
    rewrite Hm. rewrite Z.shiftr_div_pow2 by lia. rewrite Z.div_mul by lia.
    destruct (MakeIndexData (way_ID w) m) as [d|p|]; cbn [bind]; [|reflexivity..].
    rewrite dedupe_kept. change (EncodeS64PackedDeltaZero [] (kept 0 (way_Refs w))) with (way_enc (way_Refs w)).
    rewrite (pad_spec a out (way_Refs w) m Ha Hm). cbn [bind].
    destruct (way_bytes_len a (way_Refs w) Ha) as (k & Ek & _ & _).
    rewrite (IH (Forall_inv_tail T) (ds ++ [d]) (out ++ way_bytes a (way_Refs w)) (m + k)) by (rewrite zlen_app, Ek; lia).
    rewrite Ek, Z.div_mul by lia. destruct (mapm mk _) as [ds'|p|]; cbn [bind]; [|reflexivity..].
    unfold all_bytes. cbn [map concat snd]. rewrite <- !app_assoc. reflexivity.
Qed.
Lemma foldm_groups {St} (f : St -> Way -> res St) gs : forall s,
  foldm (fun s pg => match pg_Ways pg with None => Ok s | Some ws => foldm f ws s end) gs s
  = foldm f (flat_map (fun g => match pg_Ways g with None => [] | Some ws => ws end) gs) s.
Proof.
  induction gs as [|g gs IH]; intros s; [reflexivity|]. cbn [foldm flat_map]. rewrite foldm_app.
  destruct (pg_Ways g) as [ws|]; cbn [bind foldm]; [|apply IH]. destruct (foldm f ws s) as [s'|p|]; cbn [bind]; [apply IH|reflexivity..].
Qed.
Definition raw_ways (p : PrimitiveBlock) : list Way := flat_map (fun g => match pg_Ways g with None => [] | Some ws => ws end) (pblk_PrimitiveGroup p).
Lemma block_ways_raw p : block_ways p = map (fun w => (way_ID w, way_Refs w)) (raw_ways p).
Proof.
  unfold block_ways, raw_ways. induction (pblk_PrimitiveGroup p) as [|g gs IH]; [reflexivity|]. cbn [flat_map]. rewrite map_app, IH. destruct (pg_Ways g); reflexivity.
Qed.
Lemma batch_eq a p : 0 <= a <= 62 -> Forall (fun w => is_s64 (fst w)) (block_ways p) ->
  wi_batch a p = (ds <- mapm mk (way_dirs a 0 (block_ways p)) ;; Ok (ds, all_bytes a (block_ways p))).
Proof.
  intros Ha T. unfold wi_batch. rewrite go_shl_ok; [|lia|lia|].
  - cbn [bind]. rewrite Z.mul_1_l. rewrite foldm_groups. fold (raw_ways p). rewrite block_ways_raw.
    rewrite (ways_fold a (raw_ways p) ltac:(lia)) with (m := 0).
    + destruct (mapm mk _); reflexivity.
    + rewrite block_ways_raw in T. rewrite Forall_map in T. exact T.
    + reflexivity.
  - assert (2^a <= 2^62) by (apply Z.pow_le_mono_r; lia). lia.
Qed.

(** entries of all ways, positions from [off] on *)
Fixpoint entries_of (a off : Z) (ws : list (Z * list Z)) : list entry :=
  match ws with
  | [] => []
  | (id, refs) :: r => mkEntry id off :: entries_of a (off + zlen (way_bytes a refs) / 2^a) r
  end.
Lemma all_bytes_cons a w ws : all_bytes a (w :: ws) = way_bytes a (snd w) ++ all_bytes a ws.
Proof. reflexivity. Qed.
Lemma all_bytes_app a x y : all_bytes a (x ++ y) = all_bytes a x ++ all_bytes a y.
Proof. unfold all_bytes. rewrite map_app, concat_app. reflexivity. Qed.
Lemma all_bytes_len a ws : 0 <= a -> exists m, zlen (all_bytes a ws) = m * 2^a /\ zlen ws <= m /\ zlen (all_bytes a ws) <= size_bound a ws.
Proof.
  intros Ha. induction ws as [|[id refs] ws (m & E & L & S)]; [exists 0; unfold zlen; cbn; lia|].
  destruct (way_bytes_len a refs Ha) as (k & Ek & Lk & Sk). exists (k + m). rewrite all_bytes_cons, zlen_app, zlen_cons. cbn [snd size_bound fold_right].
  fold (size_bound a ws). rewrite E, Ek in *. lia.
Qed.
Lemma mk_ok a ws : 0 <= a -> Forall (fun w => 0 <= fst w < 2^31) ws -> forall off, 0 <= off ->
  off * 2^a + zlen (all_bytes a ws) <= 2^(33 + a) ->
  mapm mk (way_dirs a off ws) = Ok (map word_of (entries_of a off ws)) /\ Forall entry_ok (entries_of a off ws).
Proof.
  intros Ha. pose proof (zpow_pos a Ha) as P. rewrite Z.pow_add_r by lia. induction ws as [|[id refs] ws IH]; intros T off Ho Hb; cbn [way_dirs entries_of mapm map]; [split; [reflexivity|constructor]|].
  destruct (way_bytes_len a refs Ha) as (k & Ek & Lk & _). rewrite all_bytes_cons, zlen_app in Hb. cbn [snd] in Hb. rewrite Ek in Hb.
  pose proof (zlen_nonneg (all_bytes a ws)). pose proof (Forall_inv T) as Ti. cbn [fst] in Ti.
  assert (off < 2^33) by nia.
  unfold mk at 1. cbn [fst snd]. rewrite Make_ok by lia. cbn [bind]. rewrite Ek, Z.div_mul by lia.
  destruct (IH (Forall_inv_tail T) (off + k) ltac:(lia) ltac:(nia)) as (-> & F). split; [reflexivity|]. constructor; [split; cbn [e_id e_off]; lia|exact F].
Qed.
Lemma entries_app a : 0 <= a -> forall x off y, entries_of a off (x ++ y) = entries_of a off x ++ entries_of a (off + zlen (all_bytes a x) / 2^a) y.
Proof.
  intros Ha. pose proof (zpow_pos a Ha) as P. induction x as [|[id refs] x IH]; intros off y.
  - cbn [app entries_of]. unfold all_bytes. cbn. rewrite Z.add_0_r. reflexivity.
  - cbn [app entries_of]. rewrite IH, all_bytes_cons, zlen_app. cbn [snd]. destruct (way_bytes_len a refs Ha) as (k & Ek & _). destruct (all_bytes_len a x Ha) as (m & Em & _).
    rewrite Ek, Em, <- Z.mul_add_distr_r, !Z.div_mul by lia. rewrite Z.add_assoc. reflexivity.
Qed.
Lemma entries_ids a ws : forall off, map e_id (entries_of a off ws) = map fst ws.
Proof. induction ws as [|[id refs] ws IH]; intros off; [reflexivity|]. cbn [entries_of map fst e_id]. rewrite IH. reflexivity. Qed.
Lemma entries_shift a d ws : forall off, map (fun e => mkEntry (e_id e) (d + e_off e)) (entries_of a off ws) = entries_of a (d + off) ws.
Proof. induction ws as [|[id refs] ws IH]; intros off; [reflexivity|]. cbn [entries_of map e_id e_off]. rewrite IH, Z.add_assoc. reflexivity. Qed.

(** ** one message *)
Lemma worker_ok a b ws : 0 <= a <= 62 -> ways_block b ws -> Forall (fun w => 0 <= fst w < 2^31) ws -> size_bound a ws <= 2^(33 + a) ->
  exists m, wi_worker a (fst b) (snd b) = Ok m /\ ways_typed [m] /\
    way_batches [m] = match ws with [] => [] | _ => [(map word_of (entries_of a 0 ws), all_bytes a ws)] end.
Proof.
  intros Ha Hb Hi Hs. unfold wi_worker. destruct Hb as [(N1 & N2 & ->)|(E & bl & raw & p & R1 & R2 & R3 & ->)].
  - destruct (HLProofs.seqb_spec (blk_Type (snd b)) tOSMData) as [E|_]; [contradiction|]. cbn [negb]. eexists. split; [reflexivity|]. split.
    + intros m [<-|[]] E. cbn [wm_Type] in E. contradiction.
    + unfold way_batches. cbn [flat_map wm_Type]. destruct (HLProofs.seqb_spec (blk_Type (snd b)) (bytes_of "IndexData")); [contradiction|reflexivity].
  - rewrite E. change (seqb (bytes_of "OSMData") tOSMData) with true. cbn [negb]. rewrite R1. cbn [bind]. rewrite R2. cbn [bind].
    unfold wi_reader. rewrite R3. cbn [bind].
    rewrite batch_eq; [|exact Ha|apply (Forall_impl _ (P := fun w => 0 <= fst w < 2^31)); [intros w Hw; unfold is_s64; lia|exact Hi]].
    destruct (all_bytes_len a (block_ways p) ltac:(lia)) as (m & Em & Lm & Sm).
    destruct (mk_ok a (block_ways p) ltac:(lia) Hi 0 ltac:(lia) ltac:(lia)) as (-> & F). cbn [bind fst].
    eexists. split; [reflexivity|]. rewrite zlen_map.
    assert (ZE : zlen (entries_of a 0 (block_ways p)) = zlen (block_ways p)).
    { rewrite <- (zlen_map e_id), entries_ids, zlen_map. reflexivity. }
    rewrite ZE. destruct (block_ways p) as [|w ws'] eqn:EW.
    + split; [|reflexivity]. intros x [<-|[]] Et. discriminate Et.
    + rewrite zlen_cons. pose proof (zlen_nonneg ws'). replace (1 + zlen ws' =? 0) with false by lia. split; [intros x [<-|[]] _; discriminate|]. reflexivity.
Qed.

(** ** the writer loop *)
Lemma rebase_ok es off : Forall entry_ok es -> 0 <= off < 2^62 -> Forall (fun e => off + e_off e < 2^33) es ->
  wi_rebase (map word_of es) off = Ok (map word_of (map (fun e => mkEntry (e_id e) (off + e_off e)) es)).
Proof.
  intros H Ho. induction H as [|e es He _ IH]; intros Hb; [reflexivity|]. cbn [map wi_rebase]. rewrite word_id, word_off by exact He.
  pose proof (Forall_inv Hb) as B. cbn beta in B. destruct He as (E1 & E2).
  rewrite s64_id by (unfold is_s64; lia). rewrite Z.add_comm, Make_ok by lia. cbn [bind]. rewrite (IH (Forall_inv_tail Hb)). reflexivity.
Qed.
Lemma bytes_of_merged shift off bs x : merged shift off (x :: bs) = map (fun e => mkEntry (e_id e) (off + e_off e)) (fst x) ++ merged shift (off + zlen (snd x) / 2^shift) bs.
Proof. destruct x. reflexivity. Qed.
Lemma Forall2_nil_l {A B} (R : A -> B -> Prop) l : Forall2 R [] l -> l = [].
Proof. inversion 1. reflexivity. Qed.
Lemma wi_write_batches_ok o shift msgs : writes_whole o -> 0 <= shift <= 62 -> ways_typed msgs -> forall bs off cnt w,
  Forall2 batch_as (way_batches msgs) bs -> 0 <= off -> off + zlen (locs_of bs) / 2^shift < 2^62 ->
  Forall (fun e => e_off e < 2^33) (merged shift off bs) -> 0 <= cnt -> cnt + zlen (merged shift off bs) < 2^63 ->
  Forall (fun b => zlen (snd b) mod 2^shift = 0) bs -> at_end (w_idx w) -> at_end (w_loc w) ->
  exists w', wi_write_batches o shift msgs off cnt w = (w', Ok (cnt + zlen (merged shift off bs))) /\ at_end (w_idx w') /\ at_end (w_loc w') /\
    f_data (w_idx w') = f_data (w_idx w) ++ SliceAsByteSlice (map word_of (merged shift off bs)) /\
    f_data (w_loc w') = f_data (w_loc w) ++ locs_of bs.
Proof.
  intros W Hsh. pose proof (zpow_pos shift ltac:(lia)) as P. induction msgs as [|m msgs IH]; intros T bs off cnt w F2 H0 Hl Hs Hc Hn Hm A1 A2; cbn [wi_write_batches].
  - apply Forall2_nil_l in F2. subst bs. exists w. unfold locs_of. cbn. rewrite !app_nil_r. unfold zlen. cbn [List.length]. change (Z.of_nat 0) with 0. rewrite Z.add_0_r. auto.
  - assert (T' : ways_typed msgs) by (intros x Hx; apply T; right; exact Hx).
    unfold way_batches in F2. cbn [flat_map] in F2. fold (way_batches msgs) in F2. change tWayIndexData with (bytes_of "IndexData").
    destruct (seqb (wm_Type m) (bytes_of "IndexData")) eqn:Et; cbn [negb].
    + destruct (wm_Batch m) as [[blocks locations]|] eqn:Eb.
      2:{ exfalso. refine (T m (or_introl eq_refl) _ Eb). destruct (HLProofs.seqb_spec (wm_Type m) (bytes_of "IndexData")); [assumption|discriminate]. }
      cbn [app] in F2. inversion F2 as [|x y xs ys B F2' E1 E2]. subst. destruct y as [es locs]. destruct B as (B1 & B2 & B3). cbn [fst snd] in B1, B2, B3. subst blocks locations.
      cbn [merged] in Hs, Hn |- *. rewrite zlen_app, zlen_map in Hn. apply Forall_app in Hs. destruct Hs as (Hs1 & Hs2).
      unfold locs_of in Hl. cbn [map concat snd] in Hl. fold (locs_of ys) in Hl. rewrite zlen_app in Hl.
      pose proof (Forall_inv Hm) as Hm1. cbn [snd] in Hm1.
      pose proof (Z.div_mod (zlen locs) (2^shift)) as DM.
      assert (DV : (zlen locs + zlen (locs_of ys)) / 2^shift = zlen locs / 2^shift + zlen (locs_of ys) / 2^shift).
      { replace (zlen locs + zlen (locs_of ys)) with (zlen locs / 2^shift * 2^shift + zlen (locs_of ys)) by lia. apply Z.div_add_l. lia. }
      assert (D0 : 0 <= zlen locs / 2^shift) by (apply Z.div_pos; [apply zlen_nonneg|lia]).
      assert (D1 : 0 <= zlen (locs_of ys) / 2^shift) by (apply Z.div_pos; [apply zlen_nonneg|lia]).
      pose proof (zlen_nonneg (merged shift (off + zlen locs / 2^shift) ys)) as Z1. pose proof (zlen_nonneg es) as Z2.
      unfold io_bind at 1, io_lift at 1. rewrite rebase_ok; [|exact B2|lia|rewrite Forall_map in Hs1; exact Hs1].
      unfold io_bind at 1. unfold idx_WriteSlice. rewrite FWriteSlice_whole by assumption.
      unfold io_bind at 1. unfold loc_Write. cbn [w_k w_idx w_loc].
      destruct (pC68_write o (S (w_k w)) (w_loc w) locs A2) as (k' & f' & r & -> & A3 & _ & _ & D3 & Pr & _).
      specialize (Pr (whole_progress o W)). subst r. specialize (D3 eq_refl).
      unfold io_bind at 1, io_lift at 1. replace (shift <? 0) with false by lia.
      rewrite Z.shiftr_div_pow2 by lia. rewrite (s64_id (off + _)) by (unfold is_s64; lia). rewrite zlen_map. rewrite (s64_id (cnt + _)) by (unfold is_s64; lia).
      edestruct (IH T' ys (off + zlen locs / 2^shift) (cnt + zlen es) (mkW k' (app_file (w_idx w) (SliceAsByteSlice (map word_of (map (fun e => mkEntry (e_id e) (off + e_off e)) es)))) f'))
        as (w' & E & C1 & C2 & G1 & G2); [exact F2'|lia|lia|exact Hs2|lia|lia|exact (Forall_inv_tail Hm)|reflexivity|exact A3|].
      exists w'. rewrite E. split; [rewrite zlen_app, zlen_map, Z.add_assoc; reflexivity|]. split; [exact C1|]. split; [exact C2|].
      cbn [w_idx w_loc] in G1, G2. rewrite app_file_data in G1. rewrite G1, G2, D3. unfold locs_of. cbn [map concat snd]. rewrite map_app, SliceAsByteSlice_app, !app_assoc. auto.
    + cbn [app] in F2. apply IH; assumption.
Qed.

(** ** opening *)
Lemma le64_get_word data n : 0 <= n -> 8 * (n + 1) <= zlen data -> forall ws rest, data = SliceAsByteSlice ws ++ rest -> forall w, nth_error ws (Z.to_nat n) = Some w ->
  lslice data (8 * n) (8 * n + 8) = Ok (le64 w).
Proof.
  intros Hn Hz ws rest -> w E. apply nth_error_split in E. destruct E as (l1 & l2 & -> & L).
  unfold lslice. replace ((0 <=? 8 * n) && (8 * n <=? 8 * n + 8) && (8 * n + 8 <=? zlen (SliceAsByteSlice (l1 ++ w :: l2) ++ rest))) with true by lia.
  f_equal. rewrite SliceAsByteSlice_app, <- app_assoc. change (SliceAsByteSlice (w :: l2)) with (le64 w ++ SliceAsByteSlice l2).
  replace (Z.to_nat (8 * n)) with (List.length (SliceAsByteSlice l1)) by (rewrite flat_len; lia).
  rewrite skipn_app, Nat.sub_diag, skipn_O, skipn_all. cbn [app]. replace (Z.to_nat (8 * n + 8 - 8 * n)) with 8%nat by lia. reflexivity.
Qed.
Lemma open_way words shift loc : 0 <= shift <= 62 -> zlen words < 2^59 -> Forall is_u64 words ->
  NewWayIndex (SliceAsByteSlice (zlen words :: shift :: words) ++ loc) = Ok (mkWI words loc shift).
Proof.
  intros Hs Hw U. unfold NewWayIndex. set (data := SliceAsByteSlice (zlen words :: shift :: words) ++ loc).
  assert (LD : zlen data = 16 + 8 * zlen words + zlen loc) by (unfold data; rewrite zlen_app; unfold zlen at 1; rewrite flat_len; cbn [List.length]; unfold zlen; lia).
  pose proof (zlen_nonneg words) as W0. pose proof (zlen_nonneg loc) as L0.
  assert (M : MMapMap data = Ok data) by reflexivity.
  rewrite M. cbn [bind]. change (lslice data 0 8) with (lslice data (8 * 0) (8 * 0 + 8)).
  rewrite (le64_get_word data 0 ltac:(lia) ltac:(lia) _ _ eq_refl (zlen words) eq_refl). cbn [bind].
  change (lslice data 8 16) with (lslice data (8 * 1) (8 * 1 + 8)).
  rewrite (le64_get_word data 1 ltac:(lia) ltac:(lia) _ _ eq_refl shift eq_refl). cbn [bind].
  rewrite !le64_get_le64. rewrite (u64_id (zlen words)) by (unfold is_u64; lia). rewrite (u64_id shift) by (unfold is_u64; lia).
  rewrite (u64_id (zlen words * 8)) by (unfold is_u64; lia). rewrite (u64_id (16 + _)) by (unfold is_u64; lia). rewrite (s64_id shift) by (unfold is_s64; lia).
  assert (D2 : data = (SliceAsByteSlice [zlen words; shift] ++ SliceAsByteSlice words) ++ loc) by reflexivity.
  assert (LW : List.length (SliceAsByteSlice words) = Z.to_nat (zlen words * 8)) by (rewrite flat_len; unfold zlen; lia).
  unfold lslice at 1. replace ((0 <=? 16) && (16 <=? 16 + zlen words * 8) && (16 + zlen words * 8 <=? zlen data)) with true by lia. cbn [bind].
  unfold lslice. replace ((0 <=? 16 + zlen words * 8) && (16 + zlen words * 8 <=? zlen data) && (zlen data <=? zlen data)) with true by lia. cbn [bind].
  f_equal. f_equal.
  - replace (Z.to_nat (16 + zlen words * 8 - 16)) with (List.length (SliceAsByteSlice words)) by (rewrite LW; lia).
    rewrite D2, <- app_assoc. change (Z.to_nat 16) with (List.length (SliceAsByteSlice [zlen words; shift])).
    rewrite skipn_app, Nat.sub_diag, skipn_O, skipn_all. cbn [app]. rewrite firstn_app, Nat.sub_diag, firstn_O, firstn_all, app_nil_r.
    rewrite <- (app_nil_r (SliceAsByteSlice words)). rewrite uwords_back by reflexivity.
    clear - U. induction U as [|x l H _ IH]; [reflexivity|]. cbn [map]. rewrite IH, u64_id by exact H. reflexivity.
  - rewrite D2. replace (Z.to_nat (16 + zlen words * 8)) with (List.length (SliceAsByteSlice [zlen words; shift] ++ SliceAsByteSlice words)) by (rewrite app_length, LW, flat_len; cbn [List.length]; lia).
    rewrite skipn_app, Nat.sub_diag, skipn_O, skipn_all. cbn [app]. apply firstn_all2. rewrite <- D2, LD. unfold zlen. lia.
Qed.

(** ** the whole writer, cancelled or not *)
Lemma wi_output_ok o shift msgs bs : writes_whole o -> reads_progress o -> calls_succeed o -> 0 <= shift <= 62 -> ways_typed msgs ->
  Forall2 batch_as (way_batches msgs) bs -> zlen (locs_of bs) < 2^62 -> Forall entry_ok (merged shift 0 bs) -> zlen (merged shift 0 bs) < 2^59 ->
  Forall (fun b => zlen (snd b) mod 2^shift = 0) bs ->
  exists w loc', wi_output o shift msgs w0 = (w, Ok tt) /\
    NewWayIndex (f_data (w_idx w)) = Ok (way_index_of (merged shift 0 bs) loc' shift) /\
    prefix loc' (locs_of bs) /\ (never_cancelled o -> loc' = locs_of bs).
Proof.
  intros W R C Hsh T F2 LB EO NB MB. pose proof (zpow_pos shift ltac:(lia)) as P.
  unfold wi_output, wi_output_body.
  assert (C1 : forall w, io_call o w = (mkW (S (w_k w)) (w_idx w) (w_loc w), Ok tt)) by (intros w; unfold io_call; rewrite C; reflexivity).
  unfold io_bind at 1 2. rewrite C1. unfold io_bind at 1. rewrite C1. unfold io_bind at 1. cbn [w_k w_idx w_loc w0].
  unfold idx_WriteSlice at 1. cbn [w_k w_idx w_loc]. rewrite FWriteSlice_whole by (assumption || reflexivity).
  unfold io_bind at 1.
  match goal with |- context [wi_write_batches _ _ _ _ _ ?w] => set (wa := w) end.
  destruct (wi_write_batches_ok o shift msgs W Hsh T bs 0 0 wa) as (w1 & E1 & A1 & A2 & D1 & D2); [exact F2|lia| | |lia|lia|exact MB| | |].
  - assert (zlen (locs_of bs) / 2^shift <= zlen (locs_of bs)) by (apply Z.div_le_upper_bound; [lia|]; pose proof (zlen_nonneg (locs_of bs)); nia). lia.
  - apply (Forall_impl _ (P := entry_ok)); [intros e (_ & H); lia|exact EO].
  - reflexivity.
  - reflexivity.
  - unfold wa in *. clear wa. rewrite E1. unfold io_bind at 1, io_lift at 1. replace (shift <? 0) with false by lia.
    unfold io_bind at 1. unfold loc_rewind at 1. rewrite C. unfold io_bind at 1. unfold io_copy at 1. cbn [w_k w_idx w_loc f_data].
    destruct (pC69_copy o (S (w_k w1)) (w_idx w1) (f_data (w_loc w1)) (S (List.length (f_data (w_loc w1)))) A1 ltac:(lia))
      as (k' & dst' & src' & r & E2 & ND & A3 & _ & part & Pp & D3 & Wp).
    rewrite E2. destruct (Wp (whole_progress o W) R) as (-> & Full).
    unfold io_bind at 1. rewrite C1. unfold io_bind at 1. rewrite C1. unfold io_bind at 1. unfold idx_rewind at 1. rewrite C. cbn [w_k w_idx w_loc].
    unfold io_lift at 1. unfold io_bind at 1. unfold idx_WriteSlice at 1. cbn [w_k w_idx w_loc].
    (* the header *)
    unfold FWriteSlice, File_Write. rewrite W. rewrite clip_id by apply zlen_nonneg. rewrite Z.eqb_refl, firstn_zlen.
    rewrite C1. cbn [w_k w_idx w_loc]. unfold f_put. cbn [f_data f_pos]. change (Z.to_nat 0) with 0%nat. rewrite firstn_O. cbn [app Nat.add].
    cbn [w_k w_idx w_loc] in D1, D2. rewrite app_file_data in D1. cbn [f_data app] in D1, D2.
    rewrite D2 in Pp, Full.
    eexists. exists part. split; [reflexivity|]. cbn [w_idx f_data]. split; [|split; [exact Pp|exact Full]].
    rewrite D3, D1. rewrite flat_len. change (8 * List.length [(0 + zlen (merged shift 0 bs))%Z; shift])%nat with 16%nat.
    replace (skipn 16 ((SliceAsByteSlice [0; 0] ++ SliceAsByteSlice (map word_of (merged shift 0 bs))) ++ part))
      with (SliceAsByteSlice (map word_of (merged shift 0 bs)) ++ part) by (rewrite <- app_assoc; reflexivity).
    rewrite Z.add_0_l, app_assoc, <- SliceAsByteSlice_app. change ([zlen (merged shift 0 bs); shift] ++ map word_of (merged shift 0 bs)) with (zlen (merged shift 0 bs) :: shift :: map word_of (merged shift 0 bs)).
    rewrite <- (zlen_map word_of). rewrite open_way; [reflexivity|exact Hsh|rewrite zlen_map; lia|].
    apply Forall_map. apply (Forall_impl _ (P := entry_ok)); [intros e H; exact (word_u64 e H)|exact EO].
Qed.
