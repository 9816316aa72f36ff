(** * RwThms: the node rewriter, C52-C54. *)
From Verif Require Import Base PbSpec TModel TSpec HLModel FrModel FrSpec ZlModel IoModel TfSpec NiModel NiSpec NiThms RwModel RwSpec.
From Verif Require Import BaseLemmas PbModel PbProofs PbProofs2 TProofs TMsg TMsg2 TThms T2Thms HLProofs FrProofs FrThms ZlThms TTyped TfThms NiProofs NiProofs2 NiThms.
From Verif Require Import NiSpec RwSpec.

(** ** one pass over the refs *)
Definition good_index (rs : list range) (locs : list Z) (top : Z) : Prop :=
  Forall (range_ok locs) rs /\ ascending_ranges rs /\ top_of rs top.
Lemma linear_hint rs locs id : forall i loc h, linear_search rs locs id i = Some (loc, h) -> i <= h.
Proof.
  induction rs as [|r rs IH]; intros i loc h E; [discriminate|]. cbn [linear_search] in E. destruct (_ && _).
  - injection E as _ <-. lia.
  - apply IH in E. lia.
Qed.
Lemma rw_refs_spec rs locs top fin : good_index rs locs top -> forall refs hint, Forall is_s64 refs -> 0 <= hint ->
  exists h, 0 <= h /\ rw_refs (sub_index_of rs locs top) fin refs hint = Ok (map (new_ref rs locs) refs, h).
Proof.
  intros (Hok & Hasc & Ht). induction refs as [|ref refs IH]; intros hint T Hh; [exists hint; auto|]. cbn [rw_refs map].
  pose proof (Forall_inv T) as Tr. unfold is_s64 in Tr. apply Forall_inv_tail in T. unfold new_ref at 1.
  destruct (Z.ltb_spec ref 0) as [L|L].
  - destruct (IH hint T Hh) as (h & H0 & E). rewrite E. cbn [bind]. exists h. auto.
  - rewrite u64_id by (unfold is_u64; lia). rewrite (pC45_lookup rs locs top ref hint Hok Hasc Ht Hh).
    destruct (linear_search rs locs ref 0) as [[loc i]|] eqn:El; cbn [bind].
    + pose proof (linear_hint _ _ _ _ _ _ El). destruct (IH i T ltac:(lia)) as (h & H0 & E). rewrite E. cbn [bind]. exists h. split; [exact H0|].
      destruct (loc =? 0); cbn [negb]; [destruct fin; reflexivity|reflexivity].
    + destruct (IH hint T Hh) as (h & H0 & E). rewrite E. cbn [bind]. exists h. split; [exact H0|]. destruct fin; reflexivity.
Qed.
Lemma rw_ways_spec rs locs top fin : good_index rs locs top -> forall ws hint, Forall way_typed ws -> 0 <= hint ->
  exists h, 0 <= h /\ rw_ways (sub_index_of rs locs top) fin ws hint = Ok (map (refs_with (new_ref rs locs)) ws, h).
Proof.
  intros G. induction ws as [|w ws IH]; intros hint T Hh; [exists hint; auto|]. cbn [rw_ways map].
  pose proof (Forall_inv T) as (_ & _ & _ & Tr). destruct (rw_refs_spec rs locs top fin G _ hint Tr Hh) as (h & H0 & ->). cbn [bind].
  destruct (IH h (Forall_inv_tail T) H0) as (h' & H1 & ->). cbn [bind]. exists h'. auto.
Qed.
Lemma rw_groups_spec rs locs top fin : good_index rs locs top -> forall gs hint, Forall group_typed gs -> 0 <= hint ->
  exists h, rw_groups (sub_index_of rs locs top) fin gs hint = Ok (map (group_with (new_ref rs locs)) gs, h).
Proof.
  intros G. induction gs as [|g gs IH]; intros hint T Hh; [exists hint; auto|]. cbn [rw_groups map].
  pose proof (Forall_inv T) as (_ & _ & Tw & _). destruct (pg_Ways g) as [ws|] eqn:Ew.
  - destruct (rw_ways_spec rs locs top fin G ws hint (Tw ws eq_refl) Hh) as (h & H0 & ->). cbn [bind].
    destruct (IH h (Forall_inv_tail T) H0) as (h' & ->). cbn [bind]. exists h'. unfold group_with, set_ways. rewrite Ew. reflexivity.
  - cbn [bind]. destruct (IH hint (Forall_inv_tail T) Hh) as (h' & ->). cbn [bind]. exists h'. unfold group_with, set_ways. rewrite Ew. reflexivity.
Qed.

(** ** blocks as the rewriter reads them *)
Definition rw_group (g : PrimitiveGroup) : Prop := pg_Dense g = None /\ pg_RawWays g = [] /\ pg_Relations g = None /\ pg_Ways g <> Some [].
Definition rw_form (p : PrimitiveBlock) : Prop := pblk_StringTable p = None /\ Forall rw_group (pblk_PrimitiveGroup p).
Lemma ReadGroup_rw b g : ReadPrimitiveGroup rw_reader b PrimitiveGroup0 = Ok g -> rw_group g.
Proof.
  apply read_msg_typed; [|repeat split; discriminate]. intros id n n' upd H s (S1 & S2 & S3 & S4). unfold group_handler, rw_reader in H.
  cbn [SkipDenseNodes SkipWays SkipRelations] in H.
  repeat hstep H; unfold rw_group; cbn [pg_Dense pg_RawDense pg_Ways pg_RawWays pg_Relations pg_RawRelations]; (split; [|split; [|split]]); try assumption.
  unfold opt_append. destruct (pg_Ways s) as [l|]; [|discriminate]. intros X. injection X as X. destruct l; discriminate.
Qed.
Lemma ReadBlock_rw b p : ReadPrimitiveBlock rw_reader b PrimitiveBlock0 = Ok p -> rw_form p.
Proof.
  apply read_msg_typed; [|split; [reflexivity|constructor]]. intros id n n' upd H s (S1 & S2). unfold block_handler, rw_reader in H.
  cbn [SkipStringTable] in H.
  repeat hstep H; unfold rw_form; cbn [pblk_StringTable pblk_PrimitiveGroup]; (split; [|]); try assumption.
  apply Forall_app. split; [assumption|]. constructor; [|constructor]. eapply ReadGroup_rw. eassumption.
Qed.
Lemma rw_form_form p : rw_form p -> block_form rw_reader p.
Proof.
  intros (A & B). split; [exact A|]. revert B. apply Forall_impl. intros g (G1 & G2 & G3 & _). unfold group_form, rw_reader. cbn. auto.
Qed.
Lemma rw_form_norm p : rw_form p -> block_norm p = p.
Proof.
  intros (A & B). destruct p as [raw st gs g1 g2 g3 g4]. unfold block_norm. cbn in *. f_equal.
  induction B as [|g gs (G1 & G2 & G3 & G4) B IH]; [reflexivity|]. cbn [map]. rewrite IH. f_equal.
  destruct g as [rd d ws rw rl rr]. cbn in *. unfold group_norm. cbn. subst. cbn. f_equal. destruct ws as [[|w ws]|]; [congruence|reflexivity..].
Qed.
Lemma rw_form_with f p : rw_form p -> rw_form (block_with f p).
Proof.
  intros (A & B). split; [exact A|]. unfold block_with. cbn. apply Forall_map. revert B. apply Forall_impl. intros g (G1 & G2 & G3 & G4).
  unfold rw_group, group_with. cbn. repeat (split; [assumption|]). destruct (pg_Ways g) as [[|w ws]|]; [congruence|discriminate..].
Qed.
Definition s64_fun (f : Z -> Z) : Prop := forall x, is_s64 x -> is_s64 (f x).
Lemma typed_with f p : s64_fun f -> block_typed p -> block_typed (block_with f p).
Proof.
  intros Hf (S1 & S2 & S3 & S4). split; [exact S1|]. split; [exact S2|]. split; [|exact S4]. unfold block_with. cbn. apply Forall_map. revert S3.
  apply Forall_impl. intros g (G1 & G2 & G3 & G4 & G5 & G6). unfold group_typed, group_with. cbn. split; [exact G1|]. split; [exact G2|]. split; [|auto].
  intros ws E. destruct (pg_Ways g) as [l|] eqn:El; [|discriminate]. injection E as <-. apply Forall_map. generalize (G3 l eq_refl). apply Forall_impl.
  intros w (W1 & W2 & W3 & W4). split; [exact W1|]. split; [exact W2|]. split; [exact W3|]. unfold refs_with. cbn. apply Forall_map. revert W4. apply Forall_impl. exact Hf.
Qed.
Lemma new_ref_s64 rs locs : Forall is_s64 locs -> s64_fun (new_ref rs locs).
Proof.
  intros L x Hx. unfold new_ref. destruct (x <? 0); [exact Hx|]. destruct (linear_search_spec locs x rs 0) as [(k & r & _ & _ & ->)|(_ & ->)]; [|exact Hx].
  destruct (_ =? 0); [exact Hx|].
  destruct (nth_in_or_default (Z.to_nat (r_offset r + (x - r_first r))) locs 0) as [H|H]; [exact (proj1 (Forall_forall _ _) L _ H)|rewrite H; unfold is_s64; lia].
Qed.
Lemma count_ways_spec gs : forall n, 0 <= n ->
  (fold_left (fun n g => n + match pg_Ways g with Some ws => zlen ws | None => 0 end) gs n = n /\ (forall g, In g gs -> elems (pg_Ways g) = [])) \/
  (n < fold_left (fun n g => n + match pg_Ways g with Some ws => zlen ws | None => 0 end) gs n /\ exists g w ws, In g gs /\ pg_Ways g = Some ws /\ In w ws).
Proof.
  induction gs as [|g gs IH]; intros n H; cbn [fold_left]; [left; split; [reflexivity|intros ? []]|].
  destruct (pg_Ways g) as [[|w ws]|] eqn:E.
  - change (zlen (@nil Way)) with 0. rewrite Z.add_0_r. destruct (IH n H) as [(A & B)|(A & g' & w & ws & B & C)].
    + left. split; [exact A|]. intros g' [<-|Hg]; [rewrite E; reflexivity|auto].
    + right. split; [exact A|]. exists g', w, ws. split; [right; exact B|exact C].
  - pose proof (zlen_nonneg ws). assert (zlen (w :: ws) = zlen ws + 1) by (unfold zlen; cbn [List.length]; lia).
    right. split; [destruct (IH (n + zlen (w :: ws)) ltac:(lia)) as [(A & _)|(A & _)]; lia|]. exists g, w, (w :: ws). split; [left; reflexivity|]. split; [exact E|left; reflexivity].
  - rewrite Z.add_0_r. destruct (IH n H) as [(A & B)|(A & g' & w & ws & B & C)].
    + left. split; [exact A|]. intros g' [<-|Hg]; [rewrite E; reflexivity|auto].
    + right. split; [exact A|]. exists g', w, ws. split; [right; exact B|exact C].
Qed.
Lemma count_zero p : (count_ways (pblk_PrimitiveGroup p) =? 0) = true <-> ~ has_way p.
Proof.
  unfold count_ways. destruct (count_ways_spec (pblk_PrimitiveGroup p) 0 ltac:(lia)) as [(A & B)|(A & C)].
  - rewrite A. split; [|reflexivity]. intros _ (g & w & ws & Hg & E & Hw). specialize (B g Hg). rewrite E in B. cbn in B. subst. destruct Hw.
  - split; [lia|]. intros N. exfalso. apply N. destruct C as (g & w & ws & C). exists g, w, ws. exact C.
Qed.
Definition rw_out (p : PrimitiveBlock) : res (list Z) := Blob_Write (mkBlob None None None (Some (PrimitiveBlock_Write p))) [].
Lemma worker_holds env b rs locs top fin p : blk_Type b = tOSMData -> holds env (blk_Data b) p -> block_typed p -> good_index rs locs top ->
  (~ has_way p -> rw_worker env (sub_index_of rs locs top) fin b = Ok b) /\
  (has_way p -> rw_worker env (sub_index_of rs locs top) fin b =
     (out <- rw_out (block_with (new_ref rs locs) p) ;; Ok (mkBlk (blk_Index b) (exact out) tOSMData))).
Proof.
  intros Ty (bl & raw & E1 & E2 & E3) T G. unfold rw_worker. rewrite Ty, seqb_refl. cbn [negb]. rewrite E1. cbn [bind]. rewrite E2. cbn [bind].
  unfold rw_reader. rewrite E3. cbn [bind]. split; intros H.
  - rewrite (proj2 (count_zero p) H). reflexivity.
  - destruct (count_ways (pblk_PrimitiveGroup p) =? 0) eqn:E; [apply count_zero in E; contradiction|].
    destruct (rw_groups_spec rs locs top fin G (pblk_PrimitiveGroup p) 0) as (h & ->); [apply T|lia|]. reflexivity.
Qed.
Lemma out_len p out : rw_out p = Ok out -> zlen out < 2^31.
Proof.
  intros H. pose proof (PrimitiveBlock_Write_app p) as A. unfold rw_out in H.
  apply (Blob_Write_func_app (mkBlob None None None (Some (PrimitiveBlock_Write p))) _ _ _ eq_refl A) in H as [[F Hlt] E].
  subst out. unfold fixed_field, blob_size_part, blob_zlib_part. cbn [blob_RawSize blob_ZLibData app]. rewrite !app_nil_r, !zlen_app.
  pose proof (venc_zlen (MakeIdType blobRaw PbFixedBytes) ltac:(vm_compute; split; discriminate || reflexivity)).
  assert (F' : forall n v, zlen (leb_fixed n v) = Z.of_nat n) by (intros; unfold zlen; rewrite leb_fixed_length; reflexivity).
  rewrite F'. lia.
Qed.
Lemma has_way_with f p : has_way (block_with f p) <-> has_way p.
Proof.
  unfold has_way, block_with. cbn. split.
  - intros (g & w & ws & Hg & E & Hw). apply in_map_iff in Hg. destruct Hg as (g0 & <- & Hg). unfold group_with in E. cbn in E.
    destruct (pg_Ways g0) as [l|] eqn:El; [|discriminate]. injection E as <-. apply in_map_iff in Hw. destruct Hw as (w0 & _ & Hw). exists g0, w0, l. auto.
  - intros (g & w & ws & Hg & E & Hw). exists (group_with f g), (refs_with f w), (map (refs_with f) ws). split; [apply in_map; exact Hg|].
    split; [unfold group_with; cbn; rewrite E; reflexivity|apply in_map; exact Hw].
Qed.
Lemma rw_trip p out : block_typed p -> rw_form p -> has_way p -> rw_out p = Ok out ->
  bytes out /\ forall env, holds_alone env out p /\ forall e, holds env (mkslice out e) p.
Proof.
  intros BT RF HW H. pose proof (out_len p out H) as Hl. unfold rw_out in H.
  pose proof (PrimitiveBlock_Write_app p) as A.
  pose proof H as H'. apply (Blob_Write_func_app (mkBlob None None None (Some (PrimitiveBlock_Write p))) _ _ _ eq_refl A) in H' as [[F Hlt] Eout].
  assert (HP : PrimitiveBlock_Write p [] = Ok (block_enc p)).
  { apply (A [] ([] ++ block_enc p)). split; [exact F|reflexivity]. }
  pose proof (block_bytes p BT F) as Bb.
  split.
  { rewrite Eout. unfold blob_size_part, blob_zlib_part. cbn [blob_RawSize blob_ZLibData app]. rewrite !app_nil_r. apply fixed_field_bytes; [exact Hlt|exact Bb]. }
  pose proof (pC21_blob_writer_roundtrip (mkBlob None None None (Some (PrimitiveBlock_Write p))) p (block_enc p) [] out eq_refl HP Bb
    ltac:(discriminate) ltac:(constructor) H ltac:(lia)) as (enc & E & R). cbn [app] in E. subst enc.
  assert (Lp : 0 < zlen (block_enc p)).
  { destruct HW as (g & w & ws & Hg & _). unfold block_enc. rewrite !zlen_app.
    repeat match goal with |- context [zlen ?x] => lazymatch goal with H : 0 <= zlen x |- _ => fail | _ => pose proof (zlen_nonneg x) end end.
    assert (0 < zlen (concat (map group_field (pblk_PrimitiveGroup p)))); [|lia]. apply in_split in Hg. destruct Hg as (l1 & l2 & ->).
    rewrite map_app, concat_app, zlen_app. cbn [map concat]. rewrite zlen_app. unfold group_field at 2, fixed_field. rewrite zlen_app.
    pose proof (zlen_nonneg (concat (map group_field l1))). pose proof (zlen_nonneg (concat (map group_field l2))).
    match goal with |- context [zlen (venc ?k) + zlen ?y] => pose proof (zlen_nonneg y); assert (0 < zlen (venc k)) by (vm_compute; reflexivity) end. lia. }
  assert (G : forall env e, exists bl raw, ReadBlob (mkslice out e) Blob0 = Ok bl /\ GetRawData env bl = Ok raw /\ vis raw = block_enc p).
  { intros env e. destruct (R e) as (b' & Rb & Rr & _).
    destruct (blob_Raw b') as [raw|] eqn:Er; cbn [raw_bytes] in Rr; [|rewrite <- Rr in Lp; vm_compute in Lp; discriminate].
    exists b', raw. split; [exact Rb|]. unfold GetRawData. rewrite Er. auto. }
  assert (RB : forall m, ReadPrimitiveBlock rw_reader (mkslice (block_enc p) m) PrimitiveBlock0 = Ok p).
  { intros m. rewrite (ReadPrimitiveBlock_enc rw_reader p PrimitiveBlock0 m BT F (rw_form_form p RF)); try reflexivity; [rewrite rw_form_norm by exact RF; reflexivity|lia]. }
  intros env. split.
  - destruct (G env []) as (bl & raw & E1 & E2 & E3). exists bl, raw. split; [exact E1|]. split; [exact E2|]. rewrite E3. apply RB.
  - intros e. destruct (G env e) as (bl & raw & E1 & E2 & E3). exists bl, raw. split; [exact E1|]. split; [exact E2|]. destruct raw as [v m]. cbn [vis] in E3. subst v. apply RB.
Qed.
Lemma holds_typed env data p : go_slice data -> env_ok env -> holds env data p -> block_typed p.
Proof.
  intros Hb He (bl & raw & E1 & E2 & E3). pose proof (ReadBlob_sbytes _ _ Hb E1) as (S1 & S2 & _ & _).
  eapply ReadBlock_typed; [|exact E3]. eapply GetRawData_sbytes; eauto.
Qed.

(** ** C52 *)

(** C52.  Blocks of other types are passed on as they are. *)
Lemma pC52_other_blocks : forall env sub fin b, blk_Type b <> bytes_of "OSMData" -> rw_worker env sub fin b = Ok b.
Proof.
  intros env sub fin b H. unfold rw_worker. destruct (seqb_spec (blk_Type b) tOSMData) as [E|_]; [contradiction|reflexivity].
Qed.
(** C52.  Blocks without ways are passed on as they are; from a block with ways the block
    sent, if one is sent, keeps its number and holds, read in any environment and whatever
    lies beyond it in memory, the same sections, byte for byte, and the same ways with every
    ref replaced by [new_ref]: its location if it is not negative and has one in the index,
    itself otherwise.  No lookup fails. *)
Lemma pC52_rewrite : forall env b p rs locs top fin, blk_Type b = bytes_of "OSMData" -> go_slice (blk_Data b) -> env_ok env ->
  holds env (blk_Data b) p ->
  Forall (range_ok locs) rs -> ascending_ranges rs -> top_of rs top -> Forall is_s64 locs ->
  (~ has_way p -> rw_worker env (sub_index_of rs locs top) fin b = Ok b) /\
  (has_way p ->
    (exists m, rw_worker env (sub_index_of rs locs top) fin b = Ok m /\ blk_Index m = blk_Index b /\ blk_Type m = bytes_of "OSMData" /\
       forall env' e, holds env' (mkslice (vis (blk_Data m)) e) (block_with (new_ref rs locs) p)) \/
    (forall out, Blob_Write (mkBlob None None None (Some (PrimitiveBlock_Write (block_with (new_ref rs locs) p)))) [] <> Ok out)).
Proof.
  intros env b p rs locs top fin Ty Hb He Hd R1 R2 R3 L. pose proof (holds_typed _ _ _ Hb He Hd) as T.
  assert (RF : rw_form p) by (destruct Hd as (bl & raw & _ & _ & E); exact (ReadBlock_rw _ _ E)).
  destruct (worker_holds env b rs locs top fin p Ty Hd T (conj R1 (conj R2 R3))) as (W0 & W1). split; [exact W0|].
  intros HW. rewrite (W1 HW). destruct (rw_out (block_with (new_ref rs locs) p)) as [out|q|] eqn:E; cbn [bind].
  - left. eexists. split; [reflexivity|]. split; [reflexivity|]. split; [reflexivity|]. cbn [blk_Data exact vis]. intros env' e.
    destruct (rw_trip _ out (typed_with _ p (new_ref_s64 rs locs L) T) (rw_form_with _ p RF) (proj2 (has_way_with _ p) HW) E) as (_ & H).
    destruct (H env') as (_ & H'). exact (H' e).
  - right. intros out. unfold rw_out in E. rewrite E. discriminate.
  - right. intros out. unfold rw_out in E. rewrite E. discriminate.
Qed.

(** ** C53 *)
Lemma new_ref_comp A B locs : ascending_ranges (A ++ B) -> Forall (range_ok locs) (A ++ B) -> Forall (fun l => l <= 0) locs ->
  forall x, new_ref B locs (new_ref A locs x) = new_ref (A ++ B) locs x.
Proof.
  intros Asc Hok Neg x.
  assert (LA : forall i, match linear_search A locs x i with
     | Some (loc, h) => linear_search (A ++ B) locs x i = Some (loc, h)
     | None => exists j, linear_search (A ++ B) locs x i = linear_search B locs x j end).
  { clear. induction A as [|a A IH]; intros i; cbn [linear_search app]; [exists i; reflexivity|]. destruct (_ && _); [reflexivity|apply IH]. }
  assert (LB : forall i j, match linear_search B locs x i, linear_search B locs x j with
     | Some (l1, _), Some (l2, _) => l1 = l2 | None, None => True | _, _ => False end).
  { clear. induction B as [|a A IH]; intros i j; cbn [linear_search app]; [exact I|]. destruct (_ && _); [reflexivity|apply IH]. }
  unfold new_ref at 2 3. destruct (Z.ltb_spec x 0) as [L|L]; [unfold new_ref; replace (x <? 0) with true by lia; reflexivity|].
  specialize (LA 0). destruct (linear_search_spec locs x A 0) as [(k & r & Hk & Hr & Es)|(No & Es)].
  - rewrite Es in LA |- *. rewrite LA. destruct (Z.eqb_spec (nth (Z.to_nat (r_offset r + (x - r_first r))) locs 0) 0) as [Z0|Z0].
    + unfold new_ref. replace (x <? 0) with false by lia. destruct (linear_search_spec locs x B 0) as [(k' & r' & Hk' & Hr' & Es')|(_ & Es')]; [|rewrite Es'; reflexivity].
      exfalso. assert (k < List.length A)%nat by (apply nth_error_Some; rewrite Hk; discriminate).
      assert (H1 : nth_error (A ++ B) k = Some r) by (rewrite nth_error_app1 by assumption; exact Hk).
      assert (H2 : nth_error (A ++ B) (List.length A + k') = Some r') by (rewrite nth_error_app2 by lia; replace (List.length A + k' - List.length A)%nat with k' by lia; exact Hk').
      pose proof (Asc k (List.length A + k')%nat r r' ltac:(lia) H1 H2) as Hd. unfold in_range in Hr, Hr'. lia.
    + set (v := nth _ _ _) in *. assert (v <= 0).
      { unfold v. destruct (nth_in_or_default (Z.to_nat (r_offset r + (x - r_first r))) locs 0) as [H|H]; [exact (proj1 (Forall_forall _ _) Neg _ H)|rewrite H; lia]. }
      unfold new_ref. replace (v <? 0) with true by lia. reflexivity.
  - rewrite Es in LA |- *. destruct LA as (j & ->). unfold new_ref. replace (x <? 0) with false by lia. specialize (LB 0 j).
    destruct (linear_search B locs x 0) as [[l1 h1]|]; destruct (linear_search B locs x j) as [[l2 h2]|]; try contradiction; [subst; reflexivity|reflexivity].
Qed.
Lemma block_with_ext f g p : (forall x, f x = g x) -> block_with f p = block_with g p.
Proof.
  intros E. unfold block_with. f_equal. apply map_ext. intros gr. unfold group_with. f_equal. destruct (pg_Ways gr) as [ws|]; [|reflexivity]. cbn [option_map]. f_equal.
  apply map_ext. intros w. unfold refs_with. f_equal. apply map_ext. exact E.
Qed.
Lemma block_with_comp f g p : block_with g (block_with f p) = block_with (fun x => g (f x)) p.
Proof.
  unfold block_with. cbn. f_equal. rewrite map_map. apply map_ext. intros gr. unfold group_with. cbn. f_equal. destruct (pg_Ways gr) as [ws|]; [|reflexivity]. cbn. f_equal.
  rewrite map_map. apply map_ext. intros w. unfold refs_with. cbn. f_equal. apply map_map.
Qed.
Lemma block_with_noway f p : ~ has_way p -> block_with f p = p.
Proof.
  intros N. destruct p as [a b gs c d e h]. unfold block_with. cbn in *. f_equal. 
  assert (G : forall l, (forall g, In g l -> In g gs) -> map (group_with f) l = l).
  { induction l as [|g l IH]; intros Hl; [reflexivity|]. cbn [map]. rewrite IH by (intros; apply Hl; right; assumption). f_equal.
    destruct g as [q1 q2 ws q3 q4 q5] eqn:Eg. unfold group_with. cbn. f_equal. destruct ws as [[|w ws]|]; [reflexivity| |reflexivity].
    exfalso. apply N. exists g, w, (w :: ws). cbn. rewrite Eg. split; [apply Hl; left; reflexivity|]. split; [reflexivity|left; reflexivity]. }
  apply G. auto.
Qed.
Lemma block_with_id f p : (forall x, f x = x) -> block_with f p = p.
Proof.
  intros E. destruct p as [a b gs c d e h]. unfold block_with. cbn. f_equal. erewrite map_ext; [apply map_id|]. intros [q1 q2 ws q3 q4 q5]. unfold group_with. cbn. f_equal.
  destruct ws as [ws|]; [|reflexivity]. cbn. f_equal. erewrite map_ext; [apply map_id|]. intros [w1 w2 w3 w4]. unfold refs_with. cbn. f_equal. erewrite map_ext; [apply map_id|]. exact E.
Qed.

(** One blob in one pass. *)
Definition step (f : Z -> Z) (x : (list Z * list Z) * PrimitiveBlock) : res (list Z * list Z) :=
  let '((ty, data), q) := x in
  if negb (seqb ty tOSMData) then Ok (ty, data)
  else if count_ways (pblk_PrimitiveGroup q) =? 0 then Ok (ty, data)
  else out <- rw_out (block_with f q) ;; Ok (tOSMData, out).
Definition as_block (b : list Z * list Z) : Block := mkBlk 0 (exact (snd b)) (fst b).
Definition enc_file (bl : list (list Z * list Z)) : res (list Z) := rewriter_writer (map as_block bl) [].
Lemma write_seen skip : forall bs hdr acc, write_blocks skip hdr bs acc =
  write_blocks skip hdr (map as_block (map (fun b => (blk_Type b, vis (blk_Data b))) bs)) acc.
Proof.
  induction bs as [|b bs IH]; intros hdr acc; [reflexivity|]. cbn [map write_blocks as_block blk_Type blk_Data fst snd exact vis].
  destruct (_ && _); [apply IH|]. destruct (write_frame _ _ _); cbn [bind]; [apply IH|reflexivity..].
Qed.
Definition ready (envs : Z -> zenv) (i : Z) (x : (list Z * list Z) * PrimitiveBlock) : Prop :=
  let '((ty, data), q) := x in
  known_type ty /\ bytes data /\ zlen data < 2^31 /\
  (ty = tOSMData -> holds_alone (envs i) data q /\ block_typed q /\ rw_form q).
Lemma alone_holds env v e p : holds_alone env v p -> holds env (mkslice v e) p.
Proof.
  intros (bl & raw & E1 & E2 & E3). pose proof (pC12_beyond_end_irrelevant v e) as (_ & _ & _ & _ & _ & _ & _ & HB).
  destruct (HB bl E1) as (bl' & E1' & S1 & S2 & S3). exists bl'.
  unfold GetRawData in *. destruct (blob_Raw bl) as [s|]; destruct (blob_Raw bl') as [s'|]; try contradiction.
  - injection E2 as ->. exists s'. split; [exact E1'|]. split; [reflexivity|].
    pose proof (pC12_beyond_end_irrelevant (vis raw) (ext s')) as (_ & _ & _ & _ & _ & _ & HP & _). apply HP in E3. rewrite <- S1 in E3. destruct s'; exact E3.
  - exists raw. split; [exact E1'|]. rewrite S2, S3. split; [exact E2|].
    pose proof (pC12_beyond_end_irrelevant (vis raw) (ext raw)) as (_ & _ & _ & _ & _ & _ & HP & _). apply HP in E3. destruct raw; exact E3.
Qed.
Lemma worker_step envs rs locs top fin b i x : good_index rs locs top -> ready envs i x -> seen b = (i, fst x) ->
  (m <- rw_worker (envs (blk_Index b)) (sub_index_of rs locs top) fin b ;; Ok (blk_Type m, vis (blk_Data m))) = step (new_ref rs locs) x.
Proof.
  intros G. destruct x as [[ty data] q]. intros (K & Bd & Ld & H) Es. unfold seen in Es. cbn [fst] in Es. injection Es as E1 E2 E3. unfold step.
  destruct (seqb_spec ty tOSMData) as [T|T]; cbn [negb].
  - destruct (H T) as (Ha & Ht & Hf). rewrite E1.
    assert (Hh : holds (envs i) (blk_Data b) q) by (destruct (blk_Data b) as [v e]; cbn in E3; subst v; apply alone_holds; exact Ha).
    destruct (worker_holds (envs i) b rs locs top fin q (eq_trans E2 T) Hh Ht G) as (W0 & W1).
    destruct (count_ways (pblk_PrimitiveGroup q) =? 0) eqn:Ec.
    + rewrite W0 by (apply count_zero; exact Ec). cbn [bind]. rewrite E2, E3. reflexivity.
    + rewrite W1. 2:{ unfold has_way. destruct (count_ways_spec (pblk_PrimitiveGroup q) 0 ltac:(lia)) as [(A & _)|(_ & C)]; [unfold count_ways in Ec; rewrite A in Ec; discriminate|].
        destruct C as (g & w & ws & C). exists g, w, ws. exact C. }
      destruct (rw_out _); cbn [bind]; [reflexivity|reflexivity..].
  - rewrite pC52_other_blocks by (rewrite E2; exact T). cbn [bind]. rewrite E2, E3. reflexivity.
Qed.
Definition ready_all (envs : Z -> zenv) (k : nat) (l : list ((list Z * list Z) * PrimitiveBlock)) : Prop :=
  forall i x, nth_error l i = Some x -> ready envs (Z.of_nat (k + i)) x.
Lemma pass_map envs rs locs top fin : good_index rs locs top -> forall l k bs, ready_all envs k l ->
  map seen bs = combine (map Z.of_nat (seq k (List.length l))) (map fst l) ->
  match mapm (fun b => rw_worker (envs (blk_Index b)) (sub_index_of rs locs top) fin b) bs with
  | Ok ms => mapm (step (new_ref rs locs)) l = Ok (map (fun b => (blk_Type b, vis (blk_Data b))) ms)
  | Panic p => mapm (step (new_ref rs locs)) l = Panic p
  | Diverge => mapm (step (new_ref rs locs)) l = Diverge
  end.
Proof.
  intros G. induction l as [|x l IH]; intros k bs R E; cbn [map List.length seq combine] in E.
  - destruct bs; [reflexivity|discriminate].
  - destruct bs as [|b bs]; [discriminate|]. cbn [map] in E.
    assert (E1 : seen b = (Z.of_nat k, fst x)) by congruence.
    assert (E2 : map seen bs = combine (map Z.of_nat (seq (S k) (List.length l))) (map fst l)) by congruence. clear E.
    pose proof (worker_step envs rs locs top fin b (Z.of_nat k) x G) as W. specialize (W ltac:(specialize (R 0%nat x eq_refl); rewrite Nat.add_0_r in R; exact R) E1).
    specialize (IH (S k) bs). cbn [mapm]. rewrite <- W.
    destruct (rw_worker _ _ fin b) as [m|p|]; cbn [bind]; [|reflexivity..].
    specialize (IH ltac:(intros i y H; specialize (R (S i) y H); replace (S k + i)%nat with (k + S i)%nat by lia; exact R) E2).
    destruct (mapm _ bs) as [ms|p|]; cbn [bind]; rewrite IH; reflexivity.
Qed.
Lemma rw_pass_is envs rs locs top fin file l : good_index rs locs top -> bytes file -> zlen file < 2^63 -> is_file file (map fst l) ->
  ready_all envs 0 l -> file <> [] ->
  rw_pass envs (sub_index_of rs locs top) fin file = (bl <- mapm (step (new_ref rs locs)) l ;; enc_file bl).
Proof.
  intros G Bf Lf F R N. unfold rw_pass. destruct file as [|c file]; [contradiction|]. cbn [MMapMap bind].
  destruct (pC34_split (c :: file) (map fst l) Bf Lf F) as (bs & -> & Es).
  { apply Forall_map, Forall_forall. intros x Hx. apply In_nth_error in Hx. destruct Hx as (i & Hx). specialize (R i x Hx). destruct x as [[ty data] q]. apply R. }
  cbn [bind]. unfold numbered in Es. rewrite map_length in Es. pose proof (pass_map envs rs locs top fin G l 0 bs R Es) as M.
  destruct (mapm _ bs) as [ms|p|]; cbn [bind]; rewrite M; cbn [bind]; [|reflexivity..]. unfold enc_file, rewriter_writer. apply write_seen.
Qed.
Lemma step_type f x y : step f x = Ok y -> fst y = fst (fst x).
Proof.
  destruct x as [[ty data] q]. unfold step. destruct (seqb_spec ty tOSMData); cbn [negb]; [|intros E; injection E as <-; reflexivity].
  destruct (_ =? 0); [intros E; injection E as <-; reflexivity|]. destruct (rw_out _); cbn [bind]; try discriminate. intros X. injection X as <-. cbn. symmetry. assumption.
Qed.
Lemma step_ready f envs envs' i ty data q y : s64_fun f -> ready envs i (ty, data, q) -> (ty = tOSMData -> holds_alone (envs' i) data q) ->
  step f (ty, data, q) = Ok y -> ready envs' i (y, block_with f q).
Proof.
  intros Sf (K & Bd & Ld & H) H' E. unfold step in E. destruct (seqb_spec ty tOSMData) as [T|T]; cbn [negb] in E.
  - destruct (H T) as (_ & Ht & Hf). specialize (H' T). destruct (count_ways (pblk_PrimitiveGroup q) =? 0) eqn:Ec.
    + injection E as <-. rewrite block_with_noway by (apply count_zero; exact Ec). split; [exact K|]. split; [exact Bd|]. split; [exact Ld|]. intros _. split; [exact H'|]. split; [exact Ht|exact Hf].
    + assert (HW : has_way q).
      { destruct (count_ways_spec (pblk_PrimitiveGroup q) 0 ltac:(lia)) as [(A & _)|(_ & C)]; [unfold count_ways in Ec; rewrite A in Ec; discriminate|].
        destruct C as (g & w & ws & C). exists g, w, ws. exact C. }
      destruct (rw_out (block_with f q)) as [out|p|] eqn:Eo; cbn [bind] in E; try discriminate. injection E as <-.
      destruct (rw_trip _ out (typed_with f q Sf Ht) (rw_form_with f q Hf) (proj2 (has_way_with f q) HW) Eo) as (B & Ha).
      split; [right; reflexivity|]. split; [exact B|]. split; [exact (out_len _ _ Eo)|]. intros _. split; [apply Ha|]. split; [apply typed_with; assumption|apply rw_form_with; assumption].
  - injection E as <-. unfold ready. split; [exact K|]. split; [exact Bd|]. split; [exact Ld|]. intros; contradiction.
Qed.
Lemma step_comp f g ty data q y z : step f (ty, data, q) = Ok y -> step g (y, block_with f q) = Ok z -> step (fun x => g (f x)) (ty, data, q) = Ok z.
Proof.
  intros E1 E2. pose proof (step_type _ _ _ E1) as T. cbn [fst] in T. destruct y as [ty' d']. cbn [fst] in T. subst ty'. unfold step in *.
  destruct (negb (seqb ty tOSMData)); [congruence|]. destruct (count_ways (pblk_PrimitiveGroup q) =? 0) eqn:Ec.
  - rewrite block_with_noway in E2 by (apply count_zero; exact Ec). rewrite Ec in E2. congruence.
  - destruct (count_ways (pblk_PrimitiveGroup (block_with f q)) =? 0) eqn:Ec'.
    + apply count_zero in Ec'. rewrite has_way_with in Ec'. apply count_zero in Ec'. congruence.
    + rewrite block_with_comp in E2. exact E2.
Qed.
Lemma mapm_Forall2 {A B} (f : A -> res B) : forall l out, mapm f l = Ok out <-> Forall2 (fun a b => f a = Ok b) l out.
Proof.
  induction l as [|a l IH]; intros out; cbn [mapm].
  - split; [intros E; injection E as <-; constructor|intros F; inversion F; reflexivity].
  - split.
    + destruct (f a) as [b|p|] eqn:Eb; cbn [bind]; try discriminate. destruct (mapm f l) as [r|p|] eqn:Er; cbn [bind]; try discriminate.
      intros E. injection E as <-. constructor; [exact Eb|]. apply IH. reflexivity.
    + intros F. inversion F as [|? b ? r Hb Hr]; subst. rewrite Hb. cbn [bind]. apply IH in Hr. rewrite Hr. reflexivity.
Qed.
(** One pass after the passes that have applied [f]. *)
Lemma step_all f : forall l bl, mapm (step f) l = Ok bl ->
  let l' := combine bl (map (fun x => block_with f (snd x)) l) in
  map fst l' = bl /\ List.length l' = List.length l /\
  (forall i x', nth_error l' i = Some x' -> exists x, nth_error l i = Some x /\ step f x = Ok (fst x') /\ snd x' = block_with f (snd x)).
Proof.
  induction l as [|x l IH]; intros bl E; apply mapm_Forall2 in E; inversion E as [|? y ? r Hy Hr]; subst.
  - cbn. split; [reflexivity|]. split; [reflexivity|]. intros [|i] x' H; discriminate.
  - apply mapm_Forall2 in Hr. destruct (IH r Hr) as (I1 & I2 & I3). cbn zeta in *. cbn [map combine List.length]. split; [rewrite I1; reflexivity|].
    split; [rewrite I2; reflexivity|]. intros [|i] x' H; cbn [nth_error] in *; [|apply I3; exact H]. injection H as <-. exists x. auto.
Qed.
Lemma step_ext f g l : (forall x, f x = g x) -> mapm (step f) l = mapm (step g) l.
Proof.
  intros E. induction l as [|[[ty d] q] l IH]; [reflexivity|]. cbn [mapm]. rewrite IH. unfold step. rewrite (block_with_ext f g q E). reflexivity.
Qed.
Lemma step_comp_all f g l bl r : mapm (step f) l = Ok bl -> mapm (step g) (combine bl (map (fun x => block_with f (snd x)) l)) = Ok r ->
  mapm (step (fun x => g (f x))) l = Ok r.
Proof.
  intros E1 E2. apply mapm_Forall2 in E1, E2. apply mapm_Forall2. revert bl E1 r E2. induction l as [|[[ty d] q] l IH]; intros bl E1 r E2.
  - inversion E1; subst. cbn in E2. inversion E2. constructor.
  - inversion E1 as [|? y ? bl' Hy Hbl]; subst. cbn [map combine snd] in E2. inversion E2 as [|? z ? r' Hz Hr]; subst. constructor; [|eapply IH; eassumption].
    eapply step_comp; eassumption.
Qed.
Lemma enc_file_is bl f : enc_file bl = Ok f -> Forall (fun b => known_type (fst b) /\ bytes (snd b) /\ zlen (snd b) < 2^31) bl ->
  is_file f bl /\ bytes f.
Proof.
  intros E H. destruct (write_blocks_is false (map as_block bl) zero4 [] [] eq_refl eq_refl ltac:(constructor)) as (f' & E' & B & I).
  { apply Forall_map. revert H. apply Forall_impl. intros [ty d] (A & B & C). cbn. auto. }
  unfold enc_file, rewriter_writer in E. rewrite E in E'. injection E' as <-. split; [|exact B]. cbn [app] in I.
  replace (map _ (filter _ _)) with bl in I; [exact I|]. clear. induction bl as [|[ty d] bl IH]; [reflexivity|]. cbn [map filter andb negb]. cbn [map as_block blk_Type blk_Data fst snd exact vis]. f_equal. exact IH.
Qed.
Lemma firstn_pass rs locs n k : index_ok rs locs -> 1 <= n -> Z.of_nat k < n ->
  firstn (cut (slice_size locs n * Z.of_nat (S k)) 0 rs) rs = firstn (cut (slice_size locs n * Z.of_nat k) 0 rs) rs ++ pass_ranges rs locs (Z.of_nat k) n.
Proof.
  intros Hi Hn Hk. rewrite <- !(pass_concat rs locs n) by lia. rewrite seq_S, map_app, concat_app. cbn [map concat Nat.add]. rewrite app_nil_r. reflexivity.
Qed.
Lemma asc_firstn rs k : ascending_ranges rs -> ascending_ranges (firstn k rs).
Proof.
  intros A i j a b H Ha Hb. assert (G : forall m x, nth_error (firstn k rs) m = Some x -> nth_error rs m = Some x).
  { intros m x Hm. rewrite <- (firstn_skipn k rs). rewrite nth_error_app1; [exact Hm|]. apply nth_error_Some. rewrite Hm. discriminate. }
  apply (A i j a b H (G _ _ Ha) (G _ _ Hb)).
Qed.
Lemma nth_error_skipn' {A} (l : list A) : forall k m, nth_error (skipn k l) m = nth_error l (k + m).
Proof. induction l as [|a l IH]; intros [|k] m; try reflexivity; [destruct m; reflexivity|]. apply IH. Qed.
Lemma asc_skipn rs k : ascending_ranges rs -> ascending_ranges (skipn k rs).
Proof.
  intros A i j a b H Ha Hb. rewrite nth_error_skipn' in Ha, Hb. apply (A (k + i)%nat (k + j)%nat a b ltac:(lia) Ha Hb).
Qed.
Lemma sub_good rs locs n i sub : index_ok rs locs -> 1 <= n -> 0 <= i < n -> SubIndex (index_of rs locs) i n = Ok sub ->
  exists top, sub = sub_index_of (pass_ranges rs locs i n) locs top /\ good_index (pass_ranges rs locs i n) locs top.
Proof.
  intros Hi Hn H E. pose proof Hi as (Hok & Ha & Ht & Hl). destruct (SubIndex_spec rs locs i n Hi Hn H) as (Y & N). cbn zeta in Y, N.
  destruct (Nat.lt_ge_cases (cut (slice_size locs n * i) 0 rs) (List.length rs)) as [G1|G1]; [|rewrite N in E by lia; discriminate].
  destruct (Nat.lt_ge_cases 0 (cut (slice_size locs n * (i + 1)) 0 rs)) as [G2|G2]; [|rewrite N in E by lia; discriminate].
  destruct (Y (conj G1 G2)) as (l & top & Hn' & Et & Es). rewrite E in Es. injection Es as ->. exists top. split; [reflexivity|]. unfold pass_ranges.
  set (s := cut (slice_size locs n * i) 0 rs) in *. set (e := cut (slice_size locs n * (i + 1)) 0 rs) in *. split; [|split].
  - apply Forall_forall. intros r Hr. apply (proj1 (Forall_forall _ _) Hok). rewrite <- (firstn_skipn s rs). apply in_or_app. right.
    rewrite <- (firstn_skipn (e - s) (skipn s rs)). apply in_or_app. left. exact Hr.
  - apply asc_firstn, asc_skipn. exact Ha.
  - intros r Hr. apply In_nth_error in Hr. destruct Hr as (m & Hm).
    assert (Lm : (m < e - s)%nat) by (assert (X : nth_error (firstn (e - s) (skipn s rs)) m <> None) by (rewrite Hm; discriminate); apply nth_error_Some in X; rewrite firstn_length in X; lia).
    assert (Hm' : nth_error rs (s + m) = Some r).
    { rewrite <- nth_error_skipn'. rewrite <- (firstn_skipn (e - s) (skipn s rs)). rewrite nth_error_app1; [exact Hm|apply nth_error_Some; rewrite Hm; discriminate]. }
    rewrite Et. destruct (Nat.eq_dec (s + m) (e - 1)) as [Eq|Ne].
    + rewrite Eq in Hm'. rewrite Hm' in Hn'. injection Hn' as ->. lia.
    + pose proof (Ha (s + m)%nat (e - 1)%nat r l ltac:(lia) Hm' Hn') as Hd.
      assert (0 < r_count l) by (apply nth_error_In in Hn'; apply (proj1 (Forall_forall _ _) Hok) in Hn'; apply Hn'). lia.
Qed.
Lemma passes_stage envs file l rs locs n : index_ok rs locs -> Forall (fun x => is_s64 x /\ x <= 0) locs -> 1 <= n ->
  bytes file -> is_file file (map fst l) -> (forall pass, ready_all (envs pass) 0 l) ->
  (forall k f, Z.of_nat k < n -> after_passes envs (index_of rs locs) n k file = Ok f -> zlen f < 2^63) ->
  forall k f, Z.of_nat k <= n -> after_passes envs (index_of rs locs) n k file = Ok f ->
  exists l', is_file f (map fst l') /\ bytes f /\ (forall pass, ready_all (envs pass) 0 l') /\
    forall g r, mapm (step g) l' = Ok r -> mapm (step (fun x => g (new_ref (firstn (cut (slice_size locs n * Z.of_nat k) 0 rs) rs) locs x))) l = Ok r.
Proof.
  intros Hi Hl Hn Bf Ff R Sz. pose proof Hi as (Hok & Ha & Ht & _).
  assert (Hs64 : Forall is_s64 locs) by (revert Hl; apply Forall_impl; tauto). assert (Hneg : Forall (fun x => x <= 0) locs) by (revert Hl; apply Forall_impl; tauto).
  induction k as [|k IH]; intros f Hk E.
  - cbn in E. injection E as <-. exists l. split; [exact Ff|]. split; [exact Bf|]. split; [exact R|]. intros g r E.
    rewrite <- E. apply step_ext. intros x. rewrite Z.mul_0_r. f_equal. destruct rs as [|a rs']; cbn [cut firstn]; unfold new_ref; cbn [linear_search]; destruct (x <? 0); try reflexivity.
  - cbn [after_passes] in E. destruct (after_passes envs (index_of rs locs) n k file) as [f0|p|] eqn:E0; cbn [bind] in E; try discriminate.
    destruct (IH f0 ltac:(lia) eq_refl) as (l' & F' & B' & R' & C'). clear IH.
    destruct (SubIndex (index_of rs locs) (Z.of_nat k) n) as [sub|p|] eqn:Es; cbn [bind] in E; try discriminate.
    destruct (sub_good rs locs n (Z.of_nat k) sub Hi Hn ltac:(lia) Es) as (top & -> & G).
    assert (N0 : f0 <> []) by (intros ->; unfold rw_pass in E; cbn in E; discriminate).
    rewrite (rw_pass_is _ _ locs top _ f0 l' G B' (Sz k f0 ltac:(lia) E0) F' (R' _) N0) in E.
    destruct (mapm (step (new_ref (pass_ranges rs locs (Z.of_nat k) n) locs)) l') as [bl|p|] eqn:Em; cbn [bind] in E; try discriminate.
    set (S_ := new_ref (pass_ranges rs locs (Z.of_nat k) n) locs) in *.
    destruct (step_all S_ l' bl Em) as (M1 & M2 & M3). cbn zeta in M1, M2, M3.
    exists (combine bl (map (fun x => block_with S_ (snd x)) l')).
    assert (R2 : forall pass, ready_all (envs pass) 0 (combine bl (map (fun x => block_with S_ (snd x)) l'))).
    { intros pass i x' Hx'. destruct (M3 i x' Hx') as (x & Hx & Hs & Hq). destruct x' as [y q']. cbn [fst snd] in Hs, Hq. subst q'. destruct x as [[ty d] q]. cbn [snd].
      pose proof (R' pass i _ Hx) as Rx. eapply step_ready; [apply new_ref_s64; exact Hs64|exact Rx| |exact Hs]. intros T. destruct Rx as (_ & _ & _ & Rx). apply Rx. exact T. }
    rewrite M1. destruct (enc_file_is bl f E) as (F2 & B2).
    { rewrite <- M1. apply Forall_map, Forall_forall. intros x Hx. apply In_nth_error in Hx. destruct Hx as (i & Hx). specialize (R2 0 i x Hx). destruct x as [[ty d] q].
      destruct R2 as (K1 & K2 & K3 & _). cbn. auto. }
    split; [exact F2|]. split; [exact B2|]. split; [exact R2|].
    intros g r Eg. apply (step_comp_all S_ g l' bl r Em) in Eg. apply C' in Eg. rewrite <- Eg. apply step_ext. intros x. f_equal.
    unfold S_. rewrite (firstn_pass rs locs n k Hi Hn ltac:(lia)). symmetry. apply new_ref_comp; [|rewrite <- firstn_pass by (assumption || lia)|exact Hneg].
    + rewrite <- firstn_pass by (assumption || lia). apply asc_firstn. exact Ha.
    + apply Forall_forall. intros y Hy. apply (proj1 (Forall_forall _ _) Hok). rewrite <- (firstn_skipn (cut (slice_size locs n * Z.of_nat (S k)) 0 rs) rs). apply in_or_app. left. exact Hy.
Qed.
Lemma file_blobs blobs : forall file, bytes file -> is_file file blobs -> Forall (fun b => bytes (snd b) /\ zlen (snd b) < 2^31) blobs.
Proof.
  induction blobs as [|[ty data] blobs IH]; intros file B F; [constructor|]. cbn [is_file] in F. destruct F as (fb & rest & -> & (sz & hdr & -> & _ & H) & F).
  apply bytes_app_inv in B as [B1 B2]. apply bytes_app_inv in B1 as [_ B1]. apply bytes_app_inv in B1 as [_ B1]. constructor; [|exact (IH rest B2 F)].
  split; [exact B1|]. specialize (H [] ltac:(constructor)). apply ReadBlobHeader_size in H. unfold is_s32 in H. cbn in *. lia.
Qed.
Lemma choose_list {A B} (P : nat -> A -> B -> Prop) : forall l k, (forall i a, nth_error l i = Some a -> exists b, P (k + i)%nat a b) ->
  exists m, map fst m = l /\ forall i x, nth_error m i = Some x -> P (k + i)%nat (fst x) (snd x).
Proof.
  induction l as [|a l IH]; intros k H.
  - exists []. split; [reflexivity|]. intros [|i] x; discriminate.
  - destruct (H 0%nat a eq_refl) as (b & Hb). destruct (IH (S k)) as (m & M1 & M2).
    { intros i a' Ha. destruct (H (S i) a' Ha) as (b' & Hb'). exists b'. replace (S k + i)%nat with (k + S i)%nat by lia. exact Hb'. }
    exists ((a, b) :: m). split; [cbn; rewrite M1; reflexivity|]. intros [|i] x Hx; cbn [nth_error] in Hx.
    + injection Hx as <-. exact Hb.
    + apply M2 in Hx. replace (k + S i)%nat with (S k + i)%nat by lia. exact Hx.
Qed.
(** C53, the files for which it holds.  If the passes cover the index (see C48 for exactly when
    they do), all its locations are negative (as the indexer stores them) or absent, every block
    can be decoded, and [n] passes succeed, each writing less than 2^63 bytes, then a single
    pass succeeds too and gives the same file, byte for byte. *)
Lemma pC53_passes_partial : forall envs file blobs rs locs n out,
  bytes file -> zlen file < 2^63 -> is_file file blobs -> Forall (fun b => known_type (fst b)) blobs ->
  (forall i data, nth_error blobs i = Some (bytes_of "OSMData", data) -> exists p, forall pass, holds_alone (envs pass (Z.of_nat i)) data p) ->
  (forall pass i, env_ok (envs pass i)) ->
  index_ok rs locs -> Forall (fun loc => is_s64 loc /\ loc <= 0) locs -> 1 <= n ->
  (exists subs, passes (index_of rs locs) n = Ok subs /\ concat (map si_element subs) = map elem_of rs) ->
  (forall k f, Z.of_nat k < n -> after_passes envs (index_of rs locs) n k file = Ok f -> zlen f < 2^63) ->
  after_passes envs (index_of rs locs) n (Z.to_nat n) file = Ok out ->
  after_passes envs (index_of rs locs) 1 1 file = Ok out.
Proof.
  intros envs file blobs rs locs n out Bf Lf Ff Kf Hd He Hi Hl Hn (subs & Ep & Ec) Sz E.
  pose proof (file_blobs blobs file Bf Ff) as Bd.
  destruct (choose_list (fun i tb p => forall pass, ready (envs pass) (Z.of_nat i) (tb, p)) blobs 0) as (l & Hl1 & Hl2).
  { intros i [ty data] Hin. cbn [Nat.add]. pose proof (nth_error_In _ _ Hin) as Hin'. pose proof (proj1 (Forall_forall _ _) Bd _ Hin') as (D1 & D2). pose proof (proj1 (Forall_forall _ _) Kf _ Hin') as K.
    cbn [fst snd] in *. destruct (seqb_spec ty tOSMData) as [T|T].
    - rewrite T in Hin. destruct (Hd i data Hin) as (p & Hp). exists p. intros pass. split; [exact K|]. split; [exact D1|]. split; [exact D2|]. intros _. split; [apply Hp|].
      pose proof (alone_holds _ _ [] _ (Hp pass)) as Hh. split.
      + eapply holds_typed; [|apply He|exact Hh]. split; [exact D1|]. split; [constructor|]. unfold scap, slen, zlen in *. cbn in *. lia.
      + destruct Hh as (bl & raw & _ & _ & E3). exact (ReadBlock_rw _ _ E3).
    - exists PrimitiveBlock0. intros pass. split; [exact K|]. split; [exact D1|]. split; [exact D2|]. intros; contradiction. }
  assert (R : forall pass, ready_all (envs pass) 0 l) by (intros pass i x Hx; specialize (Hl2 i x Hx pass); destruct x; exact Hl2).
  subst blobs.
  pose proof (passes_sub rs locs n subs Hi Hn Ep) as (M & P). rewrite M, concat_map_map, pass_concat in Ec by lia.
  assert (All : firstn (cut (slice_size locs n * Z.of_nat (Z.to_nat n)) 0 rs) rs = rs).
  { apply (f_equal (@List.length _)) in Ec. rewrite !map_length, firstn_length in Ec. apply firstn_all2. lia. }
  assert (Nr : rs <> []) by (intros ->; destruct (P 0%nat ltac:(lia)) as (P0 & _); cbn in P0; lia).
  destruct (Z.to_nat n) as [|k] eqn:En; [lia|].
  cbn [after_passes] in E. destruct (after_passes envs (index_of rs locs) n k file) as [f0|p|] eqn:E0; cbn [bind] in E; try discriminate.
  destruct (passes_stage envs file l rs locs n Hi Hl Hn Bf Ff R Sz k f0 ltac:(lia) E0) as (l' & F' & B' & R' & C').
  destruct (SubIndex (index_of rs locs) (Z.of_nat k) n) as [sub|p|] eqn:Es; cbn [bind] in E; try discriminate.
  destruct (sub_good rs locs n (Z.of_nat k) sub Hi Hn ltac:(lia) Es) as (top & -> & G).
  assert (N0 : f0 <> []) by (intros ->; unfold rw_pass in E; cbn in E; discriminate).
  rewrite (rw_pass_is _ _ locs top _ f0 l' G B' (Sz k f0 ltac:(lia) E0) F' (R' _) N0) in E.
  destruct (mapm _ l') as [bl|p|] eqn:Em; cbn [bind] in E; try discriminate.
  apply C' in Em. rewrite (step_ext _ (new_ref rs locs)) in Em.
  2:{ intros x. rewrite new_ref_comp; [|rewrite <- firstn_pass by (assumption || lia); rewrite All; apply Hi..|revert Hl; apply Forall_impl; tauto].
      rewrite <- firstn_pass by (assumption || lia). rewrite All. reflexivity. }
  cbn [after_passes bind]. destruct (pC48_single_pass rs locs Hi Nr) as (top1 & Es1 & Ht1). change (Z.of_nat 0) with 0. rewrite Es1. cbn [bind].
  assert (Nf : file <> []).
  { intros ->. destruct k as [|k]; [cbn in E0; injection E0 as <-; contradiction|]. clear - E0.
    assert (Q : forall k' f, after_passes envs (index_of rs locs) n (S k') [] <> Ok f).
    { intros k'. induction k' as [|k' IH]; intros f; cbn [after_passes bind].
      - destruct (SubIndex _ _ _); cbn [bind]; [unfold rw_pass; cbn [MMapMap bind]|..]; intros X; discriminate X.
      - cbn [after_passes] in IH. destruct (bind (after_passes _ _ _ k' []) _) as [f1|p|]; cbn [bind]; [exfalso; apply (IH f1); reflexivity|intros X; discriminate X..]. }
    exact (Q k f0 E0). }
  rewrite (rw_pass_is _ rs locs top1 _ file l (conj (proj1 Hi) (conj (proj1 (proj2 Hi)) Ht1)) Bf Lf Ff (R _) Nf), Em. exact E.
Qed.
(** A file with a header and two blocks with ways, and index [ex_ten], locations -101 to -110. *)
Definition ex_way_block (ways : list Way) : PrimitiveBlock :=
  mkBlock (Some [10; 0]) None [mkGroup None None (Some ways) [] None []] 100 1000 0 0.
Definition ex_blob (ways : list Way) : list Z :=
  match rw_out (ex_way_block ways) with Ok out => out | _ => [] end.
Definition ex_rw_blobs : list (list Z * list Z) :=
  [(bytes_of "OSMHeader", [1; 2]); (bytes_of "OSMData", ex_blob [mkWay 5 [1] [2] [90; 10; 55; 10; 0; 91]; mkWay 6 [] [] [-7]]);
   (bytes_of "OSMData", ex_blob [mkWay 7 [] [] [30]])].
Definition ex_rw_file : list Z := match enc_file ex_rw_blobs with Ok f => f | _ => [] end.
Definition ex_rw_locs : list Z := [-101; -102; -103; -104; -105; -106; -107; -108; -109; -110].
Definition ex_env : zenv := mkZenv true [] [].
Lemma ex_way_alone ways p env : ReadPrimitiveBlock (mkReader true true false true) (exact (match PrimitiveBlock_Write (ex_way_block ways) [] with Ok o => o | _ => [] end)) PrimitiveBlock0 = Ok p ->
  (exists bl raw, ReadBlob (exact (ex_blob ways)) Blob0 = Ok bl /\ blob_Raw bl = Some raw /\ vis raw = match PrimitiveBlock_Write (ex_way_block ways) [] with Ok o => o | _ => [] end) ->
  holds_alone env (ex_blob ways) p.
Proof.
  intros H (bl & raw & E1 & E2 & E3). exists bl, raw. split; [exact E1|]. split; [unfold GetRawData; rewrite E2; reflexivity|]. rewrite E3. exact H.
Qed.
(** The block of way 7, with ref 30, becomes one with the location stored for 30. *)
Lemma pC52_ex : exists p m, holds_alone ex_env (ex_blob [mkWay 7 [] [] [30]]) p /\ has_way p /\
  rw_worker ex_env (sub_index_of ex_ten ex_rw_locs 90) false (mkBlk 4 (exact (ex_blob [mkWay 7 [] [] [30]])) (bytes_of "OSMData")) = Ok m /\
  vis (blk_Data m) = ex_blob [mkWay 7 [] [] [-104]].
Proof.
  exists (ex_way_block [mkWay 7 [] [] [30]]). eexists. split.
  - apply ex_way_alone; [vm_compute; reflexivity|]. eexists. eexists. split; [vm_compute; reflexivity|]. split; vm_compute; reflexivity.
  - split; [|split; [vm_compute; reflexivity|vm_compute; reflexivity]]. eexists. eexists. eexists. split; [left; reflexivity|]. split; [reflexivity|left; reflexivity].
Qed.
Lemma bytes_check l : forallb (fun b => (0 <=? b) && (b <? 256)) l = true -> bytes l.
Proof. intros E. apply Forall_forall. intros x Hx. apply (proj1 (forallb_forall _ _) E) in Hx. unfold is_u8. lia. Qed.
Lemma ex_rw_is : is_file ex_rw_file ex_rw_blobs /\ bytes ex_rw_file.
Proof.
  apply enc_file_is; [vm_compute; reflexivity|]. unfold ex_rw_blobs. apply Forall_cons; [|apply Forall_cons; [|apply Forall_cons; [|apply Forall_nil]]]; cbn [fst snd].
  - split; [left; reflexivity|]. split; [apply bytes_check|]; vm_compute; reflexivity.
  - split; [right; reflexivity|]. split; [apply bytes_check|]; vm_compute; reflexivity.
  - split; [right; reflexivity|]. split; [apply bytes_check|]; vm_compute; reflexivity.
Qed.
Lemma ex_rw_ok : index_ok ex_ten ex_rw_locs /\ Forall (fun loc => is_s64 loc /\ loc <= 0) ex_rw_locs.
Proof.
  split.
  - destruct ex_ten_ok as (_ & A & B & C). split; [|split; [exact A|split; [reflexivity|vm_compute; reflexivity]]].
    unfold ex_ten; cbn [map]; repeat (apply Forall_cons; [unfold range_ok, zlen; cbn; lia|]); apply Forall_nil.
  - unfold ex_rw_locs. repeat (apply Forall_cons; [unfold is_s64; lia|]). apply Forall_nil.
Qed.
(** Five passes: the conditions hold, the refs 90, 10, 55, 10, 0, 91 become -110, -102, 55,
    -102, -101, 91. *)
Lemma pC53_ex : let envs := fun _ _ => ex_env in
  bytes ex_rw_file /\ is_file ex_rw_file ex_rw_blobs /\ Forall (fun b => known_type (fst b)) ex_rw_blobs /\
  (forall i data, nth_error ex_rw_blobs i = Some (bytes_of "OSMData", data) -> exists p, forall pass, holds_alone (envs pass (Z.of_nat i)) data p) /\
  index_ok ex_ten ex_rw_locs /\ Forall (fun loc => is_s64 loc /\ loc <= 0) ex_rw_locs /\
  (exists subs, passes (index_of ex_ten ex_rw_locs) 5 = Ok subs /\ concat (map si_element subs) = map elem_of ex_ten) /\
  (forall k f, Z.of_nat k < 5 -> after_passes envs (index_of ex_ten ex_rw_locs) 5 k ex_rw_file = Ok f -> zlen f < 2^63) /\
  after_passes envs (index_of ex_ten ex_rw_locs) 5 5 ex_rw_file =
    enc_file [(bytes_of "OSMHeader", [1; 2]); (bytes_of "OSMData", ex_blob [mkWay 5 [1] [2] [-110; -102; 55; -102; -101; 91]; mkWay 6 [] [] [-7]]);
              (bytes_of "OSMData", ex_blob [mkWay 7 [] [] [-104]])].
Proof.
  intros envs. destruct ex_rw_is as (F & B). destruct ex_rw_ok as (I1 & I2). split; [exact B|]. split; [exact F|]. split.
  { unfold ex_rw_blobs. apply Forall_cons; [left; reflexivity|]. apply Forall_cons; [right; reflexivity|]. apply Forall_cons; [right; reflexivity|]. apply Forall_nil. }
  split.
  { intros [|[|[|i]]] data H; cbn [ex_rw_blobs nth_error] in H; [discriminate| | |destruct i; discriminate]; assert (Hd := f_equal (fun o => match o with Some x => snd x | None => [] end) H);
    cbn [snd] in Hd; subst data; eexists; intros pass; apply ex_way_alone; [vm_compute; reflexivity| |vm_compute; reflexivity|];
    (eexists; eexists; split; [vm_compute; reflexivity|]; split; vm_compute; reflexivity). }
  split; [exact I1|]. split; [exact I2|]. split; [eexists; split; [vm_compute; reflexivity|vm_compute; reflexivity]|]. split.
  - intros k f Hk E. destruct k as [|[|[|[|[|k]]]]]; [..|lia]; vm_compute in E; injection E as <-; vm_compute; reflexivity.
  - vm_compute. reflexivity.
Qed.
(** C53 is false of the code when the passes do not cover the index: with the same index in
    three passes the ref 90 is left as it is, and only there the result differs. *)
Lemma pC53_lost_ref_refuted : let envs := fun _ _ => ex_env in
  exists out1 out3, after_passes envs (index_of ex_ten ex_rw_locs) 1 1 ex_rw_file = Ok out1 /\
    after_passes envs (index_of ex_ten ex_rw_locs) 3 3 ex_rw_file = Ok out3 /\ out1 <> out3 /\
    enc_file [(bytes_of "OSMHeader", [1; 2]); (bytes_of "OSMData", ex_blob [mkWay 5 [1] [2] [90; -102; 55; -102; -101; 91]; mkWay 6 [] [] [-7]]);
              (bytes_of "OSMData", ex_blob [mkWay 7 [] [] [-104]])] = Ok out3.
Proof.
  eexists. eexists. split; [vm_compute; reflexivity|]. split; [vm_compute; reflexivity|]. split; [discriminate|]. vm_compute. reflexivity.
Qed.

(** ** C54 *)
Definition dval (l : list Z) : Z := fold_left (fun a d => 10 * a + (d - 48)) l 0.
Lemma dval_decimal : forall fuel n, 0 <= n < 10 ^ Z.of_nat fuel -> dval (decimal fuel n) = n.
Proof.
  induction fuel as [|fuel IH]; intros n H; [cbn in *; lia|]. cbn [decimal]. destruct (Z.ltb_spec n 10) as [L|L]; [unfold dval; cbn [fold_left]; lia|].
  unfold dval. rewrite fold_left_app. cbn [fold_left]. fold (dval (decimal fuel (n / 10))). rewrite IH.
  - pose proof (Z.div_mod n 10 ltac:(lia)). lia.
  - split; [apply Z.div_pos; lia|]. apply Z.div_lt_upper_bound; [lia|]. rewrite Nat2Z.inj_succ, Z.pow_succ_r in H by lia. lia.
Qed.
Lemma dval_pad s : dval (pad3 s) = dval s.
Proof.
  unfold pad3, dval. rewrite fold_left_app. assert (E : forall k, fold_left (fun a d => 10 * a + (d - 48)) (repeat 48 k) 0 = 0) by (induction k as [|k IH]; [reflexivity|cbn [repeat fold_left]; exact IH]).
  rewrite E. reflexivity.
Qed.
Lemma pass_inj fn a b c : 0 <= a < 2^63 -> 0 <= b < 2^63 -> makePassFilename fn a c = makePassFilename fn b c -> a = b.
Proof.
  intros Ha Hb E. unfold makePassFilename in E. apply app_inv_head in E. apply app_inv_head in E. apply app_inv_tail in E.
  apply (f_equal dval) in E. unfold fmt03d in E. rewrite !dval_pad, !dval_decimal in E; [exact E|..]; change (Z.of_nat 20) with 20; lia.
Qed.
Lemma pass_output fn a c : makePassFilename fn a c <> fn.
Proof.
  intros E. apply (f_equal (@List.length _)) in E. unfold makePassFilename in E. rewrite !app_length in E. change (List.length (bytes_of ".pass_")) with 6%nat in E. lia.
Qed.
Lemma fs_set_same fs n c : fs_set fs n c n = c.
Proof. unfold fs_set. rewrite seqb_refl. reflexivity. Qed.
Lemma fs_set_other fs n c m : m <> n -> fs_set fs n c m = fs m.
Proof. intros H. unfold fs_set. destruct (seqb_spec m n); [contradiction|reflexivity]. Qed.
Definition is_pass (output : list Z) (passes : Z) (name : list Z) : Prop := exists j, 1 <= j < passes /\ name = makePassFilename output j passes.
Lemma rw_loop_spec envs idx input output passes file : 1 <= passes < 2^63 -> input <> output -> ~ is_pass output passes input ->
  forall n i fs fs', 0 <= i -> i + Z.of_nat n = passes ->
  (i = 0 -> fs input = Some file) ->
  (0 < i < passes -> exists f, fs (makePassFilename output i passes) = Some f /\ after_passes envs idx passes (Z.to_nat i) file = Ok f) ->
  (i = passes -> exists f, fs output = Some f /\ after_passes envs idx passes (Z.to_nat i) file = Ok f) ->
  (forall j, 1 <= j < i - 1 -> fs (makePassFilename output j passes) = None) ->
  rw_loop envs idx input output passes n i fs = Ok fs' ->
  (exists f, fs' output = Some f /\ after_passes envs idx passes (Z.to_nat passes) file = Ok f) /\
  (forall j, 1 <= j < passes - 1 -> fs' (makePassFilename output j passes) = None) /\
  (forall name, name <> output -> ~ is_pass output passes name -> fs' name = fs name).
Proof.
  intros Hp Hio Hip. induction n as [|n IH]; intros i fs fs' Hi En H0 H1 H2 H3 E; cbn [rw_loop] in E.
  - injection E as <-. assert (i = passes) by lia. subst i. split; [apply H2; reflexivity|]. split; [exact H3|reflexivity].
  - set (fs1 := if 1 <? i then fs_remove_try fs (makePassFilename output (i - 1) passes) else fs) in E.
    assert (F1 : forall name, name <> makePassFilename output (i - 1) passes -> fs1 name = fs name).
    { intros name Hn. unfold fs1. destruct (1 <? i); [apply fs_set_other; exact Hn|reflexivity]. }
    assert (F2 : 1 < i -> fs1 (makePassFilename output (i - 1) passes) = None).
    { intros L. unfold fs1. replace (1 <? i) with true by lia. apply fs_set_same. }
    destruct (SubIndex idx i passes) as [ix|p|] eqn:Es; cbn [bind] in E; try discriminate.
    assert (Hf : exists f, fs1 (if 0 <? i then makePassFilename output i passes else input) = Some f /\ after_passes envs idx passes (Z.to_nat i) file = Ok f).
    { destruct (Z.ltb_spec 0 i) as [L|L].
      - destruct (H1 ltac:(lia)) as (f & A & B). exists f. split; [|exact B]. rewrite F1; [exact A|]. intros X. apply pass_inj in X; lia.
      - assert (i = 0) by lia. subst i. exists file. split; [|reflexivity]. unfold fs1. cbn. apply H0. reflexivity. }
    destruct Hf as (f & A & B). rewrite A in E. destruct (rw_pass (envs i) ix (i =? passes - 1) f) as [out|p|] eqn:Eo; cbn [bind] in E; try discriminate.
    assert (B' : after_passes envs idx passes (Z.to_nat (i + 1)) file = Ok out).
    { replace (Z.to_nat (i + 1)) with (S (Z.to_nat i)) by lia. cbn [after_passes]. rewrite B. cbn [bind]. rewrite Z2Nat.id by lia. rewrite Es. cbn [bind]. exact Eo. }
    set (o := if i + 1 <? passes then makePassFilename output (i + 1) passes else output) in E.
    assert (Ho : o = output \/ is_pass output passes o).
    { unfold o. destruct (Z.ltb_spec (i + 1) passes); [right; exists (i + 1); split; [lia|reflexivity]|left; reflexivity]. }
    apply IH in E; [| lia | lia | lia | | | ].
    + destruct E as (E1 & E2 & E3). split; [exact E1|]. split; [exact E2|]. intros name N1 N2. rewrite E3 by assumption.
      rewrite fs_set_other. 2:{ intros ->. destruct Ho; contradiction. }
      unfold fs1. destruct (Z.ltb_spec 1 i) as [L|L]; [|reflexivity]. apply fs_set_other. intros ->. apply N2. exists (i - 1). split; [lia|reflexivity].
    + intros L. exists out. split; [|exact B']. unfold o. replace (i + 1 <? passes) with true by lia. apply fs_set_same.
    + intros L. exists out. split; [|exact B']. unfold o. replace (i + 1 <? passes) with false by lia. apply fs_set_same.
    + intros j Hj. rewrite fs_set_other.
      2:{ unfold o. destruct (Z.ltb_spec (i + 1) passes); [|apply pass_output]. intros X. apply pass_inj in X; lia. }
      destruct (Z.eq_dec j (i - 1)) as [->|Ne]; [apply F2; lia|]. rewrite F1; [apply H3; lia|]. intros X. apply pass_inj in X; lia.
Qed.
Lemma rw_count_range c m p : 0 <= c -> rw_count c m = Ok p -> 1 <= p < 2^63.
Proof.
  intros Hc E. unfold rw_count in E. destruct m as [m|]; [|injection E as <-; lia]. destruct (Z.eqb_spec (u64 (m * 1048576)) 0) as [|N]; [discriminate|]. injection E as <-.
  pose proof (u64_range (m * 1048576)) as R. pose proof (u64_range (c * 8)) as R'. unfold is_u64 in R, R'.
  assert (2^20 <= u64 (m * 1048576)).
  { unfold u64 in *. change 1048576 with (2^20) in *. assert (D : (m * 2 ^ 20) mod 2 ^ 64 = (m mod 2^44) * 2^20) by (change (2^64) with (2^44 * 2^20); rewrite Z.mul_mod_distr_r by lia; reflexivity).
    rewrite D in *. nia. }
  set (t := u64 (m * 1048576)) in *. set (r := u64 (c * 8)) in *. clearbody t r. assert (0 <= r / t) by (apply Z.div_pos; lia).
  assert (r / t < 2^44) by (apply Z.div_lt_upper_bound; nia). rewrite u64_id by (unfold is_u64; lia). lia.
Qed.
(** C54.  A run that ends, ends with the output file holding the result of all its passes over
    the input file, without the pass files of this run, and with every other file (the input
    among them) as it was. *)
Lemma pC54_files : forall envs idx input output memory fs fs', input <> output ->
  (forall pass count, input <> makePassFilename output pass count) ->
  rw_main envs idx input output memory fs = Ok fs' ->
  exists passes file out, 1 <= passes /\ fs input = Some file /\
    after_passes envs idx passes (Z.to_nat passes) file = Ok out /\ fs' output = Some out /\
    (forall i, 1 <= i < passes -> fs' (makePassFilename output i passes) = None) /\
    (forall name, name <> output -> (forall i, 1 <= i < passes -> name <> makePassFilename output i passes) -> fs' name = fs name).
Proof.
  intros envs idx input output memory fs fs' Hio Hip E. unfold rw_main in E. destruct (rw_count (LocationCount idx) memory) as [passes|p|] eqn:Ec; cbn [bind] in E; try discriminate.
  assert (Hp : 1 <= passes < 2^63) by (eapply rw_count_range; [|exact Ec]; unfold LocationCount; apply u64_range || (apply zlen_nonneg)).
  assert (Hi : ~ is_pass output passes input) by (intros (j & _ & X); exact (Hip _ _ X)).
  destruct (rw_loop envs idx input output passes (Z.to_nat passes) 0 fs) as [fs1|p|] eqn:El; cbn [bind] in E; try discriminate.
  destruct (fs input) as [file|] eqn:Ef.
  2:{ exfalso. destruct (Z.to_nat passes) as [|m] eqn:Em; [lia|]. cbn [rw_loop] in El. change (1 <? 0) with false in El. change (0 <? 0) with false in El. cbn iota in El.
      destruct (SubIndex idx 0 passes); cbn [bind] in El; try discriminate. rewrite Ef in El. discriminate. }
  destruct (rw_loop_spec envs idx input output passes file Hp Hio Hi (Z.to_nat passes) 0 fs fs1) as ((out & O1 & O2) & P & F); [lia|lia|intros _; exact Ef|intros; lia|intros; lia|intros; lia|exact El|].
  assert (M : forall fs2, (if 1 <? passes then fs2 = fs_set fs1 (makePassFilename output (passes - 1) passes) None else fs2 = fs1) ->
     fs2 output = Some out /\ (forall i, 1 <= i < passes -> fs2 (makePassFilename output i passes) = None) /\
     (forall name, name <> output -> (forall i, 1 <= i < passes -> name <> makePassFilename output i passes) -> fs2 name = fs name)).
  { intros fs2 H. destruct (Z.ltb_spec 1 passes) as [L|L]; subst fs2.
    - split; [rewrite fs_set_other by (intros X; symmetry in X; exact (pass_output _ _ _ X)); exact O1|]. split.
      + intros i Hr. destruct (Z.eq_dec i (passes - 1)) as [->|Ne]; [apply fs_set_same|]. rewrite fs_set_other; [apply P; lia|]. intros X. apply pass_inj in X; lia.
      + intros name N1 N2. rewrite fs_set_other by (apply N2; lia). apply F; [exact N1|]. intros (j & Hj & X). exact (N2 j Hj X).
    - split; [exact O1|]. split; [intros i Hr; lia|]. intros name N1 N2. apply F; [exact N1|]. intros (j & Hj & X). exact (N2 j Hj X). }
  exists passes, file, out. split; [lia|]. split; [reflexivity|]. split; [exact O2|].
  apply M. destruct (Z.ltb_spec 1 passes) as [L|L].
  - unfold fs_remove in E. destruct (fs1 _); [|discriminate]. injection E as <-. reflexivity.
  - injection E as <-. reflexivity.
Qed.
(** Two passes: 131076 locations with one megabyte; a file left over from an earlier run. *)
Definition ex_big : NodeIndex := index_of [mkRange 10 70000 0; mkRange 80000 61076 70000] (repeat (-9) (Z.to_nat 131076)).
Definition ex_fs : fsys := fs_set (fs_set (fun _ => None) (bytes_of "in.pbf") (Some ex_rw_file)) (makePassFilename (bytes_of "out") 1 2) (Some [1]).
Lemma pC54_ex : bytes_of "in.pbf" <> bytes_of "out" /\ (forall pass count, bytes_of "in.pbf" <> makePassFilename (bytes_of "out") pass count) /\
  makePassFilename (bytes_of "out") 1 2 = bytes_of "out.pass_001_002" /\
  (fs' <- rw_main (fun _ _ => ex_env) ex_big (bytes_of "in.pbf") (bytes_of "out") (Some 1) ex_fs ;;
     Ok (fs' (bytes_of "in.pbf"), fs' (bytes_of "out"), fs' (bytes_of "out.pass_001_002"))) =
  (out <- enc_file [(bytes_of "OSMHeader", [1; 2]); (bytes_of "OSMData", ex_blob [mkWay 5 [1] [2] [-9; -9; -9; -9; 0; -9]; mkWay 6 [] [] [-7]]);
              (bytes_of "OSMData", ex_blob [mkWay 7 [] [] [-9]])] ;; Ok (Some ex_rw_file, Some out, None)).
Proof.
  split; [discriminate|]. split; [intros pass count; discriminate|]. split; [vm_compute; reflexivity|]. vm_compute. reflexivity.
Qed.
(** A memory limit of 0 megabytes: the run stops with a division by zero before it does anything. *)
Lemma pC54_no_memory_ex : forall envs idx input output fs, rw_main envs idx input output (Some 0) fs = Panic DivideByZero.
Proof. reflexivity. Qed.
