(** * WtThms: way index runs that end in any way, also within the write of the header (C96). *)
From Verif Require Import Base PbSpec TModel FrModel ZlModel PbModel IoModel IoSpec WiModel WiSpec TnSpec WiThms.
From Verif Require Import BaseLemmas IoThms NiProofs3 NiProofs4 WiProofs WiProofs2 TnThms.
From Verif Require HLModel HLProofs.

Lemma wi_batches_done o shift msgs : 0 <= shift <= 62 -> ways_typed msgs -> forall bs off cnt w w' n,
  Forall2 batch_as (way_batches msgs) bs -> 0 <= off -> off + zlen (locs_of bs) / 2^shift < 2^62 ->
  Forall (fun e => e_off e < 2^33) (merged shift off bs) -> 0 <= cnt -> cnt + zlen (merged shift off bs) < 2^63 ->
  Forall (fun b => zlen (snd b) mod 2^shift = 0) bs -> at_end (w_idx w) -> at_end (w_loc w) ->
  wi_write_batches o shift msgs off cnt w = (w', Ok n) ->
  n = cnt + zlen (merged shift off bs) /\ at_end (w_idx w') /\ at_end (w_loc w') /\
    f_data (w_idx w') = f_data (w_idx w) ++ SliceAsByteSlice (map word_of (merged shift off bs)) /\
    f_data (w_loc w') = f_data (w_loc w) ++ locs_of bs.
Proof.
  intros Hsh. pose proof (zpow_pos shift ltac:(lia)) as P. induction msgs as [|m msgs IH]; intros T bs off cnt w w' n F2 H0 Hl Hs Hc Hn Hm A1 A2; cbn [wi_write_batches].
  - apply Forall2_nil_l in F2. subst bs. unfold io_lift. intros E. injection E as <- <-. unfold locs_of. cbn. rewrite !app_nil_r. unfold zlen. cbn [List.length]. change (Z.of_nat 0) with 0. rewrite Z.add_0_r. auto.
  - assert (T' : ways_typed msgs) by (intros x Hx; apply T; right; exact Hx).
    unfold way_batches in F2. cbn [flat_map] in F2. fold (way_batches msgs) in F2. change tWayIndexData with (bytes_of "IndexData").
    destruct (HLModel.seqb (wm_Type m) (bytes_of "IndexData")) eqn:Et; cbn [negb].
    + destruct (wm_Batch m) as [[blocks locations]|] eqn:Eb; [|discriminate].
      cbn [app] in F2. inversion F2 as [|x y xs ys B F2' E1 E2]. subst. destruct y as [es locs]. destruct B as (B1 & B2 & B3). cbn [fst snd] in B1, B2, B3. subst blocks locations.
      cbn [merged] in Hs, Hn |- *. rewrite zlen_app, zlen_map in Hn. apply Forall_app in Hs. destruct Hs as (Hs1 & Hs2).
      unfold locs_of in Hl. cbn [map concat snd] in Hl. fold (locs_of ys) in Hl. rewrite zlen_app in Hl.
      pose proof (Forall_inv Hm) as Hm1. cbn [snd] in Hm1.
      pose proof (Z.div_mod (zlen locs) (2^shift)) as DM.
      assert (DV : (zlen locs + zlen (locs_of ys)) / 2^shift = zlen locs / 2^shift + zlen (locs_of ys) / 2^shift).
      { replace (zlen locs + zlen (locs_of ys)) with (zlen locs / 2^shift * 2^shift + zlen (locs_of ys)) by lia. apply Z.div_add_l. lia. }
      assert (D0 : 0 <= zlen locs / 2^shift) by (apply Z.div_pos; [apply zlen_nonneg|lia]).
      assert (D1 : 0 <= zlen (locs_of ys) / 2^shift) by (apply Z.div_pos; [apply zlen_nonneg|lia]).
      pose proof (zlen_nonneg (merged shift (off + zlen locs / 2^shift) ys)) as Z1. pose proof (zlen_nonneg es) as Z2.
      intros E. apply bind_done in E. destruct E as (w1 & x & E1 & E). unfold io_lift in E1. rewrite rebase_ok in E1; [|exact B2|lia|rewrite Forall_map in Hs1; exact Hs1]. injection E1 as <- <-.
      apply bind_done in E. destruct E as (w2 & [] & E2 & E). unfold idx_WriteSlice in E2. destruct (FWriteSlice _ _ _ _) as [[k2 f2] r2] eqn:G2. injection E2 as <- ->. apply (slice_done _ _ _ _ _ _ A1) in G2. destruct G2 as (C1 & G2).
      apply bind_done in E. destruct E as (w3 & [] & E3 & E). unfold loc_Write in E3. cbn [w_k w_idx w_loc] in E3.
      destruct (pC68_write o k2 (w_loc w) locs A2) as (k' & f' & r & E4 & A3 & _ & _ & D3 & _). rewrite E4 in E3. injection E3 as <- ->. specialize (D3 eq_refl).
      apply bind_done in E. destruct E as (w4 & u4 & E5 & E). unfold io_lift in E5. replace (shift <? 0) with false in E5 by lia. injection E5 as <- _.
      rewrite Z.shiftr_div_pow2 in E by lia. rewrite (s64_id (off + _)) in E by (unfold is_s64; lia). rewrite zlen_map in E. rewrite (s64_id (cnt + _)) in E by (unfold is_s64; lia).
      apply (IH T' ys (off + zlen locs / 2^shift) (cnt + zlen es) (mkW k' f2 f') w' n F2' ltac:(lia) ltac:(lia) Hs2 ltac:(lia) ltac:(lia) (Forall_inv_tail Hm) C1 A3) in E.
      destruct E as (-> & X1 & X2 & X3 & X4). cbn [w_idx w_loc] in X3, X4.
      split; [rewrite zlen_app, zlen_map; lia|]. split; [exact X1|]. split; [exact X2|]. rewrite X3, X4, D3, G2. unfold locs_of. cbn [map concat snd]. rewrite map_app, SliceAsByteSlice_app, !app_assoc. auto.
    + cbn [app] in F2. apply IH; assumption.
Qed.
Lemma wi_body_done o shift msgs bs w n : 0 <= shift <= 62 -> ways_typed msgs ->
  Forall2 batch_as (way_batches msgs) bs -> zlen (locs_of bs) < 2^62 -> Forall entry_ok (merged shift 0 bs) -> zlen (merged shift 0 bs) < 2^59 ->
  Forall (fun b => zlen (snd b) mod 2^shift = 0) bs -> wi_output_body o shift msgs w0 = (w, Ok n) ->
  n = zlen (merged shift 0 bs) /\ f_pos (w_idx w) = 0 /\
  exists part, prefix part (locs_of bs) /\ f_data (w_idx w) = repeat 0 16 ++ SliceAsByteSlice (map word_of (merged shift 0 bs)) ++ part.
Proof.
  intros Hsh T F2 LB EO NB MB E. pose proof (zpow_pos shift ltac:(lia)) as P. unfold wi_output_body in E.
  assert (C : forall w w' u, io_call o w = (w', Ok u) -> w_idx w' = w_idx w /\ w_loc w' = w_loc w).
  { intros x x' u H. unfold io_call in H. destruct (os_fail o (w_k x)); [discriminate|]. injection H as <- _. auto. }
  apply bind_done in E. destruct E as (w1 & u1 & E1 & E). apply C in E1. destruct E1 as (I1 & L1).
  apply bind_done in E. destruct E as (w2 & u2 & E2 & E). apply C in E2. destruct E2 as (I2 & L2).
  apply bind_done in E. destruct E as (w3 & [] & E3 & E). unfold idx_WriteSlice in E3. destruct (FWriteSlice _ _ _ _) as [[k3 f3] r3] eqn:F3. injection E3 as <- ->.
  rewrite I2, I1 in F3. apply slice_done in F3; [|reflexivity]. destruct F3 as (A3 & D3). cbn [w0 w_idx f_data app] in D3.
  apply bind_done in E. destruct E as (w4 & n4 & E4 & E).
  apply (wi_batches_done o shift msgs Hsh T bs) in E4; [|exact F2|lia| | |lia|lia|exact MB|exact A3|cbn [w_loc]; rewrite L2, L1; reflexivity].
  2:{ assert (zlen (locs_of bs) / 2^shift <= zlen (locs_of bs)) by (apply Z.div_le_upper_bound; [lia|]; pose proof (zlen_nonneg (locs_of bs)); nia). lia. }
  2:{ apply (Forall_impl _ (P := entry_ok)); [intros e (_ & H); lia|exact EO]. }
  destruct E4 as (-> & A4 & B4 & D4 & G4). cbn [w_idx w_loc] in D4, G4. rewrite L2, L1 in G4. cbn [w0 w_loc f_data app] in G4.
  apply bind_done in E. destruct E as (wx & ux & Ex & E). unfold io_lift in Ex. replace (shift <? 0) with false in Ex by lia. injection Ex as <- _.
  apply bind_done in E. destruct E as (w5 & u5 & E5 & E). unfold loc_rewind in E5. destruct (os_fail o (w_k w4)); [discriminate|]. injection E5 as <- _.
  apply bind_done in E. destruct E as (w6 & u6 & E6 & E). unfold io_copy in E6. cbn [w_k w_idx w_loc f_data] in E6.
  destruct (pC69_copy o (S (w_k w4)) (w_idx w4) (f_data (w_loc w4)) (S (List.length (f_data (w_loc w4)))) A4 ltac:(lia)) as (k' & dst' & src' & r & E7 & ND & A7 & _ & part & Pp & D7 & _).
  rewrite E7 in E6. injection E6 as <- _.
  apply bind_done in E. destruct E as (w8 & u8 & E8 & E). apply C in E8. destruct E8 as (I8 & L8).
  apply bind_done in E. destruct E as (w9 & u9 & E9 & E). apply C in E9. destruct E9 as (I9 & L9).
  apply bind_done in E. destruct E as (wa & ua & Ea & E). unfold idx_rewind in Ea. destruct (os_fail o (w_k w9)); [discriminate|]. injection Ea as <- _.
  unfold io_lift in E. injection E as <- <-. split; [lia|]. cbn [w_idx f_pos f_data]. split; [reflexivity|].
  exists part. rewrite G4 in Pp. split; [exact Pp|]. rewrite I9, I8. cbn [w_idx]. rewrite D7, D4, D3. rewrite <- !app_assoc. reflexivity.
Qed.
Lemma no_ids_no_sub ix k n : wi_Ids ix = [] -> exists p, SubIndexWithScaledPass ix k n = Panic p.
Proof.
  intros E. destruct ix as [ids l sh]. cbn [wi_Ids] in E. subst ids. unfold SubIndexWithScaledPass. destruct (n =? 0); [eexists; reflexivity|].
  cbn [wi_Ids wi_Loc wi_Shift first_at bind skipn Z.to_nat]. eexists. vm_compute. reflexivity.
Qed.
Lemma wi_ended_any o shift msgs bs ix : 0 <= shift <= 62 -> ways_typed msgs ->
  Forall2 batch_as (way_batches msgs) bs -> zlen (locs_of bs) < 2^62 -> Forall entry_ok (merged shift 0 bs) -> zlen (merged shift 0 bs) < 2^59 ->
  Forall (fun b => zlen (snd b) mod 2^shift = 0) bs -> header_whole o \/ (shift = 0 /\ zlen (merged shift 0 bs) < 256) ->
  NewWayIndex (f_data (w_idx (fst (wi_output o shift msgs w0)))) = Ok ix ->
  wi_Ids ix = [] \/ exists loc', ix = way_index_of (merged shift 0 bs) loc' shift /\ prefix loc' (locs_of bs).
Proof.
  intros Hsh T F2 LB EO NB MB U.
  assert (R : forall d, unfinished d -> NewWayIndex d = Ok ix -> wi_Ids ix = []).
  { intros d (n & rest & -> & C) E. assert (OZ : forall r, NewWayIndex (repeat 0 16 ++ r) = Ok ix -> wi_Ids ix = []).
    { intros r X. destruct (open_zero r) as (l & Y). rewrite Y in X. injection X as <-. reflexivity. }
    destruct C as [-> | ->]; [exact (OZ _ E)|]. rewrite app_nil_r in E. destruct (Nat.lt_ge_cases n 16) as [Lt|Ge].
    - destruct (open_short n Lt) as (p & X). congruence.
    - replace n with (16 + (n - 16))%nat in E by lia. rewrite repeat_app in E. exact (OZ _ E). }
  pose proof (wi_unfinished o shift msgs) as BU. unfold wi_output. unfold io_bind at 1.
  destruct (wi_output_body o shift msgs w0) as [w [n|p|]] eqn:Eb; [|intros E; left; eapply R; [|exact E]; exact BU..].
  destruct (wi_body_done o shift msgs bs w n Hsh T F2 LB EO NB MB Eb) as (-> & Hp & part & P & D). clear Eb BU.
  unfold io_bind at 1. unfold idx_WriteSlice at 1. unfold FWriteSlice, File_Write. set (es := merged shift 0 bs) in *.
  change (zlen (SliceAsByteSlice [zlen es; shift])) with 16. destruct (os_write o (w_k w) 16) as [m err] eqn:Ew.
  assert (Hm : clip m 16 = 0 \/ clip m 16 = 16 \/ (shift = 0 /\ zlen es < 256)).
  { destruct U as [U|U]; [|auto]. specialize (U (w_k w)). rewrite Ew in U. cbn [fst] in U. unfold clip. lia. }
  pose proof (clip_bounds m 16 ltac:(lia)) as C. set (c := clip m 16) in *. clearbody c. clear Ew m U.
  assert (G : forall w2, f_data (w_idx w2) = f_data (f_put (w_idx w) (firstn (Z.to_nat c) (SliceAsByteSlice [zlen es; shift]))) ->
    NewWayIndex (f_data (w_idx w2)) = Ok ix -> wi_Ids ix = [] \/ exists loc', ix = way_index_of es loc' shift /\ prefix loc' (locs_of bs)).
  { intros w2 -> E. unfold f_put in E. rewrite Hp, D in E. cbn [f_data] in E. change (Z.to_nat 0) with 0%nat in E. rewrite firstn_O in E. cbn [app Nat.add] in E.
    rewrite firstn_length in E. change (List.length (SliceAsByteSlice [zlen es; shift])) with 16%nat in E. replace (Nat.min (Z.to_nat c) 16) with (Z.to_nat c) in E by lia.
    assert (HD : firstn (Z.to_nat c) (SliceAsByteSlice [zlen es; shift]) ++ skipn (Z.to_nat c) (repeat 0 16 ++ SliceAsByteSlice (map word_of es) ++ part) =
      (firstn (Z.to_nat c) (SliceAsByteSlice [zlen es; shift]) ++ skipn (Z.to_nat c) (repeat 0 16)) ++ SliceAsByteSlice (map word_of es) ++ part).
    { rewrite skipn_app. rewrite repeat_length. replace (Z.to_nat c - 16)%nat with 0%nat by lia. rewrite skipn_O, app_assoc. reflexivity. }
    rewrite HD in E. clear HD.
    destruct (Z.eq_dec c 0) as [->|N0]; [left; eapply R; [|exact E]; exists 16%nat; eexists; split; [|left; reflexivity]; reflexivity|].
    assert (X : firstn (Z.to_nat c) (SliceAsByteSlice [zlen es; shift]) ++ skipn (Z.to_nat c) (repeat 0 16) = SliceAsByteSlice [zlen es; shift]).
    { destruct (Z.eq_dec c 16) as [->|N16]; [reflexivity|]. destruct Hm as [Hm|[Hm|(S0 & Hq)]]; [lia|lia|]. rewrite S0. pose proof (zlen_nonneg es) as Z0. revert Z0 Hq. generalize (zlen es). intros q Z0 Hq.
      assert (X : le64 q = [q; 0; 0; 0; 0; 0; 0; 0]). { unfold le64. rewrite !Z.shiftr_div_pow2 by lia. unfold u8. rewrite (Z.mod_small q) by lia. rewrite !Z.div_small by lia. reflexivity. }
      assert (Y : SliceAsByteSlice [q; 0] = [q; 0; 0; 0; 0; 0; 0; 0] ++ le64 0) by (rewrite <- X; reflexivity). rewrite Y.
      assert (Q : c = 1 \/ c = 2 \/ c = 3 \/ c = 4 \/ c = 5 \/ c = 6 \/ c = 7 \/ c = 8 \/ c = 9 \/ c = 10 \/ c = 11 \/ c = 12 \/ c = 13 \/ c = 14 \/ c = 15) by lia.
      repeat (destruct Q as [->|Q]; [reflexivity|]). rewrite Q. reflexivity. }
    rewrite X in E. right. exists part. split; [|exact P].
    rewrite app_assoc, <- SliceAsByteSlice_app in E. change ([zlen es; shift] ++ map word_of es) with (zlen es :: shift :: map word_of es) in E.
    rewrite <- (zlen_map word_of) in E. rewrite open_way in E; [injection E as <-; reflexivity|exact Hsh|rewrite zlen_map; lia|].
    apply Forall_map. apply (Forall_impl _ (P := entry_ok)); [intros e H; exact (word_u64 e H)|exact EO]. }
  destruct err; [|destruct (c =? 16)].
  - cbn [fst]. apply G. reflexivity.
  - unfold io_call. cbn [w_k w_idx w_loc]. destruct (os_fail o _); cbn [fst]; apply G; reflexivity.
  - cbn [fst]. apply G. reflexivity.
Qed.

(** C96.  However a run of the way indexer ends - any write cut short or failing, any other call failing, cancelled or not - the file it leaves
    never gives wrong locations: if it opens and a pass of it can be made, what a lookup finds is what is kept of the refs of the way with that
    id.  (Partial: if the write of the 16 bytes of the header is not cut, or the alignment is 1 and there are less than 256 ways, see below.) *)
Lemma pC96_never_wrong_partial : forall o a inBlocks wss, 0 <= a <= 62 -> Forall2 ways_block inBlocks wss ->
  header_whole o \/ (a = 0 /\ zlen (concat wss) < 256) ->
  Forall (fun w => 0 <= fst w < 2^31 /\ Forall is_s64 (snd w)) (concat wss) -> ascending_by fst (concat wss) ->
  size_bound a (concat wss) <= 2^(33 + a) -> size_bound a (concat wss) < 2^62 ->
  forall ix pass count si id hint locs h, NewWayIndex (f_data (w_idx (fst (wi_index o a inBlocks)))) = Ok ix ->
    SubIndexWithScaledPass ix pass count = Ok si -> FindLocations si id hint = Ok (locs, h, true) ->
    exists refs, In (id, refs) (concat wss) /\ locs = kept 0 refs.
Proof.
  intros o a bs wss Ha F2 U Hw Hasc Hs Hb.
  assert (Hi : Forall (fun w => 0 <= fst w < 2^31) (concat wss)) by (apply (Forall_impl _ (P := fun w => 0 <= fst w < 2^31 /\ Forall is_s64 (snd w))); [tauto|exact Hw]).
  assert (Ht : Forall (fun w => Forall is_s64 (snd w)) (concat wss)) by (apply (Forall_impl _ (P := fun w => 0 <= fst w < 2^31 /\ Forall is_s64 (snd w))); [tauto|exact Hw]).
  intros ix pass count si id hint locs h E2 Es Ef.
  assert (X : wi_Ids ix = [] \/ exists loc', ix = way_index_of (entries_of a 0 (concat wss)) loc' a /\ prefix loc' (all_bytes a (concat wss))).
  { destruct (msgs_ok a Ha bs wss F2 Hi Hs) as (msgs & E & T & B).
    set (wss' := filter (fun ws => negb (zlen ws =? 0)) wss) in *.
    assert (CE : concat wss' = concat wss) by apply concat_nonempty.
    pose proof (merged_entries a ltac:(lia) wss' 0) as ME. pose proof (locs_of_all a wss') as LE. rewrite CE in ME, LE.
    destruct (all_bytes_len a (concat wss) ltac:(lia)) as (m & Em & Lm & Sm). pose proof (zpow_pos a ltac:(lia)) as P.
    destruct (mk_ok a (concat wss) ltac:(lia) Hi 0 ltac:(lia) ltac:(lia)) as (_ & F).
    assert (m <= 2^33) by (rewrite Z.pow_add_r in Hs by lia; nia).
    unfold wi_index in E2. rewrite E in E2. rewrite <- ME, <- LE. eapply wi_ended_any; [exact Ha|exact T|exact B| | | | | |exact E2].
    - rewrite LE. lia.
    - rewrite ME. exact F.
    - rewrite ME, entries_zlen. lia.
    - apply Forall_map. apply Forall_forall. intros ws _. cbn [snd]. destruct (all_bytes_len a ws ltac:(lia)) as (y & -> & _). apply Z.mod_mul. lia.
    - destruct U as [U|(U1 & U2)]; [left; exact U|right]. split; [exact U1|]. rewrite ME, entries_zlen. exact U2. }
  destruct X as [X|(loc' & -> & Pre)]; [destruct (no_ids_no_sub ix pass count X) as (p & Y); congruence|].
  set (ws := concat wss) in *. pose proof (index_of_ways a ws Ha Hi Hasc Hs Hb) as OK. set (es := entries_of a 0 ws) in *.
  destruct (way_sub_means _ _ _ _ Es) as (Inc & El & Esh). cbn [way_index_of wi_Ids wi_Loc wi_Shift] in Inc, El, Esh.
  destruct (found_entry _ _ _ _ _ Ef) as (d & Hd & Eid & Eloc). apply Inc in Hd. apply in_map_iff in Hd. destruct Hd as (e & <- & He).
  pose proof OK as (O1 & _ & _ & _ & O5 & O6). pose proof (proj1 (Forall_forall _ _) O1 e He) as Oe. pose proof (proj1 (Forall_forall _ _) O6 e He) as Re. cbn beta in Re.
  rewrite word_id in Eid by exact Oe.
  pose proof He as He'. apply In_nth_error in He'. destruct He' as (k & Ek). apply entries_nth in Ek; [|lia]. destruct Ek as ([id' refs] & Ew & ->).
  cbn [e_id e_off fst] in *. rewrite Z.add_0_l in *. subst id'. exists refs. split; [exact (nth_error_In _ _ Ew)|].
  pose proof (stored_way a ws k (id, refs) ltac:(lia) Ht ltac:(lia) Ew) as (_ & Sd). cbn [snd] in Sd.
  unfold way_locations in Eloc. rewrite word_off in Eloc by exact Oe. cbn [e_off] in Eloc. rewrite Esh, El in Eloc.
  pose proof (zpow_pos a ltac:(lia)) as Pw. destruct (all_bytes_len a (firstn k ws) ltac:(lia)) as (p & Ep & _).
  rewrite Ep, Z.div_mul in Re, Eloc by lia. rewrite Ep in Sd. rewrite go_shl_ok in Eloc by lia. cbn [bind] in Eloc.
  unfold sslice, exact in Eloc. replace (scap (mkslice loc' [])) with (zlen loc') in Eloc by (unfold scap, slen, zlen; cbn [vis ext List.length]; lia). cbn [vis ext] in Eloc. rewrite app_nil_r in Eloc.
  destruct ((0 <=? p * 2 ^ a) && (p * 2 ^ a <=? zlen loc') && (zlen loc' <=? zlen loc')) eqn:G; [|discriminate]. cbn [bind] in Eloc.
  apply andb_true_iff in G. destruct G as (G & _). apply andb_true_iff in G.
  rewrite firstn_all2 in Eloc by (rewrite skipn_length; unfold zlen; lia). rewrite (skipn_all2 (n := Z.to_nat (zlen loc'))) in Eloc by (unfold zlen; lia).
  destruct Pre as (q & Eq). apply (decode_more _ q) in Eloc. rewrite Eq in Sd. rewrite skipn_app in Sd.
  replace (Z.to_nat (p * 2 ^ a) - List.length loc')%nat with 0%nat in Sd by (unfold zlen in G; lia). cbn [skipn] in Sd. unfold exact in Eloc, Sd. rewrite Sd in Eloc. congruence.
Qed.
(** a write is cut; one read only, and the close at the end fails *)
Lemma pC96_ex : let o := mkOS (fun k n => if (n =? 16) then (n, false) else (n - 1, false)) (fun _ => (20, NoErr)) (fun _ => false) (fun _ => false) in
  let o' := mkOS (fun k n => (n, false)) (fun k => if (k =? 9)%nat then (20, NoErr) else (0, EOF)) (fun k => (17 <=? k)%nat) (fun _ => false) in
  Forall2 ways_block ex_wi_blocks ex_wi_ways /\ header_whole o /\ header_whole o' /\
  (exists w, wi_index o 4 ex_wi_blocks = (w, Panic (PanicMsg "zero write"))) /\
  exists w ix si, wi_index o' 4 ex_wi_blocks = (w, Panic IOError) /\ NewWayIndex (f_data (w_idx w)) = Ok ix /\ zlen (wi_Loc ix) = 20 /\ SubIndexWithScaledPass ix 0 1 = Ok si /\
    FindLocations si 5 0 = Ok ([3; 4], 0, true) /\ FindLocations si 8 0 = Ok ([], 0, false).
Proof.
  intros o o'. split; [apply pC57_ex|]. split; [intros k; right; vm_compute; discriminate|]. split; [intros k; unfold o'; cbn [os_write fst]; lia|]. split; [eexists; vm_compute; reflexivity|].
  do 3 eexists. split; [vm_compute; reflexivity|]. split; [vm_compute; reflexivity|]. split; [vm_compute; reflexivity|]. split; [vm_compute; reflexivity|]. split; vm_compute; reflexivity.
Qed.

(** C96 is false of the code if the write of the header can be cut: if it stops after its first word, the file opens and for way 7,
    whose nodes have the location -9, gives the location 1. *)
Lemma pC96_torn_header_refuted : let o := mkOS (fun k n => if (k <? 16)%nat then (n, false) else (8, true)) (fun _ => (1048576, NoErr)) (fun _ => false) (fun _ => false) in
  Forall2 ways_block ex_wi_blocks ex_wi_ways /\ In (7, [0; -9]) (concat ex_wi_ways) /\ kept 0 [0; -9] = [-9] /\
  exists w ix si, wi_index o 4 ex_wi_blocks = (w, Panic IOError) /\ NewWayIndex (f_data (w_idx w)) = Ok ix /\ SubIndexWithScaledPass ix 0 1 = Ok si /\
    FindLocations si 7 0 = Ok ([1], 1, true).
Proof.
  intros o. split; [apply pC57_ex|]. split; [right; left; reflexivity|]. split; [reflexivity|].
  do 3 eexists. split; [vm_compute; reflexivity|]. split; [vm_compute; reflexivity|]. split; [vm_compute; reflexivity|]. vm_compute; reflexivity.
Qed.
