(** * TnThms: node index runs that end in any way, also within the write of the header (C95). *)
From Verif Require Import Base PbSpec TModel FrModel ZlModel MtModel IoModel IoSpec NiModel NiSpec TnSpec NiThms.
From Verif Require Import BaseLemmas IoThms MtThms NiProofs NiProofs2 NiProofs3 NiProofs4.
From Verif Require HLModel HLProofs.

(** a write that succeeds *)
Lemma slice_done o k f data k' f' : at_end f -> FWriteSlice o k f data = (k', f', Ok tt) -> at_end f' /\ f_data f' = f_data f ++ SliceAsByteSlice data.
Proof.
  intros A E. destruct (FWriteSlice_any o k f data A) as (k2 & f2 & r & part & E2 & A2 & D & _ & F). rewrite E2 in E. injection E as -> -> ->.
  split; [exact A2|]. rewrite D, (F eq_refl). reflexivity.
Qed.
Lemma bind_done {A B} (m : io A) (f : A -> io B) w w' b : io_bind m f w = (w', Ok b) -> exists w1 a, m w = (w1, Ok a) /\ f a w1 = (w', Ok b).
Proof. unfold io_bind. destruct (m w) as [w1 [a|p|]]; try discriminate. intros E. exists w1, a. auto. Qed.
Lemma write_batches_done o msgs : well_typed msgs -> forall off cnt w w' n, 0 <= off -> storable off (all_ranges msgs) -> 0 <= cnt ->
  cnt + zlen (all_ranges msgs) < 2^63 -> at_end (w_idx w) -> at_end (w_loc w) ->
  ni_write_batches o msgs off cnt w = (w', Ok n) ->
  n = cnt + zlen (all_ranges msgs) /\ at_end (w_idx w') /\ at_end (w_loc w') /\
    f_data (w_idx w') = f_data (w_idx w) ++ SliceAsByteSlice (flat_map words_of (place off (all_ranges msgs))) /\
    f_data (w_loc w') = f_data (w_loc w) ++ SliceAsByteSlice (all_locs msgs).
Proof.
  induction msgs as [|m msgs IH]; intros T off cnt w w' n H0 Hs Hc Hn A1 A2; cbn [ni_write_batches].
  - unfold io_lift. intros E. injection E as <- <-. unfold all_ranges, all_locs. cbn. rewrite !app_nil_r. unfold zlen. cbn [List.length]. change (Z.of_nat 0) with 0. rewrite Z.add_0_r. auto.
  - assert (T' : well_typed msgs) by (intros x Hx; apply T; right; exact Hx).
    unfold all_ranges, all_locs, batches in *. cbn [flat_map map concat] in *. change tIndexData with (bytes_of "IndexData").
    destruct (HLModel.seqb (nm_Type m) (bytes_of "IndexData")) eqn:Et; cbn [negb].
    + destruct (nm_Batch m) as [[ranges locations]|] eqn:Eb; [|discriminate].
      cbn [app map concat fst snd] in *. rewrite zlen_app in Hn. apply storable_app in Hs. destruct Hs as (Hs1 & Hs2).
      pose proof (zlen_nonneg (concat (map fst (flat_map (fun m => if HLModel.seqb (nm_Type m) (bytes_of "IndexData") then match nm_Batch m with Some b => [b] | None => [] end else []) msgs)))) as Z0.
      pose proof (zlen_nonneg ranges) as Z1. pose proof (storable_total _ _ Hs1) as Z2.
      intros E. apply bind_done in E. destruct E as (w1 & x & E1 & E). unfold io_lift in E1. rewrite ni_ranges_spec in E1 by (assumption || lia). injection E1 as <- <-. cbn [fst snd app] in E.
      apply bind_done in E. destruct E as (w2 & [] & E2 & E). unfold idx_WriteSlice in E2. destruct (FWriteSlice _ _ _ _) as [[k2 f2] r2] eqn:F2. injection E2 as <- ->. apply (slice_done _ _ _ _ _ _ A1) in F2. destruct F2 as (B1 & D1).
      apply bind_done in E. destruct E as (w3 & [] & E3 & E). unfold loc_WriteSlice in E3. cbn [w_k w_idx w_loc] in E3. destruct (FWriteSlice _ _ _ _) as [[k3 f3] r3] eqn:F3. injection E3 as <- ->. apply (slice_done _ _ _ _ _ _ A2) in F3. destruct F3 as (B2 & D2).
      apply (IH T' (off + total (place off ranges)) (cnt + zlen ranges) (mkW k3 f2 f3) _ _ ltac:(lia) Hs2 ltac:(lia) ltac:(lia) B1 B2) in E. destruct E as (-> & G1 & G2 & G3 & G4). cbn [w_idx w_loc] in G3, G4.
      split; [rewrite zlen_app; lia|]. split; [exact G1|]. split; [exact G2|]. rewrite G3, G4, D1, D2. rewrite place_app, flat_map_app, !SliceAsByteSlice_app, !app_assoc. auto.
    + cbn [app] in *. apply IH; assumption.
Qed.
(** the file when the header is about to be written *)
Lemma body_done o msgs w n : well_typed msgs -> storable 0 (all_ranges msgs) -> zlen (all_ranges msgs) < 2^63 -> ni_output_body o msgs w0 = (w, Ok n) ->
  n = zlen (all_ranges msgs) /\ f_pos (w_idx w) = 0 /\
  exists part, prefix part (SliceAsByteSlice (all_locs msgs)) /\
    f_data (w_idx w) = repeat 0 16 ++ SliceAsByteSlice (flat_map words_of (place 0 (all_ranges msgs))) ++ part.
Proof.
  intros T S N E. unfold ni_output_body in E.
  assert (C : forall w w' u, io_call o w = (w', Ok u) -> w_idx w' = w_idx w /\ w_loc w' = w_loc w).
  { intros x x' u H. unfold io_call in H. destruct (os_fail o (w_k x)); [discriminate|]. injection H as <- _. auto. }
  apply bind_done in E. destruct E as (w1 & u1 & E1 & E). apply C in E1. destruct E1 as (I1 & L1).
  apply bind_done in E. destruct E as (w2 & u2 & E2 & E). apply C in E2. destruct E2 as (I2 & L2).
  apply bind_done in E. destruct E as (w3 & [] & E3 & E). unfold idx_WriteSlice in E3. destruct (FWriteSlice _ _ _ _) as [[k3 f3] r3] eqn:F3. injection E3 as <- ->.
  rewrite I2, I1 in F3. apply slice_done in F3; [|reflexivity]. destruct F3 as (A3 & D3). cbn [w0 w_idx f_data app] in D3.
  apply bind_done in E. destruct E as (w4 & n4 & E4 & E).
  apply (write_batches_done o msgs T) in E4; [|lia|exact S|lia|lia|exact A3|cbn [w_loc]; rewrite L2, L1; reflexivity].
  destruct E4 as (-> & A4 & B4 & D4 & G4). cbn [w_idx w_loc] in D4, G4. rewrite L2, L1 in G4. cbn [w0 w_loc f_data app] in G4.
  apply bind_done in E. destruct E as (w5 & u5 & E5 & E). unfold loc_rewind in E5. destruct (os_fail o (w_k w4)); [discriminate|]. injection E5 as <- _.
  apply bind_done in E. destruct E as (w6 & u6 & E6 & E). unfold io_copy in E6. cbn [w_k w_idx w_loc f_data] in E6.
  destruct (pC69_copy o (Datatypes.S (w_k w4)) (w_idx w4) (f_data (w_loc w4)) (Datatypes.S (List.length (f_data (w_loc w4)))) A4 ltac:(lia)) as (k' & dst' & src' & r & E7 & ND & A7 & _ & part & P & D7 & _).
  rewrite E7 in E6. injection E6 as <- _.
  apply bind_done in E. destruct E as (w8 & u8 & E8 & E). apply C in E8. destruct E8 as (I8 & L8).
  apply bind_done in E. destruct E as (w9 & u9 & E9 & E). apply C in E9. destruct E9 as (I9 & L9).
  apply bind_done in E. destruct E as (wa & ua & Ea & E). unfold idx_rewind in Ea. destruct (os_fail o (w_k w9)); [discriminate|]. injection Ea as <- _.
  unfold io_lift in E. injection E as <- <-. split; [lia|]. cbn [w_idx f_pos f_data]. split; [reflexivity|].
  exists part. rewrite G4 in P. split; [exact P|]. rewrite I9, I8. cbn [w_idx]. rewrite D7, D4, D3. rewrite <- !app_assoc. reflexivity.
Qed.

(** an index without elements has no sub-index *)
Lemma empty_sub locs p c : exists e, SubIndex (mkNI [] locs) p c = Panic e.
Proof.
  unfold SubIndex. cbn [ni_elements ni_locations]. destruct (c =? 0); [eexists; reflexivity|]. cbv zeta.
  match goal with |- context [find_start ?a ?b ?c ?d] => destruct (find_start a b c d) as [x y] eqn:E end. cbn in E. injection E as <- <-. eexists. vm_compute. reflexivity.
Qed.

(** what opens after a run that ended in any way *)
Lemma ended_any o msgs idx : well_typed msgs -> storable 0 (all_ranges msgs) -> Forall is_s64 (all_locs msgs) -> word_whole o \/ zlen (all_ranges msgs) < 256 ->
  NewNodeIndex (f_data (w_idx (fst (ni_output o msgs w0)))) = Ok idx ->
  ni_elements idx = [] \/ exists locs', idx = index_of (place 0 (all_ranges msgs)) locs' /\ prefix locs' (all_locs msgs).
Proof.
  intros T S L64 U.
  assert (N : zlen (all_ranges msgs) < 2^41).
  { destruct (all_ranges msgs) as [|x rs] eqn:E; [unfold zlen; cbn [List.length]; lia|]. pose proof (storable_total _ _ S).
    pose proof (storable_bound (x :: rs) 0 ltac:(lia) S ltac:(discriminate)). lia. }
  assert (R : forall d, unfinished d -> NewNodeIndex d = Ok idx -> False).
  { intros d H E. apply unfinished_refused in H. destruct H as (p & H). congruence. }
  pose proof (body_unfinished o msgs) as BU. unfold ni_output. unfold io_bind at 1.
  destruct (ni_output_body o msgs w0) as [w [n|p|]] eqn:Eb; [|intros E; exfalso; eapply R; [|exact E]; exact BU..].
  destruct (body_done o msgs w n T S ltac:(lia) Eb) as (-> & Hp & part & P & D). clear Eb BU.
  unfold io_bind at 1. unfold idx_WriteSlice at 1. unfold FWriteSlice, File_Write.
  change (zlen (SliceAsByteSlice [Version; zlen (all_ranges msgs)])) with 16. destruct (os_write o (w_k w) 16) as [m err] eqn:Ew.
  assert (Hm : clip m 16 <= 8 \/ clip m 16 = 16 \/ zlen (all_ranges msgs) < 256).
  { destruct U as [U|U]; [|auto]. specialize (U (w_k w)). rewrite Ew in U. cbn [fst] in U. unfold clip. lia. }
  pose proof (clip_bounds m 16 ltac:(lia)) as C. set (c := clip m 16) in *. clearbody c. clear Ew m U.
  assert (G : forall (b : bool) w2 (r : res unit), f_data (w_idx w2) = f_data (f_put (w_idx w) (firstn (Z.to_nat c) (SliceAsByteSlice [Version; zlen (all_ranges msgs)]))) ->
    NewNodeIndex (f_data (w_idx w2)) = Ok idx -> ni_elements idx = [] \/ exists locs', idx = index_of (place 0 (all_ranges msgs)) locs' /\ prefix locs' (all_locs msgs)).
  { intros _ w2 _ -> E. unfold f_put in E. rewrite Hp, D in E. cbn [f_data] in E. change (Z.to_nat 0) with 0%nat in E. rewrite firstn_O in E. cbn [app Nat.add] in E.
    rewrite firstn_length in E. change (List.length (SliceAsByteSlice [Version; zlen (all_ranges msgs)])) with 16%nat in E. replace (Nat.min (Z.to_nat c) 16) with (Z.to_nat c) in E by lia.
    destruct (prefix_words _ _ P) as (ws' & rest & -> & Pw & Lr). set (words := flat_map words_of (place 0 (all_ranges msgs))) in *.
    assert (Wl : zlen words = 2 * zlen (all_ranges msgs)) by (unfold words; rewrite words_len, place_len; reflexivity).
    assert (HD : firstn (Z.to_nat c) (SliceAsByteSlice [Version; zlen (all_ranges msgs)]) ++ skipn (Z.to_nat c) (repeat 0 16 ++ SliceAsByteSlice words ++ SliceAsByteSlice ws' ++ rest) =
      (firstn (Z.to_nat c) (SliceAsByteSlice [Version; zlen (all_ranges msgs)]) ++ skipn (Z.to_nat c) (repeat 0 16)) ++ SliceAsByteSlice words ++ SliceAsByteSlice ws' ++ rest).
    { rewrite skipn_app. rewrite repeat_length. replace (Z.to_nat c - 16)%nat with 0%nat by lia. rewrite skipn_O, app_assoc. reflexivity. }
    rewrite HD in E. clear HD.
    assert (FULL : firstn (Z.to_nat c) (SliceAsByteSlice [Version; zlen (all_ranges msgs)]) ++ skipn (Z.to_nat c) (repeat 0 16) = SliceAsByteSlice [Version; zlen (all_ranges msgs)] ->
      ni_elements idx = [] \/ exists locs', idx = index_of (place 0 (all_ranges msgs)) locs' /\ prefix locs' (all_locs msgs)).
    { intros X. rewrite X in E. right.
      assert (Y : SliceAsByteSlice [Version; zlen (all_ranges msgs)] ++ SliceAsByteSlice words ++ SliceAsByteSlice ws' ++ rest = SliceAsByteSlice (Version :: zlen words / 2 :: words ++ ws') ++ rest).
      { rewrite Wl, (Z.mul_comm 2), Z.div_mul by lia. change (Version :: zlen (all_ranges msgs) :: words ++ ws') with ([Version; zlen (all_ranges msgs)] ++ words ++ ws'). rewrite !SliceAsByteSlice_app, <- !app_assoc. reflexivity. }
      rewrite Y, open_ok in E; [|exact Lr|rewrite Wl, (Z.mul_comm 2), Z.div_mul by lia; pose proof (zlen_nonneg (all_ranges msgs)); lia|rewrite Wl, Z.mul_comm; apply Z.mod_mul; lia].
      injection E as <-. exists ws'. split; [|exact Pw]. unfold index_of. rewrite (map_s64_id ws') by (exact (prefix_Forall _ _ _ Pw L64)). reflexivity. }
    assert (CS : c = 0 \/ 1 <= c <= 8 \/ 9 <= c) by lia. destruct CS as [->|[Lc|Gc]].
    - exfalso. eapply R; [|exact E]. exists 16%nat. eexists. split; [|left; reflexivity]. reflexivity.
    - left. assert (X : firstn (Z.to_nat c) (SliceAsByteSlice [Version; zlen (all_ranges msgs)]) ++ skipn (Z.to_nat c) (repeat 0 16) = SliceAsByteSlice [Version; 0]).
      { assert (Q : c = 1 \/ c = 2 \/ c = 3 \/ c = 4 \/ c = 5 \/ c = 6 \/ c = 7 \/ c = 8) by lia. destruct Q as [->|[->|[->|[->|[->|[->|[->| ->]]]]]]]; reflexivity. }
      rewrite X in E. assert (Y : SliceAsByteSlice [Version; 0] ++ SliceAsByteSlice words ++ SliceAsByteSlice ws' ++ rest = SliceAsByteSlice (Version :: zlen (@nil Z) / 2 :: [] ++ (words ++ ws')) ++ rest).
      { change (Version :: zlen (@nil Z) / 2 :: [] ++ (words ++ ws')) with ([Version; 0] ++ words ++ ws'). rewrite !SliceAsByteSlice_app, <- !app_assoc. reflexivity. }
      rewrite Y, open_ok in E; [injection E as <-; reflexivity|exact Lr|change (zlen (@nil Z) / 2) with 0; lia|reflexivity].
    - apply FULL. destruct (Z.eq_dec c 16) as [->|N16]; [reflexivity|]. assert (Hs : 0 <= zlen (all_ranges msgs) < 256) by (pose proof (zlen_nonneg (all_ranges msgs)); lia).
      revert Hs. generalize (zlen (all_ranges msgs)). intros q Hq.
      assert (X : le64 q = [q; 0; 0; 0; 0; 0; 0; 0]). { unfold le64. rewrite !Z.shiftr_div_pow2 by lia. unfold u8. rewrite (Z.mod_small q) by lia. rewrite !Z.div_small by lia. reflexivity. }
      assert (Y : SliceAsByteSlice [Version; q] = le64 Version ++ [q; 0; 0; 0; 0; 0; 0; 0]) by (rewrite <- X; reflexivity). rewrite Y.
      assert (Q : c = 9 \/ c = 10 \/ c = 11 \/ c = 12 \/ c = 13 \/ c = 14 \/ c = 15) by lia. destruct Q as [->|[->|[->|[->|[->|[->| ->]]]]]]; reflexivity. }
  destruct err; [|destruct (c =? 16)].
  - cbn [fst]. apply (G true); [exact (Panic IOError)|reflexivity].
  - unfold io_call. cbn [w_k w_idx w_loc]. destruct (os_fail o _); cbn [fst]; (apply (G true); [exact (Panic IOError)|reflexivity]).
  - cbn [fst]. apply (G true); [exact (Panic IOError)|reflexivity].
Qed.

(** C95.  However the run ends - any write cut short or failing, any other call failing, cancelled or not - the
    file it leaves never gives a wrong location: if it opens and a pass of it can be made, what a lookup finds
    is the location of the node with that id.  (Partial: for more than 127 nodes, if the write of the 16 bytes of the header is not cut within its second
    word, see below.) *)
Lemma pC95_never_wrong_partial : forall o inBlocks nss, Forall2 input_block inBlocks nss ->
  let ns := concat nss in
  word_whole o \/ zlen ns < 128 ->
  ascending (map in_id ns) -> Forall (fun n => 2 <= in_id n < 2^63) ns ->
  Forall (fun b => zlen b < 2^23) nss -> zlen ns < 2^39 ->
  forall idx pass count sub id hint loc h, NewNodeIndex (f_data (w_idx (fst (ni_index o inBlocks)))) = Ok idx ->
    SubIndex idx pass count = Ok sub -> FindNode sub id hint = Ok (loc, h, true) ->
    exists n, In n ns /\ in_id n = id /\ location (in_lon n) (in_lat n) = Ok loc.
Proof.
  intros o bs nss F ns U A I S T. set (V := value_of ns).
  assert (Vv : vals V 1 ns).
  { apply vals_intro; [exact A| |apply value_in; exact A|intros j _; apply value_out].
    intros n Hn. pose proof (proj1 (Forall_forall _ _) I n Hn). cbn beta in H. lia. }
  assert (Ib : Forall (fun n => in_id n < 2^63) ns) by (apply Forall_forall; intros n Hn; pose proof (proj1 (Forall_forall _ _) I n Hn); cbn beta in H; lia).
  destruct (msgs_spec V bs nss F 1 ltac:(lia) Vv Ib S) as (msgs & Em & Wt & Ap & _ & Lc & Cov & Zl & Bd). fold ns in Cov, Zl.
  set (R := all_ranges msgs) in *. assert (Vr : forall id, - 2^63 <= V id <= 0).
  { intros id. unfold V, value_of. destruct (find _ ns) as [n|]; [pose proof (loc_of_ok n); lia|lia]. }
  assert (Sl : zlen (spans V R) <= 2^40) by (rewrite <- Lc; lia).
  assert (St : storable 0 R) by (apply (asc_storable V R 0 1); [lia|assumption|assumption|lia]).
  assert (Ok1 : Forall (range_ok (spans V R)) (place 0 R)) by (apply (place_ok V R 0 1); [lia|lia|assumption|assumption|lia|lia]).
  intros idx pass count sub id hint loc h Eo Es Ef. unfold ni_index in Eo. rewrite Em in Eo.
  assert (U' : word_whole o \/ zlen (all_ranges msgs) < 256).
  { destruct U as [U|U]; [left; exact U|right]. fold R. pose proof (storable_total _ _ St). assert (total (place 0 R) = zlen (all_locs msgs)) by (rewrite Lc; apply (place_total V R 0 1); assumption). lia. }
  apply (ended_any o msgs idx Wt St) in Eo; [|rewrite Lc; apply spans_range; exact Vr|exact U'].
  destruct Eo as [Eo|(locs' & -> & Pre)].
  { destruct idx as [el lo]. cbn [ni_elements] in Eo. subst el. destruct (empty_sub lo pass count) as (e & X). congruence. }
  fold R in Es. rewrite Lc in Pre.
  destruct (sub_means _ _ _ _ _ _ Ok1 Es) as (El & Inc).
  destruct (found_means _ _ _ _ _ Ef) as (e & off & He & Eo' & Eloc). assert (Nz : loc <> 0).
  { pose proof Ef as Ef'. intros ->. clear - Ef'. unfold FindNode in Ef'. destruct (si_Top sub <? id); [discriminate|]. cbv zeta in Ef'.
    repeat match type of Ef' with
    | context [if ?b then _ else _] => destruct b
    | bind ?r _ = _ => destruct r; try discriminate Ef'; cbn [bind] in Ef'
    end; try discriminate Ef'; injection Ef' as -> _ K; cbn in K; discriminate K. }
  apply Inc in He. apply in_map_iff in He. destruct He as (r & <- & Hr). rewrite El in Eloc.
  pose proof (proj1 (Forall_forall _ _) Ok1 r Hr) as Rk.
  assert (Ir : NiSpec.in_range r id).
  { apply (contains_elem _ r id Rk). unfold OffsetForID in Eo'. destruct (contains (elem_of r) id); [reflexivity|discriminate]. }
  destruct (fetch _ r id Rk Ir) as (_ & _ & Eo2 & _). rewrite Eo2 in Eo'. injection Eo' as <-.
  apply (proj1 (lidx_spec _ _ _)) in Eloc. destruct Eloc as (_ & Eloc). destruct Pre as (q & Eq).
  assert (Hn : nth_error (spans V R) (Z.to_nat (r_offset r + (id - r_first r))) = Some loc) by (rewrite Eq, nth_error_app1; [exact Eloc|apply nth_error_Some; congruence]).
  rewrite (place_value V R 1 [] r id Ap Hr Ir : nth_error (spans V R) _ = _) in Hn. injection Hn as Hn.
  unfold V, value_of in Hn. destruct (find (fun n => in_id n =? id) ns) as [n|] eqn:Fn; [|congruence].
  apply find_some in Fn. destruct Fn as (Fi & Fe). exists n. split; [exact Fi|]. split; [lia|]. rewrite <- Hn. apply loc_of_ok.
Qed.
(** all calls fail after a while, in one case the write of the header after its version, in the other, with one read only, the close at the end *)
Lemma pC95_ex : let o := mkOS (fun k n => if (15 <=? k)%nat then (8, true) else (n, false)) (fun _ => (30, NoErr)) (fun _ => false) (fun _ => false) in
  let o' := mkOS (fun k n => (n, false)) (fun k => if (k =? 9)%nat then (30, NoErr) else (0, EOF)) (fun k => (17 <=? k)%nat) (fun _ => false) in
  Forall2 input_block ex_ni_blocks ex_ni_nodes /\ word_whole o /\ word_whole o' /\
  (exists w idx, ni_index o ex_ni_blocks = (w, Panic IOError) /\ NewNodeIndex (f_data (w_idx w)) = Ok idx /\ ni_elements idx = []) /\
  exists w, ni_index o' ex_ni_blocks = (w, Panic IOError) /\ exists idx sub, NewNodeIndex (f_data (w_idx w)) = Ok idx /\
    zlen (ni_locations idx) = 3 /\ SubIndex idx 0 1 = Ok sub /\ exists l, FindNode sub 2 0 = Ok (l, 0, true) /\ location 1 10 = Ok l.
Proof.
  intros o o'. split; [apply pC47_ex|]. split; [intros k; unfold o; cbn [os_write]; destruct (15 <=? k)%nat; cbn [fst]; lia|]. split; [intros k; unfold o'; cbn [os_write fst]; lia|]. split.
  - do 2 eexists. split; [vm_compute; reflexivity|]. split; vm_compute; reflexivity.
  - eexists. split; [vm_compute; reflexivity|]. do 2 eexists. split; [vm_compute; reflexivity|]. split; [vm_compute; reflexivity|]. split; [vm_compute; reflexivity|]. eexists. split; vm_compute; reflexivity.
Qed.

(** 257 nodes with a gap after each *)
Definition ex_gaps : list Z := map (fun i => 10 * Z.of_nat i) (seq 1 257).
Definition ex_gap_nodes : list input_node := map (fun x => mkInput x x x) ex_gaps.
(** the write of the header, the 15th call, stops after nine bytes *)
Definition ex_cut : os := mkOS (fun k n => if (k <? 14)%nat then (n, false) else (9, true)) (fun _ => (1048576, NoErr)) (fun _ => false) (fun _ => false).
Lemma ex_gap_bounds : Forall (fun x => 10 <= x <= 2570) ex_gaps.
Proof. unfold ex_gaps. apply Forall_forall. intros x Hx. apply in_map_iff in Hx. destruct Hx as (i & <- & Hi). apply in_seq in Hi. lia. Qed.
Lemma ex_gap_input : input_block (ni_block 0 ex_gaps ex_gaps ex_gaps) ex_gap_nodes.
Proof.
  set (p := match (b <- ReadBlob (blk_Data (snd (ni_block 0 ex_gaps ex_gaps ex_gaps))) Blob0 ;; raw <- GetRawData (mkZenv true [] []) b ;;
    ReadPrimitiveBlock (mkReader true false true true) raw PrimitiveBlock0) with Ok p => p | _ => PrimitiveBlock0 end).
  assert (G : map pg_Dense (pblk_PrimitiveGroup p) = [Some (mkDense ex_gaps ex_gaps ex_gaps [] [] [])]) by (vm_compute; reflexivity).
  assert (O : pblk_LatOffset p = 0 /\ pblk_LonOffset p = 0 /\ pblk_Granularity p = 100) by (split; [|split]; vm_compute; reflexivity).
  assert (N : ex_gap_nodes = block_nodes p) by (vm_compute; reflexivity). rewrite N.
  apply ex_block_input.
  - assert (X : (b <- ReadBlob (blk_Data (snd (ni_block 0 ex_gaps ex_gaps ex_gaps))) Blob0 ;; raw <- GetRawData (mkZenv true [] []) b ;;
      ReadPrimitiveBlock (mkReader true false true true) raw PrimitiveBlock0) = Ok p) by (vm_compute; reflexivity).
    clear - X. destruct (ReadBlob _ _) as [b| |]; try discriminate X. exists b. cbn [bind] in X. destruct (GetRawData _ b) as [raw| |] eqn:E; try discriminate X. exists raw. auto.
  - clearbody p. intros g d Hg Hd. assert (D : In (Some d) (map pg_Dense (pblk_PrimitiveGroup p))) by (rewrite <- Hd; apply in_map; exact Hg).
    rewrite G in D. destruct D as [D|[]]. injection D as <-. cbn [dn_Id dn_Lat dn_Lon]. split; [reflexivity|]. split; [reflexivity|]. destruct O as (-> & -> & ->).
    assert (F : Forall (coordinate_fits 0 100) ex_gaps) by (eapply Forall_impl; [|exact ex_gap_bounds]; intros x Hx; unfold coordinate_fits, coordinate, is_s64, is_s32; cbn beta in Hx; rewrite Z.add_0_l, (Z.mul_comm 100 x), Z.quot_mul by lia; lia). split; exact F.
Qed.
(** C95 is false of the code if the write of the header can be cut within its second word: the file for 257 nodes with a gap after each, when
    the last write stops after nine bytes, opens, and the location it gives for node 10 is 20. *)
Lemma pC95_torn_header_refuted : input_block (ni_block 0 ex_gaps ex_gaps ex_gaps) ex_gap_nodes /\ ascending (map in_id ex_gap_nodes) /\ 
  Forall (fun n => 2 <= in_id n < 2^63) ex_gap_nodes /\ zlen ex_gap_nodes = 257 /\
  exists w idx sub, ni_index ex_cut [ni_block 0 ex_gaps ex_gaps ex_gaps] = (w, Panic IOError) /\
    NewNodeIndex (f_data (w_idx w)) = Ok idx /\ SubIndex idx 0 1 = Ok sub /\ FindNode sub 10 0 = Ok (20, 0, true) /\
    forall n l, In n ex_gap_nodes -> in_id n = 10 -> location (in_lon n) (in_lat n) = Ok l -> l <> 20.
Proof.
  split; [exact ex_gap_input|]. split; [vm_compute; repeat split|].
  split. { unfold ex_gap_nodes. apply Forall_forall. intros n Hn. apply in_map_iff in Hn. destruct Hn as (x & <- & Hx). pose proof (proj1 (Forall_forall _ _) ex_gap_bounds x Hx). cbn beta in H. cbn [in_id]. lia. }
  split; [vm_compute; reflexivity|]. do 3 eexists. split; [vm_compute; reflexivity|]. split; [vm_compute; reflexivity|]. split; [vm_compute; reflexivity|]. split; [vm_compute; reflexivity|].
  intros n l _ _ E. pose proof (loc_of_ok n) as (E2 & B). rewrite E in E2. injection E2 as ->. lia.
Qed.
