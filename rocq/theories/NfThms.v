(** * NfThms: inputs that start with node 0 or 1 (C47, exactly). *)
From Verif Require Import Base PbSpec PbModel TModel HLModel FrModel ZlModel MtModel IoModel IoSpec NiModel NiSpec NiThms.
From Verif Require Import BaseLemmas IoThms MtThms NiProofs NiProofs2 NiProofs3 NiProofs4.
From Verif Require HLProofs.
From Verif Require Import NiSpec.

Definition prefixed (pre : list Z) (s : ni_state) : ni_state := let '(f, l, bl, out) := s in (f, l, bl, pre ++ out).
Lemma nstep_prefixed pre s n : nstep (prefixed pre s) n = prefixed pre (nstep s n).
Proof.
  destruct s as [[[f l] bl] out]. unfold prefixed, nstep.
  destruct (u64 (in_id n) =? u64 (l + 1)); [|destruct (u64 (in_id n) =? u64 (l + 2))]; cbn match; rewrite <- ?app_assoc; reflexivity.
Qed.
Lemma nsteps_prefixed pre ns : forall s, fold_left nstep ns (prefixed pre s) = prefixed pre (fold_left nstep ns s).
Proof. induction ns as [|n ns IH]; intros s; [reflexivity|]. cbn [fold_left]. rewrite nstep_prefixed. apply IH. Qed.

(** the outcome of a block in which the first nodes may be lost *)
Definition weak (V : Z -> Z) (lo hi : Z) (ns : list input_node) (b : elementBatch) : Prop :=
  let '(R, out) := b in
  asc_pairs lo R /\ end_of lo R <= hi /\ zlen (spans V R) <= zlen out /\ zlen out <= 2 * zlen ns /\ Forall (fun p => snd p < 2^63) R /\ Forall is_s64 out.
Lemma loc_s64 n : is_s64 (loc_of n).
Proof. pose proof (loc_of_ok n). unfold is_s64. lia. Qed.
Lemma end_of_mono R : forall lo lo', lo <= lo' -> asc_pairs lo' R -> asc_pairs lo R /\ end_of lo R <= end_of lo' R.
Proof. destruct R as [|[f l] R]; intros lo lo' H A; cbn [asc_pairs end_of] in *; [auto|]. split; [|lia]. destruct A as (? & ? & ?). repeat split; [lia|assumption|assumption]. Qed.
(** a state in which no range has been begun *)
Lemma weak_run V : forall ns l out k, 0 <= l < 2^63 -> vals V l ns -> Forall (fun n => in_id n < 2^63) ns -> (forall id, is_s64 (V id)) -> zlen out <= 2 * k -> Forall is_s64 out ->
  let '(R, out') := nfinish (fold_left nstep ns (notAssigned, l, [], out)) in
  asc_pairs l R /\ end_of l R <= last_id l ns /\ zlen (spans V R) <= zlen out' /\ zlen out' <= 2 * (k + zlen ns) /\ Forall (fun p => snd p < 2^63) R /\ Forall is_s64 out'.
Proof.
  induction ns as [|n ns IH]; intros l out k Hl Hv Hb HV Ho Hs.
  - cbn [fold_left nfinish]. change (negb (notAssigned =? notAssigned)) with false. cbn match.
    split; [exact Logic.I|]. split; [apply Z.le_refl|]. split; [apply zlen_nonneg|]. split; [change (zlen (@nil input_node)) with 0; lia|]. split; [constructor|exact Hs].
  - pose proof Hv as (P & Gap & Val & Hv'). pose proof (Forall_inv Hb) as Bn. cbn beta in Bn.
    assert (ZL : zlen (n :: ns) = zlen ns + 1) by (unfold zlen; cbn [List.length]; lia).
    cbn [fold_left]. destruct (Z.eq_dec (in_id n) (l + 1)) as [E1|N1]; [|destruct (Z.eq_dec (in_id n) (l + 2)) as [E2|N2]].
    + replace (nstep (notAssigned, l, [], out) n) with (notAssigned, in_id n, @nil (Z * Z), out ++ [loc_of n]).
      2:{ unfold nstep. rewrite (u64_id (in_id n)), (u64_id (l + 1)) by (unfold is_u64; lia). rewrite E1, Z.eqb_refl. reflexivity. }
      specialize (IH (in_id n) (out ++ [loc_of n]) (k + 1) ltac:(lia) Hv' (Forall_inv_tail Hb) HV).
      assert (Hz : zlen (out ++ [loc_of n]) <= 2 * (k + 1)) by (rewrite zlen_app; change (zlen [loc_of n]) with 1; lia).
      assert (Hs' : Forall is_s64 (out ++ [loc_of n])) by (apply Forall_app; split; [exact Hs|constructor; [apply loc_s64|constructor]]).
      specialize (IH Hz Hs'). destruct (nfinish _) as [R out']. destruct IH as (A & B & C & D & E & F).
      destruct (end_of_mono R l (in_id n) ltac:(lia) A) as (A' & B'). split; [exact A'|]. split; [change (last_id l (n :: ns)) with (last_id (in_id n) ns); lia|].
      split; [exact C|]. split; [lia|]. split; assumption.
    + replace (nstep (notAssigned, l, [], out) n) with (notAssigned, in_id n, @nil (Z * Z), (out ++ [0]) ++ [loc_of n]).
      2:{ unfold nstep. rewrite (u64_id (in_id n)), (u64_id (l + 1)), (u64_id (l + 2)) by (unfold is_u64; lia). rewrite E2, Z.eqb_refl.
          replace (l + 2 =? l + 1) with false by lia. reflexivity. }
      specialize (IH (in_id n) ((out ++ [0]) ++ [loc_of n]) (k + 1) ltac:(lia) Hv' (Forall_inv_tail Hb) HV).
      assert (Hz : zlen ((out ++ [0]) ++ [loc_of n]) <= 2 * (k + 1)) by (rewrite !zlen_app; change (zlen [loc_of n]) with 1; change (zlen [0]) with 1; lia).
      assert (Hs' : Forall is_s64 ((out ++ [0]) ++ [loc_of n])) by (apply Forall_app; split; [apply Forall_app; split; [exact Hs|constructor; [unfold is_s64; lia|constructor]]|constructor; [apply loc_s64|constructor]]).
      specialize (IH Hz Hs'). destruct (nfinish _) as [R out']. destruct IH as (A & B & C & D & E & F).
      destruct (end_of_mono R l (in_id n) ltac:(lia) A) as (A' & B'). split; [exact A'|]. split; [change (last_id l (n :: ns)) with (last_id (in_id n) ns); lia|].
      split; [exact C|]. split; [lia|]. split; assumption.
    + assert (G2 : 2 <= in_id n) by lia.
      replace (nstep (notAssigned, l, [], out) n) with (prefixed out (nstep (notAssigned, notAssigned, [], []) n)).
      2:{ unfold nstep, prefixed. rewrite (u64_id (in_id n)), (u64_id (l + 1)), (u64_id (l + 2)) by (unfold is_u64; lia).
          change (u64 (notAssigned + 1)) with 0. change (u64 (notAssigned + 2)) with 1.
          replace (in_id n =? 0) with false by lia. replace (in_id n =? 1) with false by lia. replace (in_id n =? l + 1) with false by lia. replace (in_id n =? l + 2) with false by lia.
          change (negb (notAssigned =? notAssigned)) with false. cbn match. reflexivity. }
      rewrite nsteps_prefixed.
      assert (Vm : vals V (Z.max 1 l) (n :: ns)).
      { cbn [vals]. split; [lia|]. split; [intros j Hj; apply Gap; lia|]. split; [exact Val|exact Hv']. }
      pose proof (batch_spec V (Z.max 1 l) (n :: ns) ltac:(lia) Vm Hb) as BS. cbn [fold_left] in BS.
      destruct (fold_left nstep ns _) as [[[f l'] bl] o']. cbn [prefixed nfinish] in *.
      destruct BS as (A & B & C & _ & D & _ & E). destruct (end_of_mono _ l (Z.max 1 l) ltac:(lia) A) as (A' & B').
      split; [exact A'|]. split; [rewrite B in B'; exact B'|]. split; [rewrite C, zlen_app; pose proof (zlen_nonneg out); lia|]. split; [rewrite zlen_app; lia|].
      split; [exact E|]. apply Forall_app. split; [exact Hs|]. rewrite C. apply Forall_forall. intros x Hx. unfold spans in Hx. apply in_flat_map in Hx.
      destruct Hx as (p & _ & Hx). apply in_map_iff in Hx. destruct Hx as (y & <- & _). apply HV.
Qed.
Lemma weak_batch V ns lo : vals V lo ns -> -1 <= lo -> Forall (fun n => in_id n < 2^63) ns -> (forall id, is_s64 (V id)) ->
  let b := nfinish (fold_left nstep ns (notAssigned, notAssigned, [], [])) in
  weak V lo (last_id lo ns) ns b /\ (forall n r, ns = n :: r -> in_id n <= 1 -> weak V (in_id n) (last_id lo ns) ns b).
Proof.
  intros Hv Hlo Hb HV b. destruct ns as [|n ns].
  { split; [|intros n r E; discriminate E]. unfold b. cbn [fold_left nfinish]. change (negb (notAssigned =? notAssigned)) with false. cbn match.
    split; [exact Logic.I|]. split; [apply Z.le_refl|]. split; [apply zlen_nonneg|]. split; [apply Z.le_refl|]. split; constructor. }
  pose proof Hv as (P & Gap & Val & Hv'). pose proof (Forall_inv Hb) as Bn. cbn beta in Bn.
  assert (ZL : zlen (n :: ns) = zlen ns + 1) by (unfold zlen; cbn [List.length]; lia).
  destruct (Z.le_gt_cases (in_id n) 1) as [S1|G1].
  - assert (W : weak V (in_id n) (last_id lo (n :: ns)) (n :: ns) b).
    { assert (X : exists out, nstep (notAssigned, notAssigned, [], []) n = (notAssigned, in_id n, [], out) /\ zlen out <= 2 * 1 /\ Forall is_s64 out).
      { unfold nstep. rewrite (u64_id (in_id n)) by (unfold is_u64; lia). change (u64 (notAssigned + 1)) with 0. change (u64 (notAssigned + 2)) with 1.
        assert (in_id n = 0 \/ in_id n = 1) as [->| ->] by lia.
        - change (0 =? 0) with true. cbn match. eexists. split; [reflexivity|]. split; [vm_compute; discriminate|]. constructor; [apply loc_s64|constructor].
        - change (1 =? 0) with false. change (1 =? 1) with true. cbn match. eexists. split; [reflexivity|]. split; [vm_compute; discriminate|].
          constructor; [unfold is_s64; lia|constructor; [apply loc_s64|constructor]]. }
      destruct X as (out & X & Z2 & Hs). unfold b. cbn [fold_left]. rewrite X.
      pose proof (weak_run V ns (in_id n) out 1 ltac:(lia) Hv' (Forall_inv_tail Hb) HV Z2 Hs) as W.
      unfold weak. destruct (nfinish (fold_left nstep ns (notAssigned, in_id n, [], out))) as [R out']. destruct W as (W1 & W2 & W3 & W4 & W5 & W6).
      split; [exact W1|]. split; [exact W2|]. split; [exact W3|]. split; [lia|]. split; assumption. }
    split; [|intros m r E _; injection E as <- _; exact W].
    unfold weak in *. destruct b as [R out]. destruct W as (W1 & W2 & W). destruct (end_of_mono R lo (in_id n) ltac:(lia) W1) as (A' & B').
    split; [exact A'|]. split; [lia|exact W].
  - split; [|intros m r E; injection E as <- _; lia].
    assert (Vm : vals V (Z.max 1 lo) (n :: ns)).
    { cbn [vals]. split; [lia|]. split; [intros j Hj; apply Gap; lia|]. split; [exact Val|exact Hv']. }
    pose proof (batch_spec V (Z.max 1 lo) (n :: ns) ltac:(lia) Vm Hb) as BS. unfold weak. fold b in BS. destruct b as [R out].
    destruct BS as (A & B & C & _ & D & _ & E). destruct (end_of_mono _ lo (Z.max 1 lo) ltac:(lia) A) as (A' & B').
    split; [exact A'|]. split; [rewrite B in B'; exact B'|]. split; [rewrite C; apply Z.le_refl|]. split; [exact D|]. split; [exact E|].
    rewrite C. apply Forall_forall. intros x Hx. unfold spans in Hx. apply in_flat_map in Hx. destruct Hx as (p & _ & Hx). apply in_map_iff in Hx.
    destruct Hx as (y & <- & _). apply HV.
Qed.
(** the message of any block *)
Lemma msg_any b ns : input_block b ns ->
  exists m, ni_worker (fst b) (snd b) = Ok m /\ well_typed [m] /\
   let '(R, out) := nfinish (fold_left nstep ns (notAssigned, notAssigned, [], [])) in
   all_ranges [m] = R /\ (all_locs [m] = out \/ all_locs [m] = [] /\ R = []).
Proof.
  intros H. unfold ni_worker, tOSMData. destruct H as [(N & N' & ->)|(T & bl & raw & p & E1 & E2 & E3 & S & ->)].
  - destruct (HLProofs.seqb_spec (blk_Type (snd b)) (bytes_of "OSMData")) as [E|_]; [contradiction|]. cbn [negb]. eexists. split; [reflexivity|].
    split; [intros m [<-|[]]; cbn [nm_Type]; contradiction|]. cbn [fold_left nfinish]. change (negb (notAssigned =? notAssigned)) with false. cbn match.
    unfold all_ranges, all_locs, batches. cbn [flat_map nm_Type].
    destruct (HLProofs.seqb_spec (blk_Type (snd b)) (bytes_of "IndexData")) as [E|_]; [contradiction|]. cbn [app map concat]. auto.
  - rewrite T, HLProofs.seqb_refl. cbn [negb]. rewrite E1. cbn [bind]. rewrite E2. cbn [bind]. unfold ni_reader. rewrite E3. cbn [bind].
    rewrite (ni_batch_steps p S). cbn [bind]. eexists. split; [reflexivity|].
    split; [intros m [<-|[]] _; cbn [nm_Batch]; discriminate|].
    destruct (nfinish (fold_left nstep (block_nodes p) (notAssigned, notAssigned, [], []))) as [R out].
    unfold all_ranges, all_locs, batches. cbn [flat_map nm_Type nm_Batch fst]. destruct R as [|r R].
    + change (zlen (@nil (Z * Z)) =? 0) with true. cbn match. replace (HLModel.seqb tFiller (bytes_of "IndexData")) with false by reflexivity. cbn [app map concat]. auto.
    + replace (zlen (r :: R) =? 0) with false by (unfold zlen; cbn [List.length]; lia).
      replace (HLModel.seqb tIndexData (bytes_of "IndexData")) with true by reflexivity. cbn [app map concat fst snd]. rewrite !app_nil_r. auto.
Qed.
Lemma msgs_weak V bs nss : (forall id, is_s64 (V id)) -> Forall2 input_block bs nss -> forall lo, -1 <= lo -> vals V lo (concat nss) ->
  Forall (fun n => in_id n < 2^63) (concat nss) -> Forall (fun ns => zlen ns < 2^23) nss ->
  exists msgs, mapm (fun b => ni_worker (fst b) (snd b)) bs = Ok msgs /\ well_typed msgs /\
    asc_pairs lo (all_ranges msgs) /\ end_of lo (all_ranges msgs) <= last_id lo (concat nss) /\
    (forall n r, concat nss = n :: r -> in_id n <= 1 -> asc_pairs (in_id n) (all_ranges msgs)) /\
    zlen (spans V (all_ranges msgs)) <= 2 * zlen (concat nss) /\ Forall is_s64 (all_locs msgs) /\
    Forall (fun p => snd p < 2^63 /\ snd p - fst p + 1 < 2^24) (all_ranges msgs).
Proof.
  intros HV F. induction F as [|b ns bs nss Hb F IH]; intros lo Hlo Hv Hid Hsz.
  - exists []. cbn [mapm concat]. split; [reflexivity|]. split; [intros m []|]. split; [exact Logic.I|]. split; [apply Z.le_refl|].
    split; [intros n r E; discriminate E|]. split; [apply Z.le_refl|]. split; constructor.
  - cbn [concat] in *. apply vals_app in Hv. destruct Hv as (V1 & V2). apply Forall_app in Hid. destruct Hid as (I1 & I2).
    destruct (msg_any b ns Hb) as (m & Em & Wm & Bm).
    pose proof (vals_last V ns lo V1) as VL.
    destruct (IH (last_id lo ns) ltac:(lia) V2 I2 (Forall_inv_tail Hsz)) as (msgs & E & W & A & En & Fst & L & Ls & B).
    pose proof (weak_batch V ns lo V1 Hlo I1 HV) as WB. cbv zeta in WB. destruct (nfinish _) as [R out]. destruct Bm as (ER & EL). destruct WB as (WB1 & WB2).
    exists (m :: msgs). cbn [mapm]. rewrite Em. cbn [bind]. rewrite E. cbn [bind]. split; [reflexivity|].
    split; [intros x [<-|Hx]; [apply Wm; left; reflexivity|apply W; exact Hx]|].
    rewrite all_ranges_cons, all_locs_cons, ER. rewrite last_id_app.
    destruct WB1 as (X1 & X2 & X3 & X4 & X5 & X6).
    assert (Q : forall a, asc_pairs a R -> end_of a R <= last_id lo ns -> asc_pairs a (R ++ all_ranges msgs) /\ end_of a (R ++ all_ranges msgs) <= last_id (last_id lo ns) (concat nss)).
    { intros a Ha He. rewrite end_of_app. destruct (end_of_mono (all_ranges msgs) (end_of a R) (last_id lo ns) He A) as (Q1 & Q2).
      split; [apply asc_pairs_app; auto|lia]. }
    destruct (Q lo X1 X2) as (Q1 & Q2). split; [exact Q1|]. split; [exact Q2|]. split.
    { intros n r Enr Hn. destruct ns as [|n' ns'].
      - cbn [app] in Enr. change (last_id lo []) with lo in *. destruct R as [|p R']; [cbn [app]; apply (Fst n r); assumption|].
        exfalso. destruct p as [pf pl]. cbn [asc_pairs end_of] in *. destruct X1 as (Y1 & Y2 & Y3).
        assert (G : forall bl b, asc_pairs b bl -> b <= end_of b bl).
        { clear. induction bl as [|[x y] bl IH]; intros b H; cbn [asc_pairs end_of] in *; [lia|]. destruct H as (? & ? & H). specialize (IH y H). lia. }
        pose proof (G R' pl Y3). lia.
      - cbn [app] in Enr. injection Enr as -> Er. destruct (WB2 n ns' eq_refl Hn) as (Z1 & Z2 & _). destruct (Q (in_id n) Z1 Z2) as (Q3 & _). exact Q3. }
    split; [rewrite spans_app, !zlen_app; lia|]. split.
    { apply Forall_app. split; [|exact Ls]. destruct EL as [->|(-> & _)]; [exact X6|constructor]. }
    apply Forall_app. split; [|exact B]. apply Forall_forall. intros p Hp.
    split; [exact (proj1 (Forall_forall _ _) X5 p Hp)|]. pose proof (spans_range_len V R p Hp) as H1.
    pose proof (Forall_inv Hsz) as H2. cbn beta in H2. lia.
Qed.

(** C47, exactly: the index made of any input with ascending node ids (fewer than 2^23 nodes in a
    block and 2^39 in all) opens, and finds every node at its own location whatever the hint, if
    and only if the input has no node 0 and no node 1. *)
Lemma pC47_exact : forall o inBlocks nss, all_well o -> Forall2 input_block inBlocks nss ->
  let ns := concat nss in
  ascending (map in_id ns) -> Forall (fun n => 0 <= in_id n < 2^63) ns ->
  Forall (fun b => zlen b < 2^23) nss -> 0 < zlen ns < 2^39 ->
  ((exists w idx sub, ni_index o inBlocks = (w, Ok tt) /\ NewNodeIndex (f_data (w_idx w)) = Ok idx /\ SubIndex idx 0 1 = Ok sub /\
     forall n hint, In n ns -> 0 <= hint -> exists loc h, location (in_lon n) (in_lat n) = Ok loc /\ FindNode sub (in_id n) hint = Ok (loc, h, true)) <->
   ~ In 0 (map in_id ns) /\ ~ In 1 (map in_id ns)).
Proof.
  intros o bs nss W F ns A I S T. split.
  - intros (w & idx & sub & Er & Eo & Es & Fi). destruct W as (W1 & W2 & W3 & W4). set (V := value_of ns).
    assert (Vr : forall id, is_s64 (V id)).
    { intros id. unfold V, value_of. destruct (find _ ns) as [n|]; [apply loc_s64|unfold is_s64; lia]. }
    assert (Vv : vals V (-1) ns).
    { apply vals_intro; [exact A| |apply value_in; exact A|intros j _; apply value_out].
      intros n Hn. pose proof (proj1 (Forall_forall _ _) I n Hn). cbn beta in H. lia. }
    assert (Ib : Forall (fun n => in_id n < 2^63) ns) by (apply Forall_forall; intros n Hn; pose proof (proj1 (Forall_forall _ _) I n Hn); cbn beta in H; lia).
    destruct (msgs_weak V bs nss Vr F (-1) ltac:(lia) Vv Ib S) as (msgs & Em & Wt & Ap & _ & Fst & Zl & Ls & Bd). fold ns in Fst, Zl.
    destruct ns as [|n ns'] eqn:Ens; [unfold zlen in T; cbn [List.length] in T; lia|].
    destruct (Z.le_gt_cases (in_id n) 1) as [Low|High].
    + exfalso. specialize (Fst n ns' eq_refl Low). set (R := all_ranges msgs) in *.
      pose proof (Forall_inv I) as In_. cbn beta in In_.
      assert (St : storable 0 R) by (apply (asc_storable V R 0 (in_id n)); [lia|assumption|assumption|lia]).
      destruct (output_ok o msgs W1 W2 W3 Wt St Ls) as (w' & locs' & Er' & En & _).
      unfold ni_index in Er. rewrite Em, Er' in Er. injection Er as <-. fold R in En. rewrite En in Eo. injection Eo as <-.
      assert (Ok1 : Forall (range_ok (spans V R)) (place 0 R)) by (apply (place_ok V R 0 (in_id n)); [lia|lia|assumption|assumption|lia|lia]).
      destruct (sub_means _ _ _ _ _ _ Ok1 Es) as (_ & Inc).
      destruct (Fi n 0 (or_introl eq_refl) ltac:(lia)) as (loc & h & _ & Ef).
      destruct (found_means _ _ _ _ _ Ef) as (e & off & He & Eo' & _). apply Inc in He. apply in_map_iff in He. destruct He as (r & <- & Hr).
      pose proof (proj1 (Forall_forall _ _) Ok1 r Hr) as Rk.
      assert (Ir : in_range r (in_id n)).
      { apply (contains_elem _ r (in_id n) Rk). unfold OffsetForID in Eo'. destruct (contains (elem_of r) (in_id n)); [reflexivity|discriminate]. }
      pose proof (place_first R 0 (in_id n) Fst r Hr). unfold in_range in Ir. lia.
    + assert (G : forall m, In m (n :: ns') -> 1 < in_id m).
      { intros m [<-|Hm]; [lia|]. cbn [map] in A. pose proof (ascending_head _ _ A (in_id m) (in_map in_id _ _ Hm)). lia. }
      split; intros H; apply in_map_iff in H; destruct H as (m & Em' & Hm); pose proof (G m Hm); lia.
  - intros (N0 & N1). destruct (pC47_every_node_partial o bs nss W F A) as (w & idx & sub & Er & Eo & Es & Fi & _); [|exact S|exact T|exists w, idx, sub; auto].
    apply Forall_forall. intros n Hn. pose proof (proj1 (Forall_forall _ _) I n Hn) as H. cbn beta in H. fold ns in Hn.
    assert (in_id n <> 0) by (intros E; apply N0; rewrite <- E; apply in_map; exact Hn).
    assert (in_id n <> 1) by (intros E; apply N1; rewrite <- E; apply in_map; exact Hn). lia.
Qed.
(** Both sides: [ex_ni_blocks] has no node 0 or 1; a block with the nodes 1 and 5 has. *)
Lemma pC47_exact_ex : let nodes := [[mkInput 1 30 10; mkInput 5 40 20]] in
  ~ In 1 (map in_id (concat ex_ni_nodes)) /\ all_well os_well /\ Forall2 input_block [ni_block 0 [1; 5] [10; 20] [30; 40]] nodes /\ ascending (map in_id (concat nodes)) /\
  Forall (fun n => 0 <= in_id n < 2^63) (concat nodes) /\ Forall (fun b => zlen b < 2^23) nodes /\ 0 < zlen (concat nodes) < 2^39 /\ In 1 (map in_id (concat nodes)).
Proof.
  cbv zeta. split; [intros H; repeat (destruct H as [H|H]; [discriminate H|]); destruct H|]. split; [exact os_well_ok|]. split.
  { destruct pC47_first_ids_refuted as (? & ? & ? & ? & ? & H & _). exact H. }
  split; [split; [reflexivity|split; exact Logic.I]|]. split; [repeat (apply Forall_cons; [cbn; lia|]); apply Forall_nil|].
  split; [repeat (apply Forall_cons; [vm_compute; reflexivity|]); apply Forall_nil|]. split; [split; vm_compute; reflexivity|]. left. reflexivity.
Qed.
