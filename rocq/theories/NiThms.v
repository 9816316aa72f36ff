(** * NiThms: the node index, C44-C51. *)
From Verif Require Import Base PbSpec TModel HLModel FrModel ZlModel MtModel IoModel IoSpec NiModel NiSpec.
From Verif Require Import BaseLemmas IoThms MtThms NiProofs NiProofs2 NiProofs3 NiProofs4.
From Verif Require HLProofs.
From Verif Require Import NiSpec.

(** ** C44 *)

(** C44.  A count below 2^24 and an offset: packed and read back exactly, or refused (exactly
    when the offset needs more than 40 bits).  A count above 2^24 is refused. *)
Lemma pC44_roundtrip_partial : forall count offset, is_u64 count -> is_u64 offset -> count <> 2^24 ->
  (count < 2^24 /\ offset < 2^40 /\ exists w, NewCountOffset count offset = Ok w /\ is_u64 w /\ co_Count w = count /\ co_Offset w = offset) \/
  ((2^24 < count \/ 2^40 <= offset) /\ exists m, NewCountOffset count offset = Panic (PanicMsg m)).
Proof.
  intros count off Hc Ho N. unfold is_u64 in *.
  destruct (Z.lt_ge_cases off (2^40)) as [Lo|Go].
  - destruct (Z.lt_ge_cases count (2^24)) as [Lc|Gc].
    + left. split; [exact Lc|]. split; [exact Lo|]. exists (off * 2^24 + count). split; [apply NewCountOffset_ok; lia|].
      split; [lia|]. split; [apply pack_count; lia|apply pack_offset; lia].
    + right. split; [left; lia|]. unfold NewCountOffset, OffsetMax, CountMax.
      replace (2^40 <=? off) with false by lia. replace (2^24 <? count) with true by lia. eexists. reflexivity.
  - right. split; [right; exact Go|]. unfold NewCountOffset, OffsetMax. replace (2^40 <=? off) with true by lia. eexists. reflexivity.
Qed.
Lemma pC44_ex : exists w, NewCountOffset (2^24 - 1) (2^40 - 1) = Ok w /\ co_Count w = 2^24 - 1 /\ co_Offset w = 2^40 - 1.
Proof. eexists. split; [vm_compute; reflexivity|]. split; vm_compute; reflexivity. Qed.
(** C44 is false of the code at one count: 2^24 is accepted, and what is read back is the
    count 0 and an odd offset. *)
Lemma pC44_boundary_refuted : forall offset, 0 <= offset < 2^40 -> exists w, NewCountOffset (2^24) offset = Ok w /\
  co_Count w = 0 /\ co_Offset w = Z.lor offset 1.
Proof.
  intros off H. unfold NewCountOffset, OffsetMax, CountMax. replace (2^40 <=? off) with false by lia. change (2^24 <? 2^24) with false. cbn match.
  eexists. split; [reflexivity|]. rewrite u64_id by (unfold is_u64, CountBits; rewrite Z.shiftl_mul_pow2 by lia; lia).
  assert (E : Z.lor (Z.shiftl off CountBits) (2^24) = Z.lor off 1 * 2^24).
  { change (2^24) with (Z.shiftl 1 24) at 1. unfold CountBits. rewrite <- Z.shiftl_lor. apply Z.shiftl_mul_pow2. lia. }
  rewrite E. replace (Z.lor off 1 * 2^24) with (Z.lor off 1 * 2^24 + 0) by lia. split; [apply pack_count; lia|apply pack_offset; lia].
Qed.

(** ** C45 *)
Lemma linear_search_spec locs id rs : forall i,
  (exists k r, nth_error rs k = Some r /\ in_range r id /\ linear_search rs locs id i = Some (nth (Z.to_nat (r_offset r + (id - r_first r))) locs 0, i + Z.of_nat k)) \/
  ((forall r, In r rs -> ~ in_range r id) /\ linear_search rs locs id i = None).
Proof.
  induction rs as [|r rs IH]; intros i.
  - right. split; [intros ? []|reflexivity].
  - cbn [linear_search]. destruct ((r_first r <=? id) && (id <? r_first r + r_count r)) eqn:E.
    + left. exists 0%nat, r. split; [reflexivity|]. split; [unfold in_range; lia|]. do 2 f_equal. lia.
    + destruct (IH (i + 1)) as [(k & r' & E1 & I & E2)|(N & E2)].
      * left. exists (S k), r'. split; [exact E1|]. split; [exact I|]. rewrite E2. do 2 f_equal. lia.
      * right. split; [|exact E2]. intros r' [<-|H]; [unfold in_range; lia|apply N; exact H].
Qed.
(** C45.  On ascending, disjoint ranges a lookup gives what linear search gives, for every id
    and every hint: location 0 counts as not found, a hit returns the number of the range as
    the next hint, a miss returns the hint given. *)
Lemma pC45_lookup : forall rs locs top id hint,
  Forall (range_ok locs) rs -> ascending_ranges rs -> top_of rs top -> 0 <= hint ->
  FindNode (sub_index_of rs locs top) id hint =
    Ok (match linear_search rs locs id 0 with
        | Some (loc, i) => (loc, i, negb (loc =? 0))
        | None => (0, hint, false)
        end).
Proof.
  intros rs locs top id hint Hok Hasc Ht Hh. destruct (FindNode_spec rs locs id Hok Hasc top hint Ht Hh) as (F & N).
  destruct (linear_search_spec locs id rs 0) as [(k & r & E & I & ->)|(No & ->)].
  - destruct (F k r E I) as (loc & En & ->). rewrite (nth_error_nth _ _ 0 En). reflexivity.
  - apply N. exact No.
Qed.
Lemma ascending_cons a rs : (forall b, In b rs -> r_first a + r_count a <= r_first b) -> ascending_ranges rs -> ascending_ranges (a :: rs).
Proof.
  intros H A i j x y L Ex Ey. destruct j as [|j]; [lia|]. cbn [nth_error] in Ey. destruct i as [|i].
  - cbn [nth_error] in Ex. injection Ex as <-. apply H. exact (nth_error_In _ _ Ey).
  - cbn [nth_error] in Ex. apply (A i j); [lia|assumption..].
Qed.
Lemma ascending_nil : ascending_ranges [].
Proof. intros i j a b _ E. destruct i; discriminate. Qed.
Definition ex_ranges := [mkRange 10 3 0; mkRange 20 2 3; mkRange 22 1 5].
Definition ex_locations := [-5; 0; -7; -8; -9; -10].
Lemma ex_index_ok : index_ok ex_ranges ex_locations.
Proof.
  split; [unfold ex_ranges; repeat (apply Forall_cons; [unfold range_ok, zlen; cbn; lia|]); apply Forall_nil|]. split.
  - unfold ex_ranges. repeat (apply ascending_cons; [cbn [In]; intros b B; repeat destruct B as [<-|B]; cbn; try lia; destruct B|]). apply ascending_nil.
  - split; [reflexivity|]. vm_compute. reflexivity.
Qed.
Lemma pC45_ex : Forall (range_ok ex_locations) ex_ranges /\ ascending_ranges ex_ranges /\ top_of ex_ranges 22 /\
  FindNode (sub_index_of ex_ranges ex_locations 22) 12 1 = Ok (-7, 0, true) /\
  FindNode (sub_index_of ex_ranges ex_locations 22) 11 5 = Ok (0, 0, false) /\
  FindNode (sub_index_of ex_ranges ex_locations 22) 22 0 = Ok (-10, 2, true) /\
  FindNode (sub_index_of ex_ranges ex_locations 22) 15 2 = Ok (0, 2, false).
Proof.
  destruct ex_index_ok as (A & B & _). split; [exact A|]. split; [exact B|]. split.
  - intros r H. unfold ex_ranges in H. cbn [In] in H. repeat destruct H as [<-|H]; cbn; try lia; destruct H.
  - repeat (split; [vm_compute; reflexivity|]). vm_compute. reflexivity.
Qed.

(** ** C46 *)

(** C46.  The file written from any messages opens as the index with the ranges of all
    batches, in order, their locations one after the other, and these locations. *)
Lemma pC46_roundtrip : forall o msgs, all_well o -> well_typed msgs ->
  storable 0 (all_ranges msgs) -> Forall is_s64 (all_locs msgs) ->
  exists w, ni_output o msgs w0 = (w, Ok tt) /\
    NewNodeIndex (f_data (w_idx w)) = Ok (index_of (place 0 (all_ranges msgs)) (all_locs msgs)).
Proof.
  intros o msgs (A & B & C & D) W S L. destruct (output_ok o msgs A B C W S L) as (w & locs' & E & N & _ & P).
  exists w. split; [exact E|]. rewrite <- (P D). exact N.
Qed.
(** The ranges of such an index are those that were stored: reading its elements back gives
    first id, count and offset of every range. *)
Lemma pC46_elements : forall rs locs, Forall (range_ok locs) rs ->
  map (fun p => (fst p, co_Count (snd p), co_Offset (snd p)))
      (ByteSliceAsPairSlice (SliceAsByteSlice (ni_elements (index_of rs locs)))) =
  map (fun r => (r_first r, r_count r, r_offset r)) rs.
Proof.
  intros rs locs H. pose proof (elements_back locs rs H) as E.
  assert (M : forall l, map (fun p : Z * Z => (fst p, co_Count (snd p), co_Offset (snd p))) l =
                        map (fun e => (baseId e, co_Count (countOffset e), co_Offset (countOffset e))) (map (fun p => mkElem (fst p) (snd p)) l)).
  { intros l. rewrite map_map. reflexivity. }
  rewrite M, E, map_map. apply map_ext_in. intros r Hr. pose proof (proj1 (Forall_forall _ _) H r Hr) as (_ & R & _).
  cbn [elem_of baseId countOffset]. rewrite pack_count, pack_offset by lia. reflexivity.
Qed.
Definition os_well : os := mkOS (fun _ n => (n, false)) (fun _ => (5, NoErr)) (fun _ => false) (fun _ => false).
Lemma os_well_ok : all_well os_well.
Proof.
  split; [intros k n; reflexivity|]. split; [intros k; split; [cbn; lia|discriminate]|]. split; intros k; reflexivity.
Qed.
Definition ex_msgs := [mkNiMsg 0 (bytes_of "OSMHeader") None; mkNiMsg 1 tIndexData (Some ([(10, 12); (20, 21)], [-5; 0; -7; -8; -9]));
  mkNiMsg 2 (bytes_of "Filler") None; mkNiMsg 3 tIndexData (Some ([(22, 22)], [-10]))].
Lemma pC46_ex : all_well os_well /\ well_typed ex_msgs /\ storable 0 (all_ranges ex_msgs) /\ Forall is_s64 (all_locs ex_msgs) /\
  exists w, ni_output os_well ex_msgs w0 = (w, Ok tt) /\ zlen (f_data (w_idx w)) = 112 /\
    NewNodeIndex (f_data (w_idx w)) = Ok (index_of ex_ranges ex_locations).
Proof.
  split; [exact os_well_ok|]. split; [intros m H; unfold ex_msgs in H; cbn [In] in H; repeat destruct H as [<-|H]; try discriminate; destruct H|].
  split; [vm_compute; repeat split; congruence|]. split; [change (all_locs ex_msgs) with ex_locations; repeat constructor; unfold is_s64; lia|].
  eexists. split; [vm_compute; reflexivity|]. split; vm_compute; reflexivity.
Qed.

(** ** C47 *)
Lemma ascending_head a l : ascending (a :: l) -> forall b, In b l -> a < b.
Proof.
  revert a. induction l as [|c l IH]; intros a (H & T) b Hb; [destruct Hb|]. destruct Hb as [<-|Hb]; [exact H|].
  pose proof (IH c T b Hb). lia.
Qed.
Lemma vals_intro V : forall ns prev, ascending (map in_id ns) -> (forall n, In n ns -> prev < in_id n) ->
  (forall n, In n ns -> V (in_id n) = loc_of n) -> (forall j, prev < j -> ~ In j (map in_id ns) -> V j = 0) -> vals V prev ns.
Proof.
  induction ns as [|n ns IH]; intros prev A P H0 H1; [exact I|]. cbn [vals map] in *. pose proof (ascending_head _ _ A) as Hd.
  split; [apply P; left; reflexivity|]. split.
  { intros j Hj. apply H1; [lia|]. intros [E|Hin]; [lia|]. pose proof (Hd j Hin). lia. }
  split; [apply H0; left; reflexivity|]. apply IH.
  - exact (proj2 A).
  - intros m Hm. apply Hd. apply in_map. exact Hm.
  - intros m Hm. apply H0. right. exact Hm.
  - intros j Hj Hn. apply H1; [pose proof (P n (or_introl eq_refl)); lia|]. intros [E|Hin]; [lia|auto].
Qed.
Definition value_of (ns : list input_node) (id : Z) : Z :=
  match find (fun n => in_id n =? id) ns with Some n => loc_of n | None => 0 end.
Lemma value_in : forall ns, ascending (map in_id ns) -> forall n, In n ns -> value_of ns (in_id n) = loc_of n.
Proof.
  induction ns as [|m ns IH]; intros A n Hn; [destruct Hn|]. unfold value_of. cbn [find].
  destruct (Z.eqb_spec (in_id m) (in_id n)) as [E|E].
  - destruct Hn as [<-|Hn]; [reflexivity|]. cbn [map] in A. pose proof (ascending_head _ _ A (in_id n) (in_map _ _ _ Hn)). lia.
  - destruct Hn as [<-|Hn]; [congruence|]. apply (IH (proj2 A) n Hn).
Qed.
Lemma value_out ns id : ~ In id (map in_id ns) -> value_of ns id = 0.
Proof.
  intros H. unfold value_of. destruct (find _ ns) as [n|] eqn:E; [|reflexivity]. exfalso. apply H.
  apply find_some in E. destruct E as (Hin & E). replace id with (in_id n) by lia. apply in_map. exact Hin.
Qed.
Lemma batches_cons m ms : batches (m :: ms) = batches [m] ++ batches ms.
Proof. unfold batches. cbn [flat_map]. rewrite app_nil_r. reflexivity. Qed.
Lemma msg_of V lo b ns : input_block b ns -> 1 <= lo -> vals V lo ns -> Forall (fun n => in_id n < 2^63) ns ->
  exists m, ni_worker (fst b) (snd b) = Ok m /\ well_typed [m] /\
   (ns = [] /\ batches [m] = [] \/ ns <> [] /\ batches [m] = [nfinish (fold_left nstep ns (notAssigned, notAssigned, [], []))]).
Proof.
  intros H Hlo Hv Hb. unfold ni_worker, tOSMData. destruct H as [(N & N' & ->)|(T & bl & raw & p & E1 & E2 & E3 & S & ->)].
  - destruct (HLProofs.seqb_spec (blk_Type (snd b)) (bytes_of "OSMData")) as [E|_]; [contradiction|]. cbn [negb]. eexists. split; [reflexivity|].
    split; [intros m [<-|[]]; cbn [nm_Type]; contradiction|]. left. split; [reflexivity|]. unfold batches. cbn [flat_map nm_Type].
    destruct (HLProofs.seqb_spec (blk_Type (snd b)) (bytes_of "IndexData")) as [E|_]; [contradiction|reflexivity].
  - rewrite T, HLProofs.seqb_refl. cbn [negb]. rewrite E1. cbn [bind]. rewrite E2. cbn [bind]. unfold ni_reader. rewrite E3. cbn [bind].
    rewrite (ni_batch_steps p S). cbn [bind]. eexists. split; [reflexivity|].
    split; [intros m [<-|[]] _; cbn [nm_Batch]; discriminate|].
    pose proof (batch_spec V lo (block_nodes p) Hlo Hv Hb) as B.
    destruct (nfinish (fold_left nstep (block_nodes p) (notAssigned, notAssigned, [], []))) as [R out] eqn:EB. destruct B as (_ & _ & _ & _ & _ & B & _).
    unfold batches. cbn [flat_map nm_Type nm_Batch fst]. destruct (block_nodes p) as [|n ns'] eqn:En.
    + left. split; [reflexivity|]. rewrite (proj2 B eq_refl). reflexivity.
    + right. split; [discriminate|]. destruct R as [|r R]; [destruct B as (B & _); discriminate (B eq_refl)|].
      replace (zlen (r :: R) =? 0) with false by (unfold zlen; cbn [List.length]; lia). reflexivity.
Qed.
Lemma all_ranges_cons m ms : all_ranges (m :: ms) = all_ranges [m] ++ all_ranges ms.
Proof. unfold all_ranges. rewrite (batches_cons m ms), map_app, concat_app. reflexivity. Qed.
Lemma all_locs_cons m ms : all_locs (m :: ms) = all_locs [m] ++ all_locs ms.
Proof. unfold all_locs. rewrite (batches_cons m ms), map_app, concat_app. reflexivity. Qed.
Lemma spans_range_len V R p : In p R -> snd p - fst p + 1 <= zlen (spans V R).
Proof.
  induction R as [|q R IH]; intros H; [destruct H|]. change (q :: R) with ([q] ++ R). rewrite spans_app, zlen_app, spans_one.
  pose proof (zlen_nonneg (spans V R)). pose proof (zlen_nonneg (map V (zrange (fst q) (snd q)))). destruct H as [<-|H].
  - unfold zlen at 1. unfold zrange. rewrite !map_length, seq_length. lia.
  - specialize (IH H). lia.
Qed.
Lemma last_id_app lo a b : last_id lo (a ++ b) = last_id (last_id lo a) b.
Proof. unfold last_id. apply fold_left_app. Qed.
Lemma vals_last V : forall ns lo, vals V lo ns -> lo <= last_id lo ns.
Proof. induction ns as [|n ns IH]; intros lo H; [apply Z.le_refl|]. destruct H as (P & _ & _ & H). change (last_id lo (n :: ns)) with (last_id (in_id n) ns). specialize (IH _ H). lia. Qed.
Lemma msgs_spec V bs nss : Forall2 input_block bs nss -> forall lo, 1 <= lo -> vals V lo (concat nss) ->
  Forall (fun n => in_id n < 2^63) (concat nss) -> Forall (fun ns => zlen ns < 2^23) nss ->
  exists msgs, mapm (fun b => ni_worker (fst b) (snd b)) bs = Ok msgs /\ well_typed msgs /\
    asc_pairs lo (all_ranges msgs) /\ end_of lo (all_ranges msgs) = last_id lo (concat nss) /\ all_locs msgs = spans V (all_ranges msgs) /\
    (forall n, In n (concat nss) -> covered (all_ranges msgs) (in_id n)) /\ zlen (all_locs msgs) <= 2 * zlen (concat nss) /\
    Forall (fun p => snd p < 2^63 /\ snd p - fst p + 1 < 2^24) (all_ranges msgs).
Proof.
  intros F. induction F as [|b ns bs nss Hb F IH]; intros lo Hlo Hv Hid Hsz.
  - exists []. cbn [mapm concat]. split; [reflexivity|]. split; [intros m []|]. split; [exact I|]. split; [reflexivity|]. split; [reflexivity|].
    split; [intros n []|]. split; [reflexivity|constructor].
  - cbn [concat] in *. apply vals_app in Hv. destruct Hv as (V1 & V2). apply Forall_app in Hid. destruct Hid as (I1 & I2).
    destruct (msg_of V lo b ns Hb Hlo V1 I1) as (m & Em & Wm & Bm).
    destruct (IH (last_id lo ns) ltac:(pose proof (vals_last V ns lo V1); lia) V2 I2 (Forall_inv_tail Hsz)) as (msgs & E & W & A & En & L & C & Z1 & B).
    exists (m :: msgs). cbn [mapm]. rewrite Em. cbn [bind]. rewrite E. cbn [bind]. split; [reflexivity|].
    split; [intros x [<-|Hx]; [apply Wm; left; reflexivity|apply W; exact Hx]|].
    rewrite all_ranges_cons, all_locs_cons.
    assert (M : asc_pairs lo (all_ranges [m]) /\ end_of lo (all_ranges [m]) = last_id lo ns /\ all_locs [m] = spans V (all_ranges [m]) /\
      (forall n, In n ns -> covered (all_ranges [m]) (in_id n)) /\ zlen (all_locs [m]) <= 2 * zlen ns /\
      Forall (fun p => snd p < 2^63 /\ snd p - fst p + 1 < 2^24) (all_ranges [m])).
    { unfold all_ranges, all_locs. destruct Bm as [(-> & ->)|(Nn & ->)].
      - cbn [map concat]. split; [exact I|]. split; [reflexivity|]. split; [reflexivity|]. split; [intros n []|]. split; [reflexivity|constructor].
      - pose proof (batch_spec V lo ns Hlo V1 I1) as BS. destruct (nfinish _) as [R out]. cbn [map concat fst snd]. rewrite !app_nil_r.
        destruct BS as (B1 & B2 & B3 & B4 & B5 & _ & B7). repeat (split; [assumption|]). apply Forall_forall. intros p Hp.
        split; [exact (proj1 (Forall_forall _ _) B7 p Hp)|]. pose proof (spans_range_len V R p Hp). rewrite <- B3 in H.
        pose proof (Forall_inv Hsz). cbn beta in H0. lia. }
    destruct M as (M1 & M2 & M3 & M4 & M5 & M6).
    split; [apply asc_pairs_app; rewrite M2; split; assumption|]. split; [rewrite end_of_app, M2, last_id_app; exact En|].
    split; [rewrite spans_app, M3, L; reflexivity|]. split.
    { intros n Hn. apply in_app_or in Hn. destruct Hn as [Hn|Hn]; [destruct (M4 n Hn) as (p & Hp & R)|destruct (C n Hn) as (p & Hp & R)];
        exists p; (split; [apply in_or_app; auto|exact R]). }
    split; [rewrite !zlen_app; lia|]. apply Forall_app. split; assumption.
Qed.
Lemma asc_storable V : forall R off lo, 0 <= lo -> asc_pairs lo R -> Forall (fun p => snd p < 2^63 /\ snd p - fst p + 1 < 2^24) R ->
  off + zlen (spans V R) <= 2^40 -> storable off R.
Proof.
  induction R as [|[f l] R IH]; intros off lo Hlo A B L; [exact I|]. cbn [storable asc_pairs] in *. destruct A as (A1 & A2 & A3).
  destruct (Forall_inv B) as (B1 & B2). cbn [fst snd] in B1, B2. change ((f, l) :: R) with ([(f, l)] ++ R) in L. rewrite spans_app, zlen_app, spans_one in L.
  cbn [fst snd] in L. rewrite zlen_map, zrange_len in L by lia. pose proof (zlen_nonneg (spans V R)).
  split; [lia|]. split; [lia|]. split; [exact B2|]. split; [lia|]. apply (IH _ l); [lia|exact A3|exact (Forall_inv_tail B)|lia].
Qed.
Lemma place_total V : forall R off lo, asc_pairs lo R -> total (place off R) = zlen (spans V R).
Proof.
  induction R as [|[f l] R IH]; intros off lo A; [reflexivity|]. cbn [asc_pairs] in A. destruct A as (A1 & A2 & A3).
  change ((f, l) :: R) with ([(f, l)] ++ R) at 2. rewrite spans_app, zlen_app, spans_one. cbn [fst snd place total r_count].
  rewrite zlen_map, zrange_len by lia. rewrite (IH _ l A3). lia.
Qed.
Lemma place_first R : forall off lo, asc_pairs lo R -> forall r, In r (place off R) -> lo < r_first r.
Proof.
  induction R as [|[f l] R IH]; intros off lo A r H; [destruct H|]. cbn [asc_pairs place] in *. destruct A as (A1 & A2 & A3). destruct H as [<-|H]; [exact A1|].
  specialize (IH _ l A3 r H). lia.
Qed.
Lemma place_ascending R : forall off lo, asc_pairs lo R -> ascending_ranges (place off R).
Proof.
  induction R as [|[f l] R IH]; intros off lo A; [apply ascending_nil|]. cbn [asc_pairs place] in *. destruct A as (A1 & A2 & A3). apply ascending_cons.
  - intros b Hb. pose proof (place_first R _ l A3 b Hb). cbn [r_first r_count]. lia.
  - apply (IH _ l). exact A3.
Qed.
Lemma place_ok V : forall R off lo locs, 0 <= lo -> 0 <= off -> asc_pairs lo R -> Forall (fun p => snd p < 2^63 /\ snd p - fst p + 1 < 2^24) R ->
  off + zlen (spans V R) <= 2^40 -> off + zlen (spans V R) <= zlen locs -> Forall (range_ok locs) (place off R).
Proof.
  induction R as [|[f l] R IH]; intros off lo locs Hlo Ho A B L L'; [constructor|]. cbn [place asc_pairs] in *. destruct A as (A1 & A2 & A3).
  destruct (Forall_inv B) as (B1 & B2). cbn [fst snd] in B1, B2. change ((f, l) :: R) with ([(f, l)] ++ R) in L, L'.
  rewrite spans_app, zlen_app, spans_one in L, L'. cbn [fst snd] in L, L'. rewrite zlen_map, zrange_len in L, L' by lia. pose proof (zlen_nonneg (spans V R)).
  constructor; [unfold range_ok; cbn; lia|]. apply (IH _ l); [lia|lia|exact A3|exact (Forall_inv_tail B)|lia|lia].
Qed.
Lemma place_value V : forall R lo pre r id, asc_pairs lo R -> In r (place (zlen pre) R) -> in_range r id ->
  nth_error (pre ++ spans V R) (Z.to_nat (r_offset r + (id - r_first r))) = Some (V id).
Proof.
  induction R as [|[f l] R IH]; intros lo pre r id A H I; [destruct H|]. cbn [asc_pairs place] in *. destruct A as (A1 & A2 & A3).
  change ((f, l) :: R) with ([(f, l)] ++ R). rewrite spans_app, spans_one. cbn [fst snd]. destruct H as [<-|H].
  - unfold in_range in I. cbn [r_first r_count r_offset] in *. rewrite nth_error_app2 by (unfold zlen; lia).
    replace (Z.to_nat (zlen pre + (id - f)) - List.length pre)%nat with (Z.to_nat (id - f)) by (unfold zlen; lia).
    rewrite nth_error_app1 by (rewrite map_length; pose proof (zrange_len f l ltac:(lia)) as ZL; unfold zlen in ZL; lia).
    rewrite nth_error_map, zrange_nth by lia. reflexivity.
  - rewrite app_assoc. apply (IH l); [exact A3| |exact I]. rewrite zlen_app, zlen_map, zrange_len by lia. exact H.
Qed.
Lemma place_covered R : forall off id, covered R id -> exists r, In r (place off R) /\ in_range r id.
Proof.
  induction R as [|[f l] R IH]; intros off id (p & Hp & I); [destruct Hp|]. cbn [place]. destruct Hp as [<-|Hp].
  - eexists. split; [left; reflexivity|]. unfold in_range. cbn in *. lia.
  - destruct (IH (off + (l - f + 1)) id) as (r & Hr & Ir); [exists p; auto|]. exists r. split; [right; exact Hr|exact Ir].
Qed.
Lemma spans_range V R : (forall id, - 2^63 <= V id <= 0) -> Forall is_s64 (spans V R).
Proof.
  intros H. apply Forall_forall. intros x Hx. unfold spans in Hx. apply in_flat_map in Hx. destruct Hx as (p & _ & Hx). apply in_map_iff in Hx.
  destruct Hx as (y & <- & _). specialize (H y). unfold is_s64. lia.
Qed.
Lemma single_pass rs l locs : index_ok (rs ++ [l]) locs ->
  exists top, SubIndex (index_of (rs ++ [l]) locs) 0 1 = Ok (sub_index_of (rs ++ [l]) locs top) /\ top_of (rs ++ [l]) top.
Proof.
  intros H. pose proof H as (Hok & Hasc & Ht & Hb). destruct (SubIndex_spec (rs ++ [l]) locs 0 1 H ltac:(lia) ltac:(lia)) as (S & _). cbn zeta in S.
  unfold pass_ranges in S. cbn zeta in S. unfold slice_size in S. rewrite Z.div_1_r in S.
  replace (zlen locs * 0) with 0 in S by lia. replace (zlen locs * (0 + 1)) with (zlen locs) in S by lia.
  assert (Cl : cut (zlen locs) 0 (rs ++ [l]) = List.length (rs ++ [l])).
  { pose proof (cut_le (zlen locs) (rs ++ [l]) 0). pose proof (cut_inside locs (zlen locs) l rs 0 Hok) as (D & _).
    destruct (Nat.lt_ge_cases (cut (zlen locs) 0 (rs ++ [l])) (List.length (rs ++ [l]))) as [G|G]; [|lia]. specialize (D G).
    rewrite total_app in Ht. cbn [total] in Ht. apply Forall_app in Hok. destruct Hok as (_ & Hl). pose proof (Forall_inv Hl) as (_ & Hc & _). lia. }
  assert (C0 : cut 0 0 (rs ++ [l]) = 0%nat) by (destruct (rs ++ [l]); reflexivity).
  rewrite Cl, C0 in S. rewrite Nat.sub_0_r in S. cbn [skipn] in S. rewrite firstn_all in S.
  destruct S as (l' & top & E & Etop & Es). { rewrite app_length. cbn [List.length]. lia. }
  exists top. split; [exact Es|]. rewrite app_length in E. cbn [List.length] in E. replace (List.length rs + 1 - 1)%nat with (List.length rs) in E by lia.
  rewrite nth_error_app2 in E by lia. rewrite Nat.sub_diag in E. cbn [nth_error] in E. injection E as <-.
  intros r Hr. apply In_nth_error in Hr. destruct Hr as (i & Hi). subst top.
  destruct (Nat.lt_ge_cases i (List.length rs)) as [G|G].
  - pose proof (Hasc i (List.length rs) r l G Hi) as Q. rewrite nth_error_app2, Nat.sub_diag in Q by lia. specialize (Q eq_refl).
    apply Forall_app in Hok. destruct Hok as (_ & Hl). pose proof (Forall_inv Hl) as (_ & Hc & _). lia.
  - assert (i = List.length rs). { pose proof (proj1 (nth_error_Some (rs ++ [l]) i) ltac:(congruence)) as Q. rewrite app_length in Q. cbn [List.length] in Q. lia. }
    subst i. rewrite nth_error_app2, Nat.sub_diag in Hi by lia. cbn [nth_error] in Hi. injection Hi as <-. lia.
Qed.
(** C47.  After indexing any input with ascending node ids, all at least 2, with fewer than
    2^23 nodes in a block and 2^39 in all, the file opens and every node is found, whatever the
    hint, at the location computed from its coordinates; no other id is found. *)
Lemma pC47_every_node_partial : forall o inBlocks nss, all_well o -> Forall2 input_block inBlocks nss ->
  let ns := concat nss in
  ascending (map in_id ns) -> Forall (fun n => 2 <= in_id n < 2^63) ns ->
  Forall (fun b => zlen b < 2^23) nss -> 0 < zlen ns < 2^39 ->
  exists w idx sub, ni_index o inBlocks = (w, Ok tt) /\ NewNodeIndex (f_data (w_idx w)) = Ok idx /\ SubIndex idx 0 1 = Ok sub /\
    (forall n hint, In n ns -> 0 <= hint ->
       exists loc h, location (in_lon n) (in_lat n) = Ok loc /\ FindNode sub (in_id n) hint = Ok (loc, h, true)) /\
    (forall id hint, ~ In id (map in_id ns) -> 0 <= hint -> exists h, FindNode sub id hint = Ok (0, h, false)).
Proof.
  intros o bs nss (W1 & W2 & W3 & W4) F ns A I S T. set (V := value_of ns).
  assert (Vv : vals V 1 ns).
  { apply vals_intro; [exact A| |apply value_in; exact A|intros j _; apply value_out].
    intros n Hn. pose proof (proj1 (Forall_forall _ _) I n Hn). cbn beta in H. lia. }
  assert (Ib : Forall (fun n => in_id n < 2^63) ns) by (apply Forall_forall; intros n Hn; pose proof (proj1 (Forall_forall _ _) I n Hn); cbn beta in H; lia).
  destruct (msgs_spec V bs nss F 1 ltac:(lia) Vv Ib S) as (msgs & Em & Wt & Ap & _ & Lc & Cov & Zl & Bd). fold ns in Cov, Zl.
  set (R := all_ranges msgs) in *. assert (Vr : forall id, - 2^63 <= V id <= 0).
  { intros id. unfold V, value_of. destruct (find _ ns) as [n|]; [pose proof (loc_of_ok n); lia|lia]. }
  assert (Sl : zlen (spans V R) <= 2^40) by (rewrite <- Lc; lia).
  assert (St : storable 0 R) by (apply (asc_storable V R 0 1); [lia|assumption|assumption|lia]).
  destruct (output_ok o msgs W1 W2 W3 Wt St) as (w & locs' & Eo & En & _ & El); [rewrite Lc; apply spans_range; exact Vr|].
  rewrite (El W4) in En. clear El. fold R in En. rewrite Lc in En.
  assert (Ok_ : index_ok (place 0 R) (spans V R)).
  { split; [apply (place_ok V R 0 1); [lia|lia|assumption|assumption|lia|lia]|]. split; [apply (place_ascending R 0 1); assumption|].
    split; [apply (place_total V R 0 1); assumption|lia]. }
  assert (NE : exists rs l, place 0 R = rs ++ [l]).
  { assert (R <> []). { intros E. destruct ns as [|n ns']; [unfold zlen in T; cbn [List.length] in T; lia|]. destruct (Cov n (or_introl eq_refl)) as (p & Hp & _). rewrite E in Hp. destruct Hp. }
    destruct (@exists_last _ (place 0 R)) as (rs & l & E); [destruct R as [|[? ?] ?]; [contradiction|discriminate]|]. exists rs, l. exact E. }
  destruct NE as (rs & l & E). rewrite E in Ok_, En. destruct (single_pass rs l _ Ok_) as (top & Es & Et). rewrite <- E in Ok_, En, Es, Et.
  destruct Ok_ as (Ok1 & Asc & _).
  exists w, (index_of (place 0 R) (spans V R)), (sub_index_of (place 0 R) (spans V R) top).
  split; [unfold ni_index; rewrite Em; exact Eo|]. split; [exact En|]. split; [exact Es|]. split.
  - intros n hint Hn Hh. destruct (loc_of_ok n) as (L & Neg). destruct (place_covered R 0 (in_id n) (Cov n Hn)) as (r & Hr & Ir).
    destruct (FindNode_spec _ _ (in_id n) Ok1 Asc top hint Et Hh) as (Fi & _). destruct (In_nth_error _ _ Hr) as (k & Hk).
    destruct (Fi k r Hk Ir) as (loc & Hl & Ef). rewrite (place_value V R 1 [] r (in_id n) Ap Hr Ir : nth_error (spans V R) _ = _) in Hl.
    injection Hl as <-. rewrite (value_in ns A n Hn : V (in_id n) = _) in Ef. exists (loc_of n), (Z.of_nat k). split; [exact L|]. rewrite Ef.
    replace (loc_of n =? 0) with false by lia. reflexivity.
  - intros id hint Hn Hh. destruct (FindNode_spec _ _ id Ok1 Asc top hint Et Hh) as (Fi & No).
    destruct (linear_search_spec (spans V R) id (place 0 R) 0) as [(k & r & Hk & Ir & _)|(Nr & _)].
    + destruct (Fi k r Hk Ir) as (loc & Hl & Ef). rewrite (place_value V R 1 [] r id Ap (nth_error_In _ _ Hk) Ir : nth_error (spans V R) _ = _) in Hl.
      injection Hl as <-. rewrite (value_out ns id Hn : V id = 0) in Ef. exists (Z.of_nat k). exact Ef.
    + exists hint. apply No. exact Nr.
Qed.
(** a block of nodes, not compressed *)
Definition ni_block (index : Z) (ids lats lons : list Z) : zenv * Block :=
  (mkZenv true [] [],
   mkBlk index (match Blob_Write (mkBlob None None None (Some (PrimitiveBlock_Write
       (mkBlock None (Some [[]]) [mkGroup None (Some (mkDense ids lats lons [] [] [])) None [] None []] 100 1000 0 0)))) [] with
           | Ok out => exact out | _ => exact [] end) (bytes_of "OSMData")).
Definition ex_ni_blocks := [(mkZenv true [] [], mkBlk 0 (exact [1]) (bytes_of "OSMHeader"));
  ni_block 1 [2; 3; 5; 9] [10; -20; 30; 40] [1; 2; 3; 4]; ni_block 2 [] [] []; ni_block 3 [10; 20] [7; 8] [9; 0]].
Definition ex_ni_nodes := [[]; [mkInput 2 1 10; mkInput 3 2 (-20); mkInput 5 3 30; mkInput 9 4 40]; []; [mkInput 10 9 7; mkInput 20 0 8]].
Lemma ex_block_input index ids lats lons p : 
  (exists b raw, ReadBlob (blk_Data (snd (ni_block index ids lats lons))) Blob0 = Ok b /\ GetRawData (mkZenv true [] []) b = Ok raw /\
     ReadPrimitiveBlock (mkReader true false true true) raw PrimitiveBlock0 = Ok p) -> 
  block_sane p -> input_block (ni_block index ids lats lons) (block_nodes p).
Proof. intros (b & raw & E1 & E2 & E3) S. right. split; [reflexivity|]. exists b, raw, p. auto. Qed.
Ltac sane := intros g d [<-|[]] E; injection E as <-; split; [reflexivity|]; split; [reflexivity|];
   split; repeat (apply Forall_cons; [split; [vm_compute; intuition congruence|split; [vm_compute; intuition congruence|vm_compute; intuition congruence]]|]); apply Forall_nil.
Lemma pC47_ex : all_well os_well /\ Forall2 input_block ex_ni_blocks ex_ni_nodes /\ ascending (map in_id (concat ex_ni_nodes)) /\
  Forall (fun n => 2 <= in_id n < 2^63) (concat ex_ni_nodes) /\ Forall (fun b => zlen b < 2^23) ex_ni_nodes /\ 0 < zlen (concat ex_ni_nodes) < 2^39.
Proof.
  split; [exact os_well_ok|]. split.
  { unfold ex_ni_blocks, ex_ni_nodes. repeat apply Forall2_cons; [| | | |apply Forall2_nil].
    - left. split; [discriminate|]. split; [discriminate|reflexivity].
    - refine (ex_block_input 1 _ _ _ (mkBlock _ _ [mkGroup _ (Some (mkDense [2; 3; 5; 9] [10; -20; 30; 40] [1; 2; 3; 4] _ _ _)) _ _ _ _] 100 _ 0 0) _ _).
      + do 2 eexists. split; [vm_compute; reflexivity|]. split; [vm_compute; reflexivity|]. vm_compute. reflexivity.
      + sane.
    - refine (ex_block_input 2 _ _ _ (mkBlock _ _ [mkGroup _ (Some (mkDense [] [] [] _ _ _)) _ _ _ _] 100 _ 0 0) _ _).
      + do 2 eexists. split; [vm_compute; reflexivity|]. split; [vm_compute; reflexivity|]. vm_compute. reflexivity.
      + sane.
    - refine (ex_block_input 3 _ _ _ (mkBlock _ _ [mkGroup _ (Some (mkDense [10; 20] [7; 8] [9; 0] _ _ _)) _ _ _ _] 100 _ 0 0) _ _).
      + do 2 eexists. split; [vm_compute; reflexivity|]. split; [vm_compute; reflexivity|]. vm_compute. reflexivity.
      + sane. }
  split; [vm_compute; repeat split|]. split; [repeat (apply Forall_cons; [cbn; lia|]); apply Forall_nil|].
  split; [repeat (apply Forall_cons; [vm_compute; reflexivity|]); apply Forall_nil|]. split; vm_compute; reflexivity.
Qed.
(** C47 is false of the code for an input starting with node 1 (or 0): of the nodes 1 and 5,
    indexed without any problem, neither is found at its location. *)
Lemma pC47_first_ids_refuted : exists w idx sub l1 l5, 
  Forall2 input_block [ni_block 0 [1; 5] [10; 20] [30; 40]] [[mkInput 1 30 10; mkInput 5 40 20]] /\
  ni_index os_well [ni_block 0 [1; 5] [10; 20] [30; 40]] = (w, Ok tt) /\ NewNodeIndex (f_data (w_idx w)) = Ok idx /\ SubIndex idx 0 1 = Ok sub /\
  location 30 10 = Ok l1 /\ location 40 20 = Ok l5 /\
  FindNode sub 1 0 = Ok (0, 0, false) /\ FindNode sub 5 0 = Ok (0, 0, false).
Proof.
  do 5 eexists. split.
  { apply Forall2_cons; [|apply Forall2_nil].
    refine (ex_block_input 0 _ _ _ (mkBlock _ _ [mkGroup _ (Some (mkDense [1; 5] [10; 20] [30; 40] _ _ _)) _ _ _ _] 100 _ 0 0) _ _).
    - do 2 eexists. split; [vm_compute; reflexivity|]. split; [vm_compute; reflexivity|]. vm_compute. reflexivity.
    - sane. }
  split; [vm_compute; reflexivity|]. split; [vm_compute; reflexivity|]. split; [vm_compute; reflexivity|].
  split; [vm_compute; reflexivity|]. split; [vm_compute; reflexivity|]. split; vm_compute; reflexivity.
Qed.

(** ** C48 *)
Lemma mapm_map_ok {A B C} (g : A -> B) (f : B -> res C) : forall l out, mapm f (map g l) = Ok out <-> Forall2 (fun a c => f (g a) = Ok c) l out.
Proof.
  induction l as [|a l IH]; intros out; cbn [map mapm].
  - split; [intros E; injection E as <-; constructor|intros F; inversion F; reflexivity].
  - split.
    + destruct (f (g a)) as [c|p|] eqn:Ec; cbn [bind]; try discriminate. destruct (mapm f (map g l)) as [r|p|] eqn:Er; cbn [bind]; try discriminate.
      intros E. injection E as <-. constructor; [exact Ec|]. apply IH. reflexivity.
    + intros F. inversion F as [|? c ? r Hc Hr]; subst. rewrite Hc. cbn [bind]. apply IH in Hr. rewrite Hr. reflexivity.
Qed.
Lemma passes_sub rs locs n subs : index_ok rs locs -> 1 <= n -> passes (index_of rs locs) n = Ok subs ->
  map si_element subs = map (fun i => map elem_of (pass_ranges rs locs (Z.of_nat i) n)) (seq 0 (Z.to_nat n)) /\
  forall i, (i < Z.to_nat n)%nat -> (cut (slice_size locs n * Z.of_nat i) 0 rs < List.length rs)%nat /\ (0 < cut (slice_size locs n * (Z.of_nat i + 1)) 0 rs)%nat.
Proof.
  intros Hi Hn E. unfold passes in E. apply mapm_map_ok in E.
  assert (G : forall l subs, (forall i, In i l -> (i < Z.to_nat n)%nat) -> Forall2 (fun i s => SubIndex (index_of rs locs) (Z.of_nat i) n = Ok s) l subs ->
    map si_element subs = map (fun i => map elem_of (pass_ranges rs locs (Z.of_nat i) n)) l /\
    forall i, In i l -> (cut (slice_size locs n * Z.of_nat i) 0 rs < List.length rs)%nat /\ (0 < cut (slice_size locs n * (Z.of_nat i + 1)) 0 rs)%nat).
  { clear E subs. intros l subs Hl F. induction F as [|i s l subs E F IH]; [split; [reflexivity|intros i []]|].
    destruct IH as (IH1 & IH2); [intros j Hj; apply Hl; right; exact Hj|].
    destruct (SubIndex_spec rs locs (Z.of_nat i) n Hi Hn) as (Y & N); [specialize (Hl i (or_introl eq_refl)); lia|]. cbn zeta in Y, N.
    assert (D : (cut (slice_size locs n * Z.of_nat i) 0 rs < List.length rs)%nat /\ (0 < cut (slice_size locs n * (Z.of_nat i + 1)) 0 rs)%nat).
    { destruct (Nat.lt_ge_cases (cut (slice_size locs n * Z.of_nat i) 0 rs) (List.length rs)) as [G1|G1];
      destruct (Nat.lt_ge_cases 0 (cut (slice_size locs n * (Z.of_nat i + 1)) 0 rs)) as [G2|G2]; [auto|..]; rewrite N in E; try discriminate; lia. }
    destruct (Y D) as (l' & top & _ & _ & Es). rewrite E in Es. injection Es as ->. split.
    - cbn [map]. rewrite IH1. reflexivity.
    - intros j [<-|Hj]; [exact D|apply IH2; exact Hj]. }
  destruct (G (seq 0 (Z.to_nat n)) subs ltac:(intros i Hin; apply in_seq in Hin; lia) E) as (G1 & G2). split; [exact G1|]. intros i H. apply G2. apply in_seq. lia.
Qed.
Lemma concat_map_map {A B C} (f : B -> C) (g : A -> list B) l : concat (map (fun a => map f (g a)) l) = map f (concat (map g l)).
Proof. induction l as [|a l IH]; [reflexivity|]. cbn [map concat]. rewrite IH, map_app. reflexivity. Qed.
(** C48, part: if no pass panics, the passes are consecutive and do not overlap, and start
    with the first range: together they are an initial part of the index. *)
Lemma pC48_consecutive_partial : forall rs locs n subs, index_ok rs locs -> 1 <= n ->
  passes (index_of rs locs) n = Ok subs ->
  exists k, concat (map si_element subs) = map elem_of (firstn k rs) /\ Forall (fun s => si_locations s = locs) subs.
Proof.
  intros rs locs n subs Hi Hn E. pose proof (passes_sub rs locs n subs Hi Hn E) as (M & _).
  exists (cut (slice_size locs n * n) 0 rs). split.
  - rewrite M, concat_map_map, pass_concat by lia. rewrite Z2Nat.id by lia. reflexivity.
  - unfold passes in E. apply mapm_map_ok in E.
    assert (G : forall l subs, (forall i, In i l -> (i < Z.to_nat n)%nat) -> Forall2 (fun i s => SubIndex (index_of rs locs) (Z.of_nat i) n = Ok s) l subs -> Forall (fun s => si_locations s = locs) subs).
    { clear E M subs. intros l subs Hl F. induction F as [|i s l subs E F IH]; [constructor|]. constructor; [|apply IH; intros j Hj; apply Hl; right; exact Hj].
      unfold SubIndex in E. destruct (n =? 0); [discriminate|]. destruct (find_start _ _ _ _) as [a b]. cbn [index_of ni_elements ni_locations] in E.
      destruct (lslice _ _ _) as [x|p|]; [|discriminate..]. cbn [bind] in E. destruct (lidx _ _) as [y|p|]; [|discriminate..]. injection E as <-. reflexivity. }
    apply (G (seq 0 (Z.to_nat n)) subs ltac:(intros i Hin; apply in_seq in Hin; lia) E).
Qed.
(** C48: exactly when no pass panics and the passes cover the index.  [l] is the last range,
    [total rs] the number of locations before it; with size = locations / passes (rounded
    down), the last range must begin at or after the start of the last pass and before the end
    of the last pass. *)
Lemma pC48_covers_iff_partial : forall rs l locs n, index_ok (rs ++ [l]) locs -> 1 <= n ->
  ((exists subs, passes (index_of (rs ++ [l]) locs) n = Ok subs /\ concat (map si_element subs) = map elem_of (rs ++ [l])) <->
   zlen locs / n * (n - 1) <= total rs < zlen locs / n * n).
Proof.
  intros rs l locs n Hi Hn. pose proof Hi as (Hok & _ & Ht & Hb). fold (slice_size locs n).
  assert (Hs : 0 <= slice_size locs n) by (apply (size_bounds locs n 0); lia).
  assert (Hr : 0 <= total rs) by (apply Forall_app in Hok; apply (total_nonneg locs), Hok).
  assert (Cin : forall t, (cut t 0 (rs ++ [l]) < List.length (rs ++ [l]))%nat <-> t <= total rs) by (intros t; rewrite (cut_inside locs t l rs 0 Hok); lia).
  assert (Cpos : forall t, (0 < cut t 0 (rs ++ [l]))%nat <-> 0 < t).
  { intros t. destruct (rs ++ [l]) as [|r q] eqn:E; [destruct rs; discriminate|]. cbn [cut]. destruct (Z.leb_spec t 0); lia. }
  split.
  - intros (subs & E & C). pose proof (passes_sub _ locs n subs Hi Hn E) as (M & P). rewrite M, concat_map_map, pass_concat in C by lia.
    rewrite Z2Nat.id in C by lia. split.
    + destruct (P (Z.to_nat (n - 1)) ltac:(lia)) as (P1 & _). apply Cin in P1. rewrite Z2Nat.id in P1 by lia. exact P1.
    + apply (f_equal (@List.length _)) in C. rewrite !map_length, firstn_length in C.
      destruct (Z.lt_ge_cases (total rs) (slice_size locs n * n)) as [G|G]; [exact G|]. apply Cin in G. lia.
  - intros (B1 & B2). assert (0 < slice_size locs n) by nia.
    assert (Y : forall i, (i < Z.to_nat n)%nat -> exists top, SubIndex (index_of (rs ++ [l]) locs) (Z.of_nat i) n = Ok (sub_index_of (pass_ranges (rs ++ [l]) locs (Z.of_nat i) n) locs top)).
    { intros i H1. destruct (SubIndex_spec (rs ++ [l]) locs (Z.of_nat i) n Hi Hn ltac:(lia)) as (Y & _). cbn zeta in Y.
      destruct Y as (l' & top & _ & _ & Es); [|exists top; exact Es]. split; [apply Cin; nia|apply Cpos; nia]. }
    assert (G : forall k, (forall i, In i k -> (i < Z.to_nat n)%nat) -> exists subs, Forall2 (fun i s => SubIndex (index_of (rs ++ [l]) locs) (Z.of_nat i) n = Ok s) k subs).
    { induction k as [|i k IH]; intros Hk; [exists []; constructor|]. destruct IH as (subs & F); [intros j Hj; apply Hk; right; exact Hj|].
      destruct (Y i (Hk i (or_introl eq_refl))) as (top & Es). eexists. constructor; [exact Es|exact F]. }
    destruct (G (seq 0 (Z.to_nat n)) ltac:(intros i Hin; apply in_seq in Hin; lia)) as (subs & F). exists subs.
    assert (E : passes (index_of (rs ++ [l]) locs) n = Ok subs) by (unfold passes; apply mapm_map_ok; exact F). split; [exact E|].
    pose proof (passes_sub _ locs n subs Hi Hn E) as (M & _). rewrite M, concat_map_map, pass_concat by lia. rewrite Z2Nat.id by lia.
    rewrite firstn_all2; [reflexivity|]. destruct (Nat.lt_ge_cases (cut (slice_size locs n * n) 0 (rs ++ [l])) (List.length (rs ++ [l]))) as [Q|Q]; [apply Cin in Q; lia|exact Q].
Qed.
(** C48: a single pass has the whole index, if that has a range at all. *)
Lemma pC48_single_pass : forall rs locs, index_ok rs locs -> rs <> [] ->
  exists top, SubIndex (index_of rs locs) 0 1 = Ok (sub_index_of rs locs top) /\ top_of rs top.
Proof.
  intros rs locs H N. destruct (exists_last N) as (rs' & l & ->). apply single_pass. exact H.
Qed.
Definition ex_ten := map (fun i => mkRange (10 * i) 1 i) [0; 1; 2; 3; 4; 5; 6; 7; 8; 9].
Lemma ex_ten_ok : index_ok ex_ten (repeat (-1) 10).
Proof.
  split; [unfold ex_ten; cbn [map]; repeat (apply Forall_cons; [unfold range_ok, zlen; cbn; lia|]); apply Forall_nil|]. split.
  - unfold ex_ten; cbn [map]. repeat (apply ascending_cons; [cbn [In]; intros b B; repeat destruct B as [<-|B]; cbn; try lia; destruct B|]). apply ascending_nil.
  - split; [reflexivity|]. vm_compute. reflexivity.
Qed.
Lemma pC48_ex : index_ok ex_ten (repeat (-1) 10) /\
  exists subs, passes (index_of ex_ten (repeat (-1) 10)) 5 = Ok subs /\ map (fun s => zlen (si_element s)) subs = [2; 2; 2; 2; 2].
Proof. split; [exact ex_ten_ok|]. eexists. split; [vm_compute; reflexivity|]. vm_compute. reflexivity. Qed.
(** C48 is false of the code: ten ranges of one location in three passes: the last range is
    in none; two ranges of which the second has the most locations, in three passes: the last
    pass panics; and an empty index: the only pass panics. *)
Lemma pC48_coverage_refuted :
  (exists subs, passes (index_of ex_ten (repeat (-1) 10)) 3 = Ok subs /\ map (fun s => zlen (si_element s)) subs = [3; 3; 3] /\
     exists e, In e (map elem_of ex_ten) /\ ~ In e (concat (map si_element subs))) /\
  (index_ok [mkRange 5 1 0; mkRange 7 5 1] (repeat (-1) 6) /\ exists p, passes (index_of [mkRange 5 1 0; mkRange 7 5 1] (repeat (-1) 6)) 3 = Panic p) /\
  (index_ok [] [] /\ exists p, passes (index_of [] []) 1 = Panic p).
Proof.
  split; [|split].
  - eexists. split; [vm_compute; reflexivity|]. split; [vm_compute; reflexivity|]. exists (elem_of (mkRange 90 1 9)). split; [vm_compute; tauto|].
    vm_compute. intuition congruence.
  - split; [|eexists; vm_compute; reflexivity]. split; [repeat (apply Forall_cons; [unfold range_ok, zlen; cbn; lia|]); apply Forall_nil|]. split.
    + repeat (apply ascending_cons; [cbn [In]; intros b B; repeat destruct B as [<-|B]; cbn; try lia; destruct B|]). apply ascending_nil.
    + split; [reflexivity|]. vm_compute. reflexivity.
  - split; [|eexists; vm_compute; reflexivity]. split; [apply Forall_nil|]. split; [apply ascending_nil|]. split; reflexivity.
Qed.

(** ** C49 *)

(** C49.  Whatever the operating system does (writes cut short, any call failing at any
    point), and whatever has been written, the file as it is before the final header write
    is refused. *)
Lemma pC49_unfinished_refused : forall o msgs,
  exists p, NewNodeIndex (f_data (w_idx (fst (ni_output_body o msgs w0)))) = Panic p.
Proof. intros o msgs. apply unfinished_refused. apply body_unfinished. Qed.
(** A run whose writes fail from some point on stops with index data and locations in its files. *)
Lemma pC49_ex : let o := mkOS (fun k n => if (12 <=? k)%nat then (3, true) else (n, false)) (fun _ => (5, NoErr)) (fun _ => false) (fun _ => false) in
  exists w p, ni_output_body o ex_msgs w0 = (w, Panic p) /\ zlen (f_data (w_idx w)) = 72 /\ zlen (f_data (w_loc w)) = 48.
Proof. do 2 eexists. split; [vm_compute; reflexivity|]. split; vm_compute; reflexivity. Qed.

(** ** C50 *)

(** C50 is false of the code: whenever and however often the run is found cancelled, the
    file it leaves opens as an index with all ranges, whose locations are an initial part of
    those it should have. *)
Lemma pC50_cancelled_opens_refuted : forall o msgs, writes_whole o -> reads_progress o -> calls_succeed o -> well_typed msgs ->
  storable 0 (all_ranges msgs) -> Forall is_s64 (all_locs msgs) ->
  exists w locs', ni_output o msgs w0 = (w, Ok tt) /\
    NewNodeIndex (f_data (w_idx w)) = Ok (index_of (place 0 (all_ranges msgs)) locs') /\ prefix locs' (all_locs msgs).
Proof.
  intros o msgs A B C D E F. destruct (output_ok o msgs A B C D E F) as (w & locs' & G & H & P & _). exists w, locs'. auto.
Qed.
(** Cancelled before the first location is copied: the index opens, and has no locations. *)
Lemma pC50_locations_lost_refuted : let o := mkOS (fun _ n => (n, false)) (fun _ => (5, NoErr)) (fun _ => false) (fun _ => true) in
  writes_whole o /\ reads_progress o /\ calls_succeed o /\
  exists w, ni_output o ex_msgs w0 = (w, Ok tt) /\ NewNodeIndex (f_data (w_idx w)) = Ok (index_of ex_ranges []) /\ all_locs ex_msgs <> [].
Proof.
  intros o. split; [intros k n; reflexivity|]. split; [intros k; split; [cbn; lia|discriminate]|]. split; [intros k; reflexivity|].
  eexists. split; [vm_compute; reflexivity|]. split; [vm_compute; reflexivity|]. vm_compute. discriminate.
Qed.

(** A lookup that finds something found it in an element that contains the id. *)
Lemma found_means si id hint loc h : FindNode si id hint = Ok (loc, h, true) ->
  exists e off, In e (si_element si) /\ OffsetForID e id = Ok off /\ lidx (si_locations si) off = Ok loc.
Proof.
  unfold FindNode. destruct (si_Top si <? id); [discriminate|]. cbv zeta.
  assert (S : forall lo up, (lo <- binary_search (si_element si) id lo up ;;
      if zlen (si_element si) <=? lo then Ok (0, hint, false)
      else e <- lidx (si_element si) lo ;;
        if negb (contains e id) then Ok (0, hint, false)
        else off <- OffsetForID e id ;; loc <- lidx (si_locations si) off ;; Ok (loc, lo, negb (loc =? 0))) = Ok (loc, h, true) ->
    exists e off, In e (si_element si) /\ OffsetForID e id = Ok off /\ lidx (si_locations si) off = Ok loc).
  { intros lo up. destruct (binary_search (si_element si) id lo up) as [k| |]; try discriminate. cbn [bind].
    destruct (zlen (si_element si) <=? k); [discriminate|]. destruct (lidx (si_element si) k) as [e| |] eqn:E; try discriminate. cbn [bind].
    destruct (negb (contains e id)); [discriminate|]. destruct (OffsetForID e id) as [off| |] eqn:O; try discriminate. cbn [bind].
    destruct (lidx (si_locations si) off) as [l| |] eqn:L; try discriminate. cbn [bind]. intros H. injection H as -> _ _.
    exists e, off. split; [|split; assumption]. apply (proj1 (lidx_spec _ _ _)) in E. destruct E as (_ & E). exact (nth_error_In _ _ E). }
  destruct (hint <? zlen (si_element si)); [|apply S]. destruct (lidx (si_element si) hint) as [e| |] eqn:E; try discriminate. cbn [bind].
  destruct (compareId e id =? -1); [apply S|]. destruct (compareId e id =? 0); [|apply S].
  destruct (OffsetForID e id) as [off| |] eqn:O; try discriminate. cbn [bind].
  destruct (lidx (si_locations si) off) as [l| |] eqn:L; try discriminate. cbn [bind]. intros H. injection H as -> _ _.
  exists e, off. split; [|split; assumption]. apply (proj1 (lidx_spec _ _ _)) in E. destruct E as (_ & E). exact (nth_error_In _ _ E).
Qed.
Lemma sub_means rs locs locs' k n sub : Forall (range_ok locs) rs -> SubIndex (index_of rs locs') k n = Ok sub ->
  si_locations sub = locs' /\ incl (si_element sub) (map elem_of rs).
Proof.
  intros H. unfold SubIndex. change (ni_elements (index_of rs locs')) with (ni_elements (index_of rs locs)). rewrite (elements_back locs rs H).
  destruct (n =? 0); [discriminate|]. cbv zeta. destruct (find_start _ _ _ _) as [a t].
  set (b := find_end _ _ _ _). unfold lslice. destruct (_ && _); [|discriminate]. cbn [bind].
  destruct (lidx _ (u64 (b - 1))) as [x| |]; try discriminate. cbn [bind]. intros E. injection E as <-. cbn [si_locations si_element].
  split; [reflexivity|]. intros e He.
  assert (X : forall (A : Type) (l : list A) n m x, In x (firstn n (skipn m l)) -> In x l).
  { intros A l i j y Hy. rewrite <- (firstn_skipn j l). apply in_or_app. right. rewrite <- (firstn_skipn i (skipn j l)). apply in_or_app. left. exact Hy. }
  exact (X _ _ _ _ _ He).
Qed.
(** C50, what holds instead: whenever and however often the run is cancelled, an index made from
    an input as in C47 never gives a wrong location: what a lookup finds in any pass is the
    location of the node with that id.  (It may miss nodes, or panic.) *)
Lemma pC50_never_wrong_partial : forall o inBlocks nss, writes_whole o -> reads_progress o -> calls_succeed o -> Forall2 input_block inBlocks nss ->
  let ns := concat nss in
  ascending (map in_id ns) -> Forall (fun n => 2 <= in_id n < 2^63) ns ->
  Forall (fun b => zlen b < 2^23) nss -> zlen ns < 2^39 ->
  exists w idx, ni_index o inBlocks = (w, Ok tt) /\ NewNodeIndex (f_data (w_idx w)) = Ok idx /\
    forall pass count sub id hint loc h, SubIndex idx pass count = Ok sub -> FindNode sub id hint = Ok (loc, h, true) ->
      exists n, In n ns /\ in_id n = id /\ location (in_lon n) (in_lat n) = Ok loc.
Proof.
  intros o bs nss W1 W2 W3 F ns A I S T. set (V := value_of ns).
  assert (Vv : vals V 1 ns).
  { apply vals_intro; [exact A| |apply value_in; exact A|intros j _; apply value_out].
    intros n Hn. pose proof (proj1 (Forall_forall _ _) I n Hn). cbn beta in H. lia. }
  assert (Ib : Forall (fun n => in_id n < 2^63) ns) by (apply Forall_forall; intros n Hn; pose proof (proj1 (Forall_forall _ _) I n Hn); cbn beta in H; lia).
  destruct (msgs_spec V bs nss F 1 ltac:(lia) Vv Ib S) as (msgs & Em & Wt & Ap & _ & Lc & Cov & Zl & Bd). fold ns in Cov, Zl.
  set (R := all_ranges msgs) in *. assert (Vr : forall id, - 2^63 <= V id <= 0).
  { intros id. unfold V, value_of. destruct (find _ ns) as [n|]; [pose proof (loc_of_ok n); lia|lia]. }
  assert (Sl : zlen (spans V R) <= 2^40) by (rewrite <- Lc; lia).
  assert (St : storable 0 R) by (apply (asc_storable V R 0 1); [lia|assumption|assumption|lia]).
  destruct (output_ok o msgs W1 W2 W3 Wt St) as (w & locs' & Eo & En & Pre & _); [rewrite Lc; apply spans_range; exact Vr|].
  fold R in En. rewrite Lc in Pre.
  assert (Ok1 : Forall (range_ok (spans V R)) (place 0 R)) by (apply (place_ok V R 0 1); [lia|lia|assumption|assumption|lia|lia]).
  exists w, (index_of (place 0 R) locs').
  split; [unfold ni_index; rewrite Em; exact Eo|]. split; [exact En|].
  intros pass count sub id hint loc h Es Ef. destruct (sub_means _ _ _ _ _ _ Ok1 Es) as (El & Inc).
  destruct (found_means _ _ _ _ _ Ef) as (e & off & He & Eo' & Eloc). assert (Nz : loc <> 0).
  { pose proof Ef as Ef'. intros ->. clear - Ef'. unfold FindNode in Ef'. destruct (si_Top sub <? id); [discriminate|]. cbv zeta in Ef'.
    repeat match type of Ef' with
    | context [if ?b then _ else _] => destruct b
    | bind ?r _ = _ => destruct r; try discriminate Ef'; cbn [bind] in Ef'
    end; try discriminate Ef'; injection Ef' as -> _ K; cbn in K; discriminate K. }
  apply Inc in He. apply in_map_iff in He. destruct He as (r & <- & Hr). rewrite El in Eloc.
  pose proof (proj1 (Forall_forall _ _) Ok1 r Hr) as Rk.
  assert (Ir : in_range r id).
  { apply (contains_elem _ r id Rk). unfold OffsetForID in Eo'. destruct (contains (elem_of r) id); [reflexivity|discriminate]. }
  destruct (fetch _ r id Rk Ir) as (_ & _ & Eo2 & _). rewrite Eo2 in Eo'. injection Eo' as <-.
  apply (proj1 (lidx_spec _ _ _)) in Eloc. destruct Eloc as (_ & Eloc). destruct Pre as (q & Eq).
  assert (Hn : nth_error (spans V R) (Z.to_nat (r_offset r + (id - r_first r))) = Some loc) by (rewrite Eq, nth_error_app1; [exact Eloc|apply nth_error_Some; congruence]).
  rewrite (place_value V R 1 [] r id Ap Hr Ir : nth_error (spans V R) _ = _) in Hn. injection Hn as Hn.
  unfold V, value_of in Hn. destruct (find (fun n => in_id n =? id) ns) as [n|] eqn:Fn; [|congruence].
  apply find_some in Fn. destruct Fn as (Fi & Fe). exists n. split; [exact Fi|]. split; [lia|]. rewrite <- Hn. apply loc_of_ok.
Qed.
(** Cancelled after the first read: nodes 2 and 3 are found, 20 is not. *)
Lemma pC50_never_wrong_ex : let o := mkOS (fun _ n => (n, false)) (fun _ => (30, NoErr)) (fun _ => false) (fun k => (9 <? k)%nat) in
  writes_whole o /\ reads_progress o /\ calls_succeed o /\ 
  exists w idx sub l2, ni_index o ex_ni_blocks = (w, Ok tt) /\ NewNodeIndex (f_data (w_idx w)) = Ok idx /\ zlen (ni_locations idx) = 3 /\ SubIndex idx 0 1 = Ok sub /\
    FindNode sub 2 0 = Ok (l2, 0, true) /\ location 1 10 = Ok l2 /\ FindNode sub 20 0 = Ok (0, 0, false).
Proof.
  intros o. split; [intros k n; reflexivity|]. split; [intros k; split; [cbn; lia|discriminate]|]. split; [intros k; reflexivity|].
  do 4 eexists. split; [vm_compute; reflexivity|]. split; [vm_compute; reflexivity|]. split; [vm_compute; reflexivity|]. split; [vm_compute; reflexivity|].
  split; [vm_compute; reflexivity|]. split; vm_compute; reflexivity.
Qed.

(** ** C51 *)
Lemma dump_element_ok rs locs top r i : Forall (range_ok locs) rs -> ascending_ranges rs -> top_of rs top ->
  nth_error rs i = Some r -> forall n idx, 0 <= idx -> idx + Z.of_nat n = r_count r ->
  dump_element (sub_index_of rs locs top) (elem_of r) n idx = Ok [].
Proof.
  intros Hok Hasc Ht Hr. pose proof (proj1 (Forall_forall _ _) Hok r (nth_error_In _ _ Hr)) as R. pose proof R as (R1 & R2 & R3 & R4 & R5).
  induction n as [|n IH]; intros idx H0 Hn; [reflexivity|]. cbn [dump_element].
  assert (Iin : in_range r (r_first r + idx)) by (unfold in_range; lia).
  destruct (fetch locs r (r_first r + idx) R Iin) as (loc & En & _ & El). replace (r_offset r + (r_first r + idx - r_first r)) with (r_offset r + idx) in * by lia.
  unfold ie_Offset, FirstID. cbn [elem_of baseId countOffset sub_index_of si_locations]. rewrite pack_offset by lia.
  rewrite (u64_id (r_offset r + idx)) by (unfold is_u64; lia). rewrite (u64_id (r_first r + idx)) by (unfold is_u64; lia). rewrite El. cbn [bind].
  destruct (FindNode_spec rs locs (r_first r + idx) Hok Hasc top 0 Ht ltac:(lia)) as (F & _). destruct (F i r Hr Iin) as (loc' & En' & Ef).
  replace (r_offset r + (r_first r + idx - r_first r)) with (r_offset r + idx) in En' by lia. rewrite En in En'. injection En' as <-.
  change (mkNSI (map elem_of rs) locs top) with (sub_index_of rs locs top). change (mkElem (r_first r) (r_offset r * 2 ^ 24 + r_count r)) with (elem_of r).
  rewrite Ef. cbn [bind]. rewrite (IH (idx + 1)) by lia. cbn [bind]. rewrite Z.eqb_refl. reflexivity.
Qed.
(** C51.  The dump prints no mismatch, whichever elements it is asked to dump. *)
Lemma pC51_no_mismatch : forall rs locs top start end_, Forall (range_ok locs) rs -> ascending_ranges rs -> top_of rs top ->
  (forall s, start = Some s -> 0 <= s) ->
  dump_mismatches (sub_index_of rs locs top) start end_ = Ok [].
Proof.
  intros rs locs top start end_ Hok Hasc Ht Hs. unfold dump_mismatches. cbn [sub_index_of si_element].
  set (st := match start with Some s => s | None => 0 end).
  assert (Hst : 0 <= st) by (unfold st; destruct start as [s|]; [apply Hs; reflexivity|lia]). clearbody st. clear Hs start.
  rewrite zlen_map. set (e := match end_ with Some e => if e <? zlen rs then e else zlen rs | None => zlen rs end).
  assert (He : e <= zlen rs) by (unfold e; destruct end_ as [x|]; [destruct (Z.ltb_spec x (zlen rs)); lia|lia]). clearbody e. clear end_.
  assert (G : forall n cur, 0 <= cur -> cur + Z.of_nat n <= zlen rs \/ n = O -> dump_elements (sub_index_of rs locs top) n cur = Ok []).
  { induction n as [|n IH]; intros cur H0 H; [reflexivity|]. cbn [dump_elements]. destruct (elem_at rs locs Hok cur ltac:(lia)) as (r & Er & Rr & El).
    cbn [sub_index_of si_element]. rewrite El. cbn [bind]. change (mkNSI (map elem_of rs) locs top) with (sub_index_of rs locs top).
    rewrite (ie_Count_elem locs r Rr). rewrite (dump_element_ok rs locs top r (Z.to_nat cur)); try assumption; [|lia|destruct Rr as (_ & ? & _); lia].
    cbn [bind]. rewrite (IH (cur + 1)) by lia. reflexivity. }
  apply G; [exact Hst|]. lia.
Qed.
(** The check is not blind: with ranges out of order a mismatch is printed. *)
Lemma pC51_ex : dump_mismatches (sub_index_of ex_ranges ex_locations 22) None (Some 2) = Ok [] /\
  dump_mismatches (sub_index_of [mkRange 20 2 3; mkRange 10 3 0] ex_locations 22) None None = Ok [(1, 0); (1, 2)].
Proof. split; vm_compute; reflexivity. Qed.
