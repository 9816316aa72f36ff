(** * NiProofs4: interrupted writers; the worker; the dump. *)
From Verif Require Import Base PbSpec TModel FrModel ZlModel MtModel IoModel IoSpec NiModel NiSpec.
From Verif Require Import BaseLemmas IoThms MtThms NiProofs NiProofs2 NiProofs3.
From Verif Require HLModel HLProofs.

(** ** any operating system *)
Lemma FWriteSlice_any o k f data : at_end f -> exists k' f' r part, FWriteSlice o k f data = (k', f', r) /\ at_end f' /\
  f_data f' = f_data f ++ part /\ prefix part (SliceAsByteSlice data) /\ (r = Ok tt -> part = SliceAsByteSlice data).
Proof.
  intros A. unfold FWriteSlice, File_Write. destruct (os_write o k (zlen (SliceAsByteSlice data))) as [n err].
  pose proof (clip_bounds n (zlen (SliceAsByteSlice data)) (zlen_nonneg _)) as C. set (n' := clip n _) in *.
  destruct (put_at_end f (firstn (Z.to_nat n') (SliceAsByteSlice data)) A) as (D & A').
  assert (P : prefix (firstn (Z.to_nat n') (SliceAsByteSlice data)) (SliceAsByteSlice data)) by (exists (skipn (Z.to_nat n') (SliceAsByteSlice data)); symmetry; apply firstn_skipn).
  destruct err; [|destruct (Z.eqb_spec n' (zlen (SliceAsByteSlice data))) as [E|E]];
    do 4 eexists; (split; [reflexivity|]); (split; [exact A'|]); (split; [exact D|]); (split; [exact P|]); try discriminate.
  intros _. rewrite E. apply firstn_zlen.
Qed.
Definition zero16 (w : wstate) : Prop := at_end (w_idx w) /\ prefix (repeat 0 16) (f_data (w_idx w)).
Definition safe {A} (m : io A) : Prop := forall w, zero16 w -> zero16 (fst (m w)).
Lemma safe_bind {A B} (m : io A) (f : A -> io B) : safe m -> (forall a, safe (f a)) -> safe (io_bind m f).
Proof.
  intros Hm Hf w Hw. unfold io_bind. specialize (Hm w Hw). destruct (m w) as [w' [a|p|]]; cbn [fst] in *; [apply Hf; exact Hm|exact Hm|exact Hm].
Qed.
Lemma safe_lift {A} (r : res A) : safe (io_lift r).
Proof. intros w H. exact H. Qed.
Lemma safe_call o : safe (io_call o).
Proof. intros w H. exact H. Qed.
Lemma safe_idx o d : safe (idx_WriteSlice o d).
Proof.
  intros w (A & P). unfold idx_WriteSlice. destruct (FWriteSlice_any o (w_k w) (w_idx w) d A) as (k' & f' & r & part & -> & A' & D & _ & _).
  split; cbn [fst w_idx]; [exact A'|]. rewrite D. destruct P as (q & ->). exists (q ++ part). rewrite app_assoc. reflexivity.
Qed.
Lemma safe_loc o d : safe (loc_WriteSlice o d).
Proof. intros w H. unfold loc_WriteSlice. destruct (FWriteSlice o (w_k w) (w_loc w) d) as [[k f] r]. exact H. Qed.
Lemma safe_locw o d : safe (loc_Write o d).
Proof. intros w H. unfold loc_Write. destruct (FWrite o (w_k w) (w_loc w) d) as [[k f] r]. exact H. Qed.
Lemma safe_rewind o : safe (loc_rewind o).
Proof. intros w H. unfold loc_rewind. destruct (os_fail o (w_k w)); exact H. Qed.
Lemma copy_any o size : forall fuel k fd fs, at_end fd ->
  exists k' fd' fs' r, copy_loop fuel o k fd fs size = (k', fd', fs', r) /\ at_end fd' /\ prefix (f_data fd) (f_data fd').
Proof.
  induction fuel as [|fuel IH]; intros k fd fs A; cbn [copy_loop].
  - do 4 eexists. split; [reflexivity|]. split; [exact A|]. exists []. symmetry. apply app_nil_r.
  - destruct (os_cancelled o k); [do 4 eexists; split; [reflexivity|]; split; [exact A|]; exists []; symmetry; apply app_nil_r|].
    unfold FCopy. destruct (FRead o (S k) fs size) as [[k1 fs1] [buf|p|]];
      [|do 4 eexists; split; [reflexivity|]; split; [exact A|]; exists []; symmetry; apply app_nil_r..].
    destruct (FWrite_ok o k1 fd buf A) as (k2 & fd2 & r2 & -> & A2 & a & b & _ & D & _).
    assert (P : prefix (f_data fd) (f_data fd2)) by (exists a; exact D).
    destruct r2 as [u|p|]; [|do 4 eexists; split; [reflexivity|]; split; [exact A2|exact P]..].
    destruct (zlen buf =? 0); [do 4 eexists; split; [reflexivity|]; split; [exact A2|exact P]|].
    destruct (IH k2 fd2 fs1 A2) as (k' & fd' & fs' & r & -> & A' & (q & Q)). do 4 eexists. split; [reflexivity|]. split; [exact A'|].
    exists (a ++ q). rewrite Q, D, app_assoc. reflexivity.
Qed.
Lemma safe_copy o : safe (io_copy o).
Proof.
  intros w (A & P). unfold io_copy.
  destruct (copy_any o copyBufferSize (S (List.length (f_data (w_loc w)))) (w_k w) (w_idx w) (w_loc w) A) as (k' & fd' & fs' & r & -> & A' & (q & Q)).
  split; cbn [fst w_idx]; [exact A'|]. rewrite Q. destruct P as (q' & ->). exists (q' ++ q). rewrite app_assoc. reflexivity.
Qed.
Lemma safe_batches o msgs : forall off cnt, safe (ni_write_batches o msgs off cnt).
Proof.
  induction msgs as [|m msgs IH]; intros off cnt; cbn [ni_write_batches]; [apply safe_lift|].
  destruct (negb _); [apply IH|]. destruct (nm_Batch m) as [[ranges locations]|]; [|apply safe_lift].
  apply safe_bind; [apply safe_lift|]. intros x. apply safe_bind; [apply safe_idx|]. intros _. apply safe_bind; [apply safe_loc|]. intros _. apply IH.
Qed.
(** what is in the index file when the writer stops before the header *)
Definition unfinished (data : list Z) : Prop := exists n rest, data = repeat 0 n ++ rest /\ (n = 16%nat \/ rest = []).
Lemma zero16_unfinished w : zero16 w -> unfinished (f_data (w_idx w)).
Proof. intros (_ & (r & E)). exists 16%nat, r. auto. Qed.
Lemma prefix_repeat {A} (x : A) n : forall p, prefix p (repeat x n) -> exists m, p = repeat x m.
Proof.
  induction n as [|n IH]; intros p (r & E).
  - cbn [repeat] in E. symmetry in E. apply app_eq_nil in E. exists O. apply E.
  - destruct p as [|y p]; [exists O; reflexivity|]. cbn [repeat app] in E. injection E as <- E. destruct (IH p (ex_intro _ r E)) as (m & ->). exists (S m). reflexivity.
Qed.
Lemma body_unfinished o msgs : unfinished (f_data (w_idx (fst (ni_output_body o msgs w0)))).
Proof.
  assert (U0 : unfinished []) by (exists O, []; auto).
  unfold ni_output_body. unfold io_bind at 1. unfold io_call at 1. destruct (os_fail o _); [exact U0|].
  unfold io_bind at 1. unfold io_call at 1. destruct (os_fail o _); [exact U0|]. cbn [w_k w_idx w_loc w0].
  unfold io_bind at 1. unfold idx_WriteSlice at 1. cbn [w_k w_idx w_loc].
  destruct (FWriteSlice_any o 2 (mkFile [] 0) [0; 0] eq_refl) as (k' & f' & r & part & -> & A & D & P & F). cbn [f_data app] in D.
  change (SliceAsByteSlice [0; 0]) with (repeat 0 16) in P, F.
  destruct r as [[]|p|]; [|cbn [fst w_idx]; rewrite D; destruct (prefix_repeat _ _ _ P) as (m & ->); exists m, []; rewrite app_nil_r; auto..].
  assert (Z0 : zero16 (mkW k' f' (mkFile [] 0))).
  { split; cbn [w_idx]; [exact A|]. rewrite D, (F eq_refl). exists []. rewrite app_nil_r. reflexivity. }
  revert Z0. generalize (mkW k' f' (mkFile [] 0)). intros w Hw.
  unfold io_bind at 1. pose proof (safe_batches o msgs 0 0 w Hw) as H1.
  destruct (ni_write_batches o msgs 0 0 w) as [w1 [n|p|]]; cbn [fst] in H1 |- *; [|apply zero16_unfinished; exact H1..].
  unfold io_bind at 1. pose proof (safe_rewind o w1 H1) as H2.
  destruct (loc_rewind o w1) as [w2 [u|p|]]; cbn [fst] in H2 |- *; [|apply zero16_unfinished; exact H2..].
  unfold io_bind at 1. pose proof (safe_copy o w2 H2) as H3.
  destruct (io_copy o w2) as [w3 [u3|p|]]; cbn [fst] in H3 |- *; [|apply zero16_unfinished; exact H3..].
  unfold io_bind at 1. pose proof (safe_call o w3 H3) as H4.
  destruct (io_call o w3) as [w4 [u4|p|]]; cbn [fst] in H4 |- *; [|apply zero16_unfinished; exact H4..].
  unfold io_bind at 1. pose proof (safe_call o w4 H4) as H5.
  destruct (io_call o w4) as [w5 [u5|p|]]; cbn [fst] in H5 |- *; [|apply zero16_unfinished; exact H5..].
  apply zero16_unfinished in H5. unfold io_bind at 1. unfold idx_rewind at 1. destruct (os_fail o _); exact H5.
Qed.
Lemma unfinished_word data : unfinished data -> 8 <= zlen data -> word_at data 0 = 0.
Proof.
  intros (n & rest & -> & H) L.
  assert (exists r, repeat 0 n ++ rest = repeat 0 8 ++ r) as (r & ->).
  { destruct H as [->| ->].
    - exists (repeat 0 8 ++ rest). reflexivity.
    - rewrite app_nil_r in *. exists (repeat 0 (n - 8)). rewrite <- repeat_app. f_equal. unfold zlen in L. rewrite repeat_length in L. lia. }
  reflexivity.
Qed.
Lemma unfinished_refused data : unfinished data -> exists p, NewNodeIndex data = Panic p.
Proof.
  intros U. unfold NewNodeIndex. destruct data as [|b data]; [eexists; reflexivity|].
  cbn [MMapMap bind]. destruct (pC70_bytes_to_words (b :: data)) as (L & _ & Wd).
  destruct (Z.lt_ge_cases (zlen (b :: data)) 8) as [S8|G8].
  - rewrite lidx_panic; [eexists; reflexivity|]. rewrite L. rewrite Z.div_small by (pose proof (zlen_nonneg (b :: data)); lia). lia.
  - destruct (Wd 0%nat ltac:(lia)) as (E & _). rewrite (unfinished_word _ U G8) in E. change (s64 0) with 0 in E.
    rewrite (proj2 (lidx_spec _ 0 0)); [|split; [lia|exact E]]. cbn [bind]. change (0 =? Version) with false. cbn [negb]. eexists. reflexivity.
Qed.

(** ** the worker *)
Lemma location_neg lon lat : exists x, location lon lat = Ok x /\ - 2^63 <= x < 0.
Proof.
  unfold location. destruct (Encode_ok lon (Z.lor lat (-2147483648))) as (x & -> & (R & B)). cbn [bind].
  exists (s64 x). split; [reflexivity|]. pose proof (s64_range x) as S. unfold is_s64 in S.
  pose proof (bit_neg (s64 x) 64 ltac:(lia) ltac:(lia)) as T. change (64 - 1) with 63 in T.
  rewrite s64_bit in T by lia. destruct (B 31 ltac:(lia)) as (_ & T'). change (2 * 31 + 1) with 63 in T'.
  rewrite T', Z.lor_spec in T. change (Z.testbit (-2147483648) 31) with true in T. rewrite orb_true_r in T. lia.
Qed.
Definition loc_of (n : input_node) : Z := match location (in_lon n) (in_lat n) with Ok x => x | _ => 0 end.
Lemma loc_of_ok n : location (in_lon n) (in_lat n) = Ok (loc_of n) /\ - 2^63 <= loc_of n < 0.
Proof. unfold loc_of. destruct (location_neg (in_lon n) (in_lat n)) as (x & -> & H). auto. Qed.
(** one node, on values *)
Definition nstep (s : ni_state) (n : input_node) : ni_state :=
  let '(firstId, lastId, indexBlocks, outputLoc) := s in
  let uid := u64 (in_id n) in
  let '(firstId, lastId, indexBlocks, outputLoc) :=
    if uid =? u64 (lastId + 1) then (firstId, uid, indexBlocks, outputLoc)
    else if uid =? u64 (lastId + 2) then (firstId, uid, indexBlocks, outputLoc ++ [0])
    else (uid, uid, if negb (firstId =? notAssigned) then indexBlocks ++ [(firstId, lastId)] else indexBlocks, outputLoc) in
  (firstId, lastId, indexBlocks, outputLoc ++ [loc_of n]).
Lemma coordinate_ok off gran v : coordinate_fits off gran v -> s32 (Z.quot (s64 (off + s64 (gran * v))) 100) = coordinate off gran v.
Proof. intros (A & B & C). rewrite (s64_id (gran * v)) by exact A. rewrite s64_id by exact B. apply s32_id. exact C. Qed.
Lemma ni_node_step p d s idx id vlat vlon :
  lidx (dn_Lat d) idx = Ok vlat -> lidx (dn_Lon d) idx = Ok vlon ->
  coordinate_fits (pblk_LatOffset p) (pblk_Granularity p) vlat -> coordinate_fits (pblk_LonOffset p) (pblk_Granularity p) vlon ->
  ni_node p d s idx id = Ok (nstep s (mkInput id (coordinate (pblk_LonOffset p) (pblk_Granularity p) vlon) (coordinate (pblk_LatOffset p) (pblk_Granularity p) vlat))).
Proof.
  intros E1 E2 F1 F2. destruct s as [[[f l] bl] out]. unfold ni_node, nstep. cbn [in_id].
  set (n := mkInput id _ _). destruct (loc_of_ok n) as (L & _). cbn [n in_lon in_lat] in L.
  rewrite E1, E2. cbn [bind]. rewrite (coordinate_ok _ _ _ F1), (coordinate_ok _ _ _ F2).
  destruct (u64 id =? u64 (l + 1)); [|destruct (u64 id =? u64 (l + 2))]; cbn [bind]; unfold n in *; cbn [in_lon in_lat in_id] in *; rewrite L; reflexivity.
Qed.
Lemma ni_dense_steps p d : forall ids lats lons s prelat prelon, 
  dn_Lat d = prelat ++ lats -> dn_Lon d = prelon ++ lons -> zlen prelat = zlen prelon ->
  List.length lats = List.length ids -> List.length lons = List.length ids ->
  Forall (coordinate_fits (pblk_LatOffset p) (pblk_Granularity p)) lats ->
  Forall (coordinate_fits (pblk_LonOffset p) (pblk_Granularity p)) lons ->
  ni_dense p d (zlen prelat) ids s = Ok (fold_left nstep (dense_nodes p ids lats lons) s).
Proof.
  induction ids as [|id ids IH]; intros lats lons s pa po Ea Eo Lp La Lo Fa Fo; [reflexivity|].
  destruct lats as [|lat lats]; [discriminate|]. destruct lons as [|lon lons]; [discriminate|]. cbn [ni_dense dense_nodes fold_left].
  rewrite (ni_node_step p d s (zlen pa) id lat lon).
  - cbn [bind]. specialize (IH lats lons (nstep s (mkInput id (coordinate (pblk_LonOffset p) (pblk_Granularity p) lon) (coordinate (pblk_LatOffset p) (pblk_Granularity p) lat))) (pa ++ [lat]) (po ++ [lon])).
    rewrite zlen_app in IH. change (zlen [lat]) with 1 in IH. apply IH.
    + rewrite Ea, <- app_assoc. reflexivity.
    + rewrite Eo, <- app_assoc. reflexivity.
    + rewrite zlen_app, Lp. reflexivity.
    + cbn [List.length] in La. lia.
    + cbn [List.length] in Lo. lia.
    + exact (Forall_inv_tail Fa).
    + exact (Forall_inv_tail Fo).
  - rewrite Ea. apply lidx_app_mid.
  - rewrite Eo, Lp. apply lidx_app_mid.
  - exact (Forall_inv Fa).
  - exact (Forall_inv Fo).
Qed.
Definition nfinish (s : ni_state) : elementBatch :=
  let '(f, l, bl, out) := s in (if negb (f =? notAssigned) then bl ++ [(f, l)] else bl, out).
Lemma ni_batch_steps p : block_sane p ->
  ni_batch p = Ok (nfinish (fold_left nstep (block_nodes p) (notAssigned, notAssigned, [], []))).
Proof.
  intros H. unfold ni_batch.
  assert (G : forall gs s, (forall g, In g gs -> In g (pblk_PrimitiveGroup p)) ->
    foldm (fun s pg => match pg_Dense pg with None => Ok s | Some d => ni_dense p d 0 (dn_Id d) s end) gs s =
    Ok (fold_left nstep (flat_map (fun g => match pg_Dense g with None => [] | Some d => dense_nodes p (dn_Id d) (dn_Lat d) (dn_Lon d) end) gs) s)).
  { induction gs as [|g gs IH]; intros s Hin; [reflexivity|]. cbn [foldm flat_map]. rewrite fold_left_app.
    assert (Hin' : forall x, In x gs -> In x (pblk_PrimitiveGroup p)) by (intros x Hx; apply Hin; right; exact Hx).
    destruct (pg_Dense g) as [d|] eqn:Ed; [|apply IH; exact Hin'].
    destruct (H g d (Hin g (or_introl eq_refl)) Ed) as (La & Lo & Fa & Fo).
    rewrite (ni_dense_steps p d (dn_Id d) (dn_Lat d) (dn_Lon d) s [] [] eq_refl eq_refl eq_refl La Lo Fa Fo : ni_dense p d 0 (dn_Id d) s = _). cbn [bind]. apply IH. exact Hin'. }
  rewrite G by auto. cbn [bind]. unfold block_nodes. destruct (fold_left _ _ _) as [[[f l] bl] out]. reflexivity.
Qed.

(** *** ranges of consecutive ids *)
Definition zrange (f l : Z) : list Z := map (fun i => f + Z.of_nat i) (seq 0 (Z.to_nat (l - f + 1))).
Lemma zrange_snoc f l : f <= l + 1 -> zrange f (l + 1) = zrange f l ++ [l + 1].
Proof.
  intros H. unfold zrange. replace (Z.to_nat (l + 1 - f + 1)) with (S (Z.to_nat (l - f + 1))) by lia.
  rewrite seq_S, map_app. cbn [map Nat.add]. do 2 f_equal. lia.
Qed.
Lemma zrange_one f : zrange f f = [f].
Proof. unfold zrange. replace (f - f + 1) with 1 by lia. change (Z.to_nat 1) with 1%nat. cbn [seq map]. f_equal. lia. Qed.
Lemma zrange_len f l : f <= l + 1 -> zlen (zrange f l) = l - f + 1.
Proof. intros H. unfold zrange, zlen. rewrite map_length, seq_length. lia. Qed.
Lemma zrange_nth f l id : f <= id <= l -> nth_error (zrange f l) (Z.to_nat (id - f)) = Some id.
Proof.
  intros H. unfold zrange. rewrite nth_error_map. rewrite (nth_error_nth' _ 0%nat) by (rewrite seq_length; lia).
  rewrite seq_nth by lia. cbn [option_map]. f_equal. lia.
Qed.
Fixpoint asc_pairs (lo : Z) (R : list (Z * Z)) : Prop :=
  match R with [] => True | (f, l) :: r => lo < f /\ f <= l /\ asc_pairs l r end.
Fixpoint end_of (lo : Z) (R : list (Z * Z)) : Z := match R with [] => lo | (_, l) :: r => end_of l r end.
Lemma asc_pairs_app a : forall lo b, asc_pairs lo (a ++ b) <-> asc_pairs lo a /\ asc_pairs (end_of lo a) b.
Proof. induction a as [|[f l] a IH]; intros lo b; cbn [app asc_pairs end_of]; [tauto|]. rewrite IH. tauto. Qed.
Lemma end_of_app a : forall lo b, end_of lo (a ++ b) = end_of (end_of lo a) b.
Proof. induction a as [|[f l] a IH]; intros lo b; cbn [app end_of]; [reflexivity|]. apply IH. Qed.
Definition spans (V : Z -> Z) (R : list (Z * Z)) : list Z := flat_map (fun p => map V (zrange (fst p) (snd p))) R.
Lemma spans_app V a b : spans V (a ++ b) = spans V a ++ spans V b.
Proof. apply flat_map_app. Qed.
Lemma spans_one V p : spans V [p] = map V (zrange (fst p) (snd p)).
Proof. unfold spans. cbn [flat_map]. apply app_nil_r. Qed.
Definition covered (R : list (Z * Z)) (id : Z) : Prop := exists p, In p R /\ fst p <= id <= snd p.

(** the values at the ids: [V] is the location at the nodes and 0 between them *)
Fixpoint vals (V : Z -> Z) (prev : Z) (ns : list input_node) : Prop :=
  match ns with
  | [] => True
  | n :: r => prev < in_id n /\ (forall j, prev < j < in_id n -> V j = 0) /\ V (in_id n) = loc_of n /\ vals V (in_id n) r
  end.
Definition last_id (prev : Z) (ns : list input_node) : Z := fold_left (fun _ n => in_id n) ns prev.
Lemma vals_app V a : forall prev b, vals V prev (a ++ b) <-> vals V prev a /\ vals V (last_id prev a) b.
Proof. induction a as [|n a IH]; intros prev b; cbn [app vals last_id fold_left]; [tauto|]. rewrite IH. unfold last_id. tauto. Qed.
(** the state after some nodes *)
Definition in_run (V : Z -> Z) (lo : Z) (done : list input_node) (s : ni_state) : Prop :=
  let '(f, l, bl, out) := s in
  asc_pairs lo (bl ++ [(f, l)]) /\ out = spans V (bl ++ [(f, l)]) /\ l = last_id lo done /\ 1 < f /\ l < 2^63 /\
  (forall n, In n done -> covered (bl ++ [(f, l)]) (in_id n)) /\ zlen out <= 2 * zlen done.
Lemma nstep_run V lo done s n : in_run V lo done s -> vals V (last_id lo done) [n] -> in_id n < 2^63 -> in_run V lo (done ++ [n]) (nstep s n).
Proof.
  destruct s as [[[f l] bl] out]. intros (Asc & Out & L & F & B & Cov & Len) (P & Gap & Val & _) Hb. rewrite <- L in *.
  pose proof Asc as Asc0. apply asc_pairs_app in Asc. destruct Asc as (Asc1 & (Lf & Fl & _)).
  unfold nstep. rewrite (u64_id (in_id n)) by (unfold is_u64; lia). rewrite (u64_id (l + 1)), (u64_id (l + 2)) by (unfold is_u64; lia).
  assert (LI : forall x, last_id lo (done ++ [x]) = in_id x) by (intros x; unfold last_id; rewrite fold_left_app; reflexivity).
  assert (ZL : forall x : input_node, zlen (done ++ [x]) = zlen done + 1) by (intros x; rewrite zlen_app; reflexivity).
  assert (ext : forall l', l < l' -> l' = in_id n -> out ++ map V (map (fun i => l + 1 + Z.of_nat i) (seq 0 (Z.to_nat (l' - l)))) = spans V (bl ++ [(f, l')]) ->
     zlen (map V (map (fun i => l + 1 + Z.of_nat i) (seq 0 (Z.to_nat (l' - l))))) <= 2 ->
     in_run V lo (done ++ [n]) (f, l', bl, out ++ map V (map (fun i => l + 1 + Z.of_nat i) (seq 0 (Z.to_nat (l' - l)))))).
  { intros l' Hl' El' E2 E3. unfold in_run. split; [apply asc_pairs_app; split; [exact Asc1|cbn [asc_pairs]; lia]|]. split; [exact E2|]. split; [rewrite LI; exact El'|].
    split; [exact F|]. split; [lia|]. split.
    - intros x Hx. apply in_app_or in Hx. destruct Hx as [Hx|[->|[]]].
      + destruct (Cov x Hx) as (p & Hp & R). apply in_app_or in Hp. destruct Hp as [Hp|[<-|[]]].
        * exists p. split; [apply in_or_app; left; exact Hp|exact R].
        * exists (f, l'). split; [apply in_or_app; right; left; reflexivity|]. cbn [fst snd] in *. lia.
      + exists (f, l'). split; [apply in_or_app; right; left; reflexivity|]. cbn [fst snd]. lia.
    - rewrite zlen_app, ZL. lia. }
  destruct (Z.eqb_spec (in_id n) (l + 1)) as [E|E].
  - cbn match. specialize (ext (in_id n) P eq_refl). rewrite E in ext |- *. replace (Z.to_nat (l + 1 - l)) with 1%nat in ext by lia. cbn [seq map] in ext.
    replace (l + 1 + Z.of_nat 0) with (l + 1) in ext by lia. rewrite <- E in ext |- *. rewrite Val in ext. apply ext.
    + rewrite Out, E, !spans_app, !spans_one. cbn [fst snd]. rewrite zrange_snoc by lia. rewrite map_app, <- app_assoc. cbn [map]. rewrite <- E, Val. reflexivity.
    + unfold zlen. cbn [List.length]. lia.
  - destruct (Z.eqb_spec (in_id n) (l + 2)) as [E'|E'].
    + cbn match. specialize (ext (in_id n) P eq_refl). rewrite E' in ext |- *. replace (Z.to_nat (l + 2 - l)) with 2%nat in ext by lia. cbn [seq map] in ext.
      replace (l + 1 + Z.of_nat 0) with (l + 1) in ext by lia. replace (l + 1 + Z.of_nat 1) with (l + 2) in ext by lia.
      rewrite (Gap (l + 1) ltac:(lia)) in ext. rewrite <- E' in ext |- *. rewrite Val in ext. rewrite <- app_assoc. cbn [app]. apply ext.
      * rewrite Out, !spans_app, !spans_one. cbn [fst snd]. rewrite E'. replace (l + 2) with ((l + 1) + 1) at 1 by lia.
        rewrite zrange_snoc, zrange_snoc by lia. rewrite !map_app, <- !app_assoc. cbn [map app]. rewrite (Gap (l + 1) ltac:(lia)).
        replace (l + 1 + 1) with (in_id n) by lia. rewrite Val. reflexivity.
      * unfold zlen. cbn [List.length]. lia.
    + cbn match. replace (f =? notAssigned) with false by (unfold notAssigned; lia). cbn [negb]. unfold in_run.
      split; [apply asc_pairs_app; split; [exact Asc0|rewrite end_of_app; cbn [asc_pairs end_of]; lia]|].
      split; [rewrite Out, (spans_app V (bl ++ [(f, l)])), spans_one; cbn [fst snd]; rewrite zrange_one; cbn [map]; rewrite Val; reflexivity|].
      split; [symmetry; apply LI|]. split; [lia|]. split; [lia|]. split.
      * intros x Hx. apply in_app_or in Hx. destruct Hx as [Hx|[->|[]]].
        -- destruct (Cov x Hx) as (p & Hp & R). exists p. split; [apply in_or_app; left; exact Hp|exact R].
        -- exists (in_id x, in_id x). split; [apply in_or_app; right; left; reflexivity|]. cbn [fst snd]. lia.
      * rewrite zlen_app, ZL. change (zlen [loc_of n]) with 1. lia.
Qed.
Lemma run_all V lo : forall ns done s, in_run V lo done s -> vals V (last_id lo done) ns -> Forall (fun n => in_id n < 2^63) ns ->
  in_run V lo (done ++ ns) (fold_left nstep ns s).
Proof.
  induction ns as [|n ns IH]; intros done s H Hv Hb; [rewrite app_nil_r; exact H|].
  cbn [fold_left]. change (n :: ns) with ([n] ++ ns) in Hv. apply vals_app in Hv. destruct Hv as (V1 & V2).
  replace (done ++ n :: ns) with ((done ++ [n]) ++ ns) by (rewrite <- app_assoc; reflexivity).
  apply IH; [apply nstep_run; [exact H|exact V1|exact (Forall_inv Hb)]| |exact (Forall_inv_tail Hb)].
  unfold last_id in *. rewrite fold_left_app. exact V2.
Qed.
Lemma batch_spec V lo ns : 1 <= lo -> vals V lo ns -> Forall (fun n => in_id n < 2^63) ns ->
  let '(R, out) := nfinish (fold_left nstep ns (notAssigned, notAssigned, [], [])) in
  asc_pairs lo R /\ end_of lo R = last_id lo ns /\ out = spans V R /\ (forall n, In n ns -> covered R (in_id n)) /\
  zlen out <= 2 * zlen ns /\ (R = [] <-> ns = []) /\ Forall (fun p => snd p < 2^63) R.
Proof.
  intros Hlo Hv Hb. destruct ns as [|n ns].
  - cbn [fold_left nfinish]. change (negb (notAssigned =? notAssigned)) with false. cbn match.
    split; [exact I|]. split; [reflexivity|]. split; [reflexivity|]. split; [intros ? []|]. split; [reflexivity|]. split; [tauto|constructor].
  - cbn [fold_left]. destruct Hv as (P & Gap & Val & Hv). pose proof (Forall_inv Hb) as Bn. cbn beta in Bn.
    assert (R1 : in_run V lo [n] (nstep (notAssigned, notAssigned, [], []) n)).
    { unfold nstep. rewrite (u64_id (in_id n)) by (unfold is_u64; lia).
      change (u64 (notAssigned + 1)) with 0. change (u64 (notAssigned + 2)) with 1. replace (in_id n =? 0) with false by lia. replace (in_id n =? 1) with false by lia.
      change (negb (notAssigned =? notAssigned)) with false. cbn match. cbn [app]. unfold in_run.
      split; [cbn [app asc_pairs]; lia|]. split; [cbn [app]; rewrite spans_one; cbn [fst snd]; rewrite zrange_one; cbn [map]; rewrite Val; reflexivity|].
      split; [reflexivity|]. split; [lia|]. split; [lia|]. split; [|unfold zlen; cbn [List.length]; lia].
      intros x [<-|[]]. exists (in_id n, in_id n). split; [left; reflexivity|]. cbn [fst snd]. lia. }
    pose proof (run_all V lo ns [n] _ R1 Hv (Forall_inv_tail Hb)) as RA.
    destruct (fold_left nstep ns _) as [[[f l] bl] out]. cbn [nfinish]. destruct RA as (Asc & Out & L & F & B & Cov & Len).
    pose proof Asc as Asc0. apply asc_pairs_app in Asc. destruct Asc as (Asc1 & (Lf & Fl & _)).
    replace (f =? notAssigned) with false by (unfold notAssigned; lia). cbn [negb].
    split; [exact Asc0|]. split; [rewrite end_of_app; cbn [end_of]; exact L|]. split; [exact Out|]. split; [exact Cov|]. split; [exact Len|].
    split; [split; [intros E; destruct bl; discriminate|discriminate]|].
    apply Forall_app. split; [|constructor; [exact B|constructor]].
    clear - Asc1 Lf Fl B. revert lo Asc1 Lf. induction bl as [|[a b] bl IH]; intros lo A E; [constructor|]. cbn [asc_pairs end_of] in *.
    constructor; [|apply (IH b); tauto]. cbn [snd].
    assert (G : forall bl b, asc_pairs b bl -> b <= end_of b bl).
    { clear. induction bl as [|[x y] bl IH]; intros b H; cbn [asc_pairs end_of] in *; [lia|]. destruct H as (? & ? & H). specialize (IH y H). lia. }
    specialize (G bl b ltac:(tauto)). lia.
Qed.
