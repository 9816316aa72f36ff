(** * WiThms: the properties of the way index. *)
From Verif Require Import Base PbSpec PbModel TModel HLModel FrModel ZlModel IoModel IoSpec WiModel WiSpec.
From Verif Require Import BaseLemmas PbThms IoThms NiProofs NiProofs3 NiProofs4 NiThms WiProofs WiProofs2.

(** ** C55 *)
(** C55, for ids below 2^31 and offsets below 2^33. *)
Lemma pC55_packing_partial : forall id off, 0 <= id < 2^31 -> 0 <= off < 2^33 ->
  exists d, MakeIndexData id off = Ok d /\ is_u64 d /\ wd_WayID d = id /\ wd_Offset d = off.
Proof.
  intros id off A B. assert (O : entry_ok (mkEntry id off)) by (split; assumption).
  exists (word_of (mkEntry id off)). split; [apply Make_ok; assumption|]. split; [apply word_u64; exact O|]. split; [apply (word_id _ O)|apply (word_off _ O)].
Qed.
(** What is above the limits is rejected. *)
Lemma pC55_rejected : forall id off, 2^31 < id \/ 2^33 < off -> exists p, MakeIndexData id off = Panic p.
Proof.
  intros id off H. unfold MakeIndexData. destruct (Z.ltb_spec (2^31) id); [eexists; reflexivity|].
  destruct (Z.ltb_spec (2^33) off); [eexists; reflexivity|lia].
Qed.
(** C55 is false of the code at the limits and for negative arguments: way 2^31 is stored as
    way 0, offset 2^33 of way 6 as offset 0 of way 7, way -1 as way 2^31 - 1, and offset -1 of
    way 6 as the last offset of way 2^31 - 1. *)
Lemma pC55_limits_refuted : exists a b c d,
  MakeIndexData (2^31) 5 = Ok a /\ wd_WayID a = 0 /\ wd_Offset a = 5 /\
  MakeIndexData 6 (2^33) = Ok b /\ wd_WayID b = 7 /\ wd_Offset b = 0 /\
  MakeIndexData (-1) 5 = Ok c /\ wd_WayID c = 2^31 - 1 /\ wd_Offset c = 5 /\
  MakeIndexData 6 (-1) = Ok d /\ wd_WayID d = 2^31 - 1 /\ wd_Offset d = 2^33 - 1.
Proof. do 4 eexists. repeat (split; [vm_compute; reflexivity|]). vm_compute. reflexivity. Qed.
Lemma pC55_ex : exists d, MakeIndexData (2^31 - 1) (2^33 - 1) = Ok d /\ wd_WayID d = 2^31 - 1 /\ wd_Offset d = 2^33 - 1.
Proof. eexists. repeat (split; [vm_compute; reflexivity|]). vm_compute. reflexivity. Qed.

(** ** C56 *)
Lemma way_bytes_block a refs : 0 <= a -> way_block a refs (way_bytes a refs).
Proof.
  intros Ha. pose proof (zpow_pos a Ha) as P. pose proof (Z.mod_pos_bound (zlen (way_enc refs)) (2^a) P).
  exists (2^a - zlen (way_enc refs) mod 2^a). split; [lia|]. split; [reflexivity|].
  destruct (way_bytes_len a refs Ha) as (k & E & _). rewrite E. apply Z.divide_factor_r.
Qed.
Lemma dirs_nth a : 0 <= a -> forall ws off k w d ds, mapm mk (way_dirs a off ws) = Ok ds -> nth_error ws k = Some w -> nth_error ds k = Some d ->
  MakeIndexData (fst w) (off + zlen (all_bytes a (firstn k ws)) / 2^a) = Ok d.
Proof.
  intros Ha. pose proof (zpow_pos a Ha) as P. induction ws as [|[id refs] ws IH]; intros off k w d ds H E1 E2; [destruct k; discriminate|].
  cbn [way_dirs mapm] in H. destruct (mk (id, off)) as [d0|p|] eqn:Em; try discriminate. cbn [bind] in H.
  destruct (mapm mk _) as [ds0|p|] eqn:Er; try discriminate. cbn [bind] in H. injection H as <-.
  destruct k as [|k].
  - cbn in E1, E2. injection E1 as <-. injection E2 as <-. cbn. rewrite Z.add_0_r. exact Em.
  - cbn [nth_error] in E1, E2. specialize (IH _ k w d ds0 Er E1 E2). cbn [firstn]. rewrite all_bytes_cons, zlen_app. cbn [snd].
    destruct (way_bytes_len a refs Ha) as (x & Ex & _). destruct (all_bytes_len a (firstn k ws) Ha) as (y & Ey & _).
    rewrite Ex, Ey in *. rewrite <- Z.mul_add_distr_r, !Z.div_mul in * by lia. rewrite Z.add_assoc. exact IH.
Qed.
Lemma mapm_length {A B} (f : A -> res B) : forall l out, mapm f l = Ok out -> List.length out = List.length l.
Proof.
  induction l as [|a l IH]; intros out H; cbn [mapm] in H; [injection H as <-; reflexivity|].
  destruct (f a); try discriminate. cbn [bind] in H. destruct (mapm f l); try discriminate. cbn [bind] in H. injection H as <-. cbn [List.length]. f_equal. apply IH. reflexivity.
Qed.
Lemma dirs_len a ws : forall off, List.length (way_dirs a off ws) = List.length ws.
Proof. induction ws as [|[id refs] ws IH]; intros off; [reflexivity|]. cbn [way_dirs List.length]. rewrite IH. reflexivity. Qed.
Lemma firstn_all_bytes a (ws : list (Z * list Z)) k : firstn k (map (fun w => way_bytes a (snd w)) ws) = map (fun w => way_bytes a (snd w)) (firstn k ws).
Proof. revert k. induction ws as [|w ws IH]; intros [|k]; cbn; [reflexivity..|]. rewrite IH. reflexivity. Qed.
(** C56.  The locations the worker makes of a block of ways are one block per way, one after the
    other; each is what is kept of its refs, then 1 to 2^a zero bytes; each length is a
    multiple of 2^a, and the entry of a way points to the start of its block. *)
Lemma pC56_blocks : forall a p ds out, 0 <= a <= 62 -> Forall (fun w => is_s64 (fst w)) (block_ways p) -> wi_batch a p = Ok (ds, out) ->
  exists blocks, Forall2 (fun w b => way_block a (snd w) b) (block_ways p) blocks /\ out = concat blocks /\
    List.length ds = List.length blocks /\
    forall k w d, nth_error (block_ways p) k = Some w -> nth_error ds k = Some d ->
      0 <= fst w < 2^31 -> zlen (concat (firstn k blocks)) < 2^(33 + a) ->
      wd_WayID d = fst w /\ wd_Offset d * 2^a = zlen (concat (firstn k blocks)).
Proof.
  intros a p ds out Ha T H. rewrite (batch_eq a p Ha T) in H. destruct (mapm mk _) as [ds'|q|] eqn:Em; try discriminate. cbn [bind] in H. injection H as <- <-.
  exists (map (fun w => way_bytes a (snd w)) (block_ways p)). split; [|split; [reflexivity|split]].
  - clear - Ha. induction (block_ways p) as [|w ws IH]; cbn [map]; [apply Forall2_nil|apply Forall2_cons; [apply way_bytes_block; lia|exact IH]].
  - rewrite (mapm_length _ _ _ Em), dirs_len, map_length. reflexivity.
  - intros k w d E1 E2 Hw Hb. rewrite firstn_all_bytes in *. change (concat (map _ ?x)) with (all_bytes a x) in *.
    pose proof (dirs_nth a ltac:(lia) _ _ k w d ds' Em E1 E2) as Hd. rewrite Z.add_0_l in Hd. pose proof (zpow_pos a ltac:(lia)) as P.
    destruct (all_bytes_len a (firstn k (block_ways p)) ltac:(lia)) as (y & Ey & Ly & _). rewrite Ey in *. rewrite Z.div_mul in Hd by lia.
    rewrite Z.pow_add_r in Hb by lia. pose proof (zlen_nonneg (firstn k (block_ways p))). assert (0 <= y < 2^33) by nia.
    rewrite Make_ok in Hd by lia. injection Hd as <-. rewrite word_id, word_off by (split; cbn [e_id e_off]; lia). auto.
Qed.
(** C56.  It does not panic if the ids are below 2^31 and the locations are not too large. *)
Lemma pC56_works : forall a p, 0 <= a <= 62 -> Forall (fun w => 0 <= fst w < 2^31) (block_ways p) -> size_bound a (block_ways p) <= 2^(33 + a) ->
  exists ds out, wi_batch a p = Ok (ds, out).
Proof.
  intros a p Ha Hi Hs. rewrite batch_eq; [|exact Ha|apply (Forall_impl _ (P := fun w => 0 <= fst w < 2^31)); [intros w Hw; unfold is_s64; lia|exact Hi]].
  destruct (all_bytes_len a (block_ways p) ltac:(lia)) as (m & Em & Lm & Sm).
  destruct (mk_ok a (block_ways p) ltac:(lia) Hi 0 ltac:(lia) ltac:(lia)) as (-> & _). cbn [bind]. do 2 eexists. reflexivity.
Qed.
Definition ex_wb : PrimitiveBlock := mkBlock None None
  [mkGroup None None (Some [mkWay 5 [] [] [0; 3; 3; 2]; mkWay 9 [] [] []]) [] None []; mkGroup None None None [] None [];
   mkGroup None None (Some [mkWay 12 [] [] [-1; -2; -3]]) [] None []] 100 1000 0 0.
Lemma pC56_ex : Forall (fun w => 0 <= fst w < 2^31) (block_ways ex_wb) /\ size_bound 2 (block_ways ex_wb) <= 2^35 /\
  wi_batch 2 ex_wb = Ok ([5 * 2^33; 9 * 2^33 + 1; 12 * 2^33 + 2], [6; 1; 0; 0] ++ [0; 0; 0; 0] ++ [1; 1; 1; 0] ++ [0; 0; 0; 0]).
Proof.
  split; [repeat (apply Forall_cons; [cbn; lia|]); apply Forall_nil|]. split; [|vm_compute; reflexivity]. vm_compute. discriminate.
Qed.

(** ** C57 *)
(** C57.  A lookup in a well-formed index gives the locations of the entry with that id and its
    number; it fails, keeping the hint, if there is none. *)
Lemma pC57_lookup : forall es loc shift L top id hint, way_index_ok es loc shift -> (forall e, In e es -> stored loc (position shift e) (L e)) ->
  (forall e, In e es -> e_id e <= top) -> 0 <= hint ->
  FindLocations (mkSWI (map word_of es) loc shift top) id hint =
  match find_entry es id 0 with
  | Some (e, i) => Ok (L e, i, true)
  | None => Ok ([], hint, false)
  end.
Proof.
  intros es loc shift L top id hint H HL Ht Hh. destruct (FindLocations_spec es loc shift id H L HL top hint Ht Hh) as (F & N).
  pose proof (find_entry_spec es id 0) as S. destruct (find_entry es id 0) as [[e j]|].
  - destruct S as (A & B & C). rewrite Z.sub_0_r in B. rewrite (F _ e B C). rewrite Z2Nat.id by lia. reflexivity.
  - apply N. exact S.
Qed.

(** the entries of a list of ways *)
Lemma entries_nth a : 0 <= a -> forall ws off k e, nth_error (entries_of a off ws) k = Some e ->
  exists w, nth_error ws k = Some w /\ e = mkEntry (fst w) (off + zlen (all_bytes a (firstn k ws)) / 2^a).
Proof.
  intros Ha. pose proof (zpow_pos a Ha) as P. induction ws as [|[id refs] ws IH]; intros off k e H; cbn [entries_of] in H; [destruct k; discriminate|].
  destruct k as [|k].
  - cbn in H. injection H as <-. exists (id, refs). split; [reflexivity|]. cbn. rewrite Z.add_0_r. reflexivity.
  - cbn [nth_error] in H. destruct (IH _ k e H) as (w & E & ->). exists w. split; [exact E|]. cbn [firstn]. rewrite all_bytes_cons, zlen_app. cbn [snd].
    destruct (way_bytes_len a refs Ha) as (x & Ex & _). destruct (all_bytes_len a (firstn k ws) Ha) as (y & Ey & _).
    rewrite Ex, Ey. rewrite <- Z.mul_add_distr_r, !Z.div_mul by lia. f_equal. lia.
Qed.
Lemma entries_zlen a ws off : zlen (entries_of a off ws) = zlen ws.
Proof. rewrite <- (zlen_map e_id), entries_ids, zlen_map. reflexivity. Qed.
Lemma zlen_split a (ws : list (Z * list Z)) k w : nth_error ws k = Some w -> all_bytes a ws = all_bytes a (firstn k ws) ++ way_bytes a (snd w) ++ all_bytes a (skipn (S k) ws).
Proof.
  intros E. rewrite <- (firstn_skipn k ws) at 1. rewrite all_bytes_app. f_equal.
  assert (X : skipn k ws = w :: skipn (S k) ws) by (clear - E; revert ws E; induction k as [|k IH]; intros [|x ws] E; try discriminate; cbn in *; [congruence|apply IH; exact E]).
  rewrite X. apply all_bytes_cons.
Qed.
Lemma firstn_mono a (ws : list (Z * list Z)) i j : 0 <= a -> (i < j)%nat -> (i < List.length ws)%nat -> zlen (all_bytes a (firstn i ws)) < zlen (all_bytes a (firstn j ws)).
Proof.
  intros Ha L N. replace (firstn j ws) with (firstn i ws ++ firstn (j - i) (skipn i ws)).
  2:{ clear - L. revert ws j L. induction i as [|i IH]; intros ws j L; [rewrite Nat.sub_0_r; reflexivity|]. destruct j as [|j]; [lia|]. destruct ws as [|w ws]; [destruct (S j - S i)%nat; reflexivity|].
      cbn [firstn skipn app]. f_equal. apply (IH ws j). lia. }
  rewrite all_bytes_app, zlen_app. destruct (skipn i ws) as [|w r] eqn:E; [apply (f_equal (@List.length _)) in E; rewrite skipn_length in E; cbn in E; lia|].
  destruct (j - i)%nat as [|m] eqn:Em; [lia|]. cbn [firstn]. rewrite all_bytes_cons, zlen_app.
  destruct (way_bytes_len a (snd w) Ha) as (x & Ex & Lx & _). pose proof (zpow_pos a Ha). pose proof (zlen_nonneg (all_bytes a (firstn m r))). nia.
Qed.
Lemma index_of_ways a ws : 0 <= a <= 62 -> Forall (fun w => 0 <= fst w < 2^31) ws -> ascending_by fst ws -> size_bound a ws <= 2^(33 + a) -> size_bound a ws < 2^62 ->
  way_index_ok (entries_of a 0 ws) (all_bytes a ws) a.
Proof.
  intros Ha Hi Hasc Hs Hb. pose proof (zpow_pos a ltac:(lia)) as P. destruct (all_bytes_len a ws ltac:(lia)) as (m & Em & Lm & Sm).
  destruct (mk_ok a ws ltac:(lia) Hi 0 ltac:(lia) ltac:(lia)) as (_ & F).
  split; [exact F|]. split; [|split; [|split; [exact Ha|split; [lia|]]]].
  - intros i j x y L E1 E2. apply entries_nth in E1, E2; try lia. destruct E1 as (w1 & E1 & ->). destruct E2 as (w2 & E2 & ->). cbn [e_id]. exact (Hasc i j w1 w2 L E1 E2).
  - intros i j x y L E1 E2. apply entries_nth in E1, E2; try lia. destruct E1 as (w1 & E1 & ->). destruct E2 as (w2 & E2 & ->). cbn [e_off]. rewrite !Z.add_0_l.
    assert (N : (i < List.length ws)%nat) by (apply nth_error_Some; congruence).
    pose proof (firstn_mono a ws i j ltac:(lia) L N) as M.
    destruct (all_bytes_len a (firstn i ws) ltac:(lia)) as (p & Ep & _). destruct (all_bytes_len a (firstn j ws) ltac:(lia)) as (q & Eq & _).
    rewrite Ep, Eq in *. rewrite !Z.div_mul by lia. nia.
  - apply Forall_forall. intros e He. apply In_nth_error in He. destruct He as (k & E). apply entries_nth in E; [|lia]. destruct E as (w & E & ->). cbn [e_off]. rewrite Z.add_0_l.
    destruct (all_bytes_len a (firstn k ws) ltac:(lia)) as (p & Ep & Lp & _). rewrite Ep, Z.div_mul by lia. rewrite (zlen_split a ws k w E), !zlen_app, Ep.
    destruct (way_bytes_len a (snd w) ltac:(lia)) as (x & Ex & Lx & _). rewrite Ex. pose proof (zlen_nonneg (all_bytes a (skipn (S k) ws))). pose proof (zlen_nonneg (firstn k ws)). nia.
Qed.
Lemma stored_way a ws k w : 0 <= a -> Forall (fun w => Forall is_s64 (snd w)) ws -> zlen (all_bytes a ws) < 2^63 -> nth_error ws k = Some w ->
  stored (all_bytes a ws) (zlen (all_bytes a (firstn k ws))) (kept 0 (snd w)).
Proof.
  intros Ha T Hl E. rewrite (zlen_split a ws k w E) in *. destruct (way_bytes_len a (snd w) Ha) as (x & Ex & Lx & _). pose proof (zpow_pos a Ha).
  rewrite !zlen_app in Hl. pose proof (zlen_nonneg (all_bytes a (skipn (S k) ws))). pose proof (zlen_nonneg (all_bytes a (firstn k ws))). split.
  - rewrite !zlen_app, Ex. nia.
  - replace (Z.to_nat (zlen (all_bytes a (firstn k ws)))) with (List.length (all_bytes a (firstn k ws))) by (unfold zlen; lia).
    rewrite skipn_app, Nat.sub_diag, skipn_O, skipn_all. cbn [app].
    pose proof (proj1 (Forall_forall _ _) T w (nth_error_In _ _ E)) as Tw. cbn beta in Tw.
    unfold way_bytes, exact. rewrite <- app_assoc. apply pC07_delta_zero_roundtrip.
    + apply kept_Forall. exact Tw.
    + apply Forall_app. split; [apply Forall_forall; intros y Hy; apply repeat_spec in Hy; subst y; unfold is_u8; lia|].
      unfold all_bytes. apply Forall_concat. apply Forall_map. apply Forall_forall. intros y _. apply way_bytes_bytes.
    + fold (way_enc (snd w)). rewrite app_assoc. fold (way_bytes a (snd w)). rewrite zlen_app. lia.
    + apply kept_norepeat.
Qed.

(** the messages of all blocks *)
Lemma msgs_ok a : 0 <= a <= 62 -> forall bs wss, Forall2 ways_block bs wss -> Forall (fun w => 0 <= fst w < 2^31) (concat wss) -> size_bound a (concat wss) <= 2^(33 + a) ->
  exists msgs, mapm (fun b => wi_worker a (fst b) (snd b)) bs = Ok msgs /\ ways_typed msgs /\
    Forall2 batch_as (way_batches msgs) (map (fun ws => (entries_of a 0 ws, all_bytes a ws)) (filter (fun ws => negb (zlen ws =? 0)) wss)).
Proof.
  intros Ha bs wss F2. induction F2 as [|b ws bs wss Hb _ IH]; intros Hi Hs.
  - exists []. split; [reflexivity|]. split; [intros ? []|constructor].
  - cbn [concat] in Hi, Hs. apply Forall_app in Hi. destruct Hi as (Hi1 & Hi2).
    assert (SA : size_bound a (ws ++ concat wss) = size_bound a ws + size_bound a (concat wss)).
    { clear. induction ws as [|w ws IH]; [reflexivity|]. unfold size_bound in *. cbn [app fold_right]. rewrite IH. lia. }
    assert (SN : forall l : list (Z * list Z), 0 <= size_bound a l).
    { clear - Ha. pose proof (zpow_pos a ltac:(lia)). induction l as [|w l IH]; [reflexivity|]. unfold size_bound in *. cbn [fold_right]. pose proof (zlen_nonneg (snd w)). lia. }
    pose proof (SN ws). pose proof (SN (concat wss)).
    destruct (worker_ok a b ws Ha Hb Hi1 ltac:(lia)) as (m & E1 & T1 & B1).
    destruct (IH Hi2 ltac:(lia)) as (msgs & E2 & T2 & B2).
    exists (m :: msgs). cbn [mapm]. rewrite E1. cbn [bind]. rewrite E2. cbn [bind]. split; [reflexivity|]. split.
    + intros x [<-|Hx]; [apply T1; left; reflexivity|apply T2; exact Hx].
    + change (way_batches (m :: msgs)) with (way_batches ([m] ++ msgs)). unfold way_batches in *. rewrite flat_map_app. rewrite B1. destruct ws as [|w ws].
      * cbn [filter]. change (negb (zlen [] =? 0)) with false. cbn match. cbn [app]. exact B2.
      * cbn [filter]. rewrite zlen_cons. pose proof (zlen_nonneg ws). replace (1 + zlen ws =? 0) with false by lia. cbn [negb]. cbn [map app]. constructor; [|exact B2].
        split; [reflexivity|]. split; [|reflexivity]. destruct (all_bytes_len a (w :: ws) ltac:(lia)) as (y & Ey & Ly & Sy).
        destruct (mk_ok a (w :: ws) ltac:(lia) Hi1 0 ltac:(lia) ltac:(lia)) as (_ & F). exact F.
Qed.
Lemma merged_entries a : 0 <= a -> forall wss off, merged a off (map (fun ws => (entries_of a 0 ws, all_bytes a ws)) wss) = entries_of a off (concat wss).
Proof.
  intros Ha. induction wss as [|ws wss IH]; intros off; [reflexivity|]. cbn [map merged concat]. rewrite IH, entries_app by exact Ha. f_equal.
  rewrite entries_shift, Z.add_0_r. reflexivity.
Qed.
Lemma locs_of_all a wss : locs_of (map (fun ws => (entries_of a 0 ws, all_bytes a ws)) wss) = all_bytes a (concat wss).
Proof. unfold locs_of. induction wss as [|ws wss IH]; [reflexivity|]. cbn [map concat snd]. rewrite IH, all_bytes_app. reflexivity. Qed.
Lemma concat_nonempty {A} (l : list (list A)) : concat (filter (fun x => negb (zlen x =? 0)) l) = concat l.
Proof. induction l as [|[|x y] l IH]; cbn [filter concat]; [reflexivity|exact IH|]. rewrite zlen_cons. pose proof (zlen_nonneg y). replace (1 + zlen y =? 0) with false by lia. cbn [negb concat]. rewrite IH. reflexivity. Qed.
Lemma indexed o a bs wss : writes_whole o -> reads_progress o -> calls_succeed o -> 0 <= a <= 62 -> Forall2 ways_block bs wss ->
  Forall (fun w => 0 <= fst w < 2^31) (concat wss) -> size_bound a (concat wss) <= 2^(33 + a) -> size_bound a (concat wss) < 2^62 ->
  exists w loc', wi_index o a bs = (w, Ok tt) /\ NewWayIndex (f_data (w_idx w)) = Ok (way_index_of (entries_of a 0 (concat wss)) loc' a) /\
    prefix loc' (all_bytes a (concat wss)) /\ (never_cancelled o -> loc' = all_bytes a (concat wss)).
Proof.
  intros W R C Ha F2 Hi Hs Hb. destruct (msgs_ok a Ha bs wss F2 Hi Hs) as (msgs & E & T & B).
  set (wss' := filter (fun ws => negb (zlen ws =? 0)) wss) in *.
  assert (CE : concat wss' = concat wss) by apply concat_nonempty.
  pose proof (merged_entries a ltac:(lia) wss' 0) as ME. pose proof (locs_of_all a wss') as LE. rewrite CE in ME, LE.
  destruct (all_bytes_len a (concat wss) ltac:(lia)) as (m & Em & Lm & Sm). pose proof (zpow_pos a ltac:(lia)) as P.
  destruct (mk_ok a (concat wss) ltac:(lia) Hi 0 ltac:(lia) ltac:(lia)) as (_ & F).
  assert (m <= 2^33) by (rewrite Z.pow_add_r in Hs by lia; nia).
  destruct (wi_output_ok o a msgs _ W R C Ha T B) as (w & loc' & E1 & E2 & E3 & E4).
  - rewrite LE. lia.
  - rewrite ME. exact F.
  - rewrite ME, entries_zlen. lia.
  - apply Forall_map. apply Forall_forall. intros ws _. cbn [snd]. destruct (all_bytes_len a ws ltac:(lia)) as (y & -> & _). apply Z.mod_mul. lia.
  - exists w, loc'. unfold wi_index. rewrite E. rewrite ME in E2. rewrite LE in E3, E4. auto.
Qed.
Lemma asc_last {A} (f : A -> Z) l d x : ascending_by f l -> In x l -> f x <= f (last l d).
Proof.
  intros H I. destruct (exists_last (l := l)) as (l' & y & ->); [intros ->; destruct I|]. rewrite last_last. apply in_app_or in I. destruct I as [I|[<-|[]]]; [|lia].
  apply In_nth_error in I. destruct I as (n & E). assert (n < List.length l')%nat by (apply nth_error_Some; congruence).
  pose proof (H n (List.length l') x y ltac:(lia)) as X. rewrite nth_error_app1, nth_error_app2, Nat.sub_diag in X by lia. specialize (X E eq_refl). lia.
Qed.
Lemma whole_pass es loc shift : way_index_ok es loc shift -> es <> [] -> SubIndexWithScaledPass (way_index_of es loc shift) 0 1 = Ok (mkSWI (map word_of es) loc shift (e_id (last es e0))).
Proof.
  intros H N. rewrite sub_pass_ok by (assumption || lia). cbv zeta. rewrite Z.div_1_r. replace (zlen loc * (0 + 1)) with (zlen loc) by lia. rewrite Z.mul_0_r.
  destruct H as (H1 & H2 & H3 & H4 & H5 & H6).
  rewrite filter_all by (intros e He; pose proof (proj1 (Forall_forall _ _) H6 e He) as X; cbn beta in X; unfold position; lia).
  destruct es as [|e es]; [congruence|]. f_equal. f_equal. f_equal. unfold pass_of. destruct (existsb _ _); [|reflexivity].
  apply filter_all. intros x Hx. pose proof (proj1 (Forall_forall _ _) H6 x Hx) as X. cbn beta in X. unfold position. lia.
Qed.
(** C57.  All ways of a file are indexed; the index opens; every way is found with what is
    kept of its refs, whatever the hint, and no other id is found. *)
Lemma pC57_every_way : forall o a inBlocks wss, all_well o -> 0 <= a <= 62 -> Forall2 ways_block inBlocks wss -> concat wss <> [] ->
  Forall (fun w => 0 <= fst w < 2^31 /\ Forall is_s64 (snd w)) (concat wss) -> ascending_by fst (concat wss) ->
  size_bound a (concat wss) <= 2^(33 + a) -> size_bound a (concat wss) < 2^62 ->
  exists w ix si, wi_index o a inBlocks = (w, Ok tt) /\ NewWayIndex (f_data (w_idx w)) = Ok ix /\ SubIndexWithScaledPass ix 0 1 = Ok si /\
    (forall id refs hint, In (id, refs) (concat wss) -> 0 <= hint -> exists h, FindLocations si id hint = Ok (kept 0 refs, h, true)) /\
    (forall id hint, ~ In id (map fst (concat wss)) -> 0 <= hint -> FindLocations si id hint = Ok ([], hint, false)).
Proof.
  intros o a bs wss (W & R & C & NC) Ha F2 NE Hw Hasc Hs Hb.
  assert (Hi : Forall (fun w => 0 <= fst w < 2^31) (concat wss)) by (apply (Forall_impl _ (P := fun w => 0 <= fst w < 2^31 /\ Forall is_s64 (snd w))); [tauto|exact Hw]).
  assert (Ht : Forall (fun w => Forall is_s64 (snd w)) (concat wss)) by (apply (Forall_impl _ (P := fun w => 0 <= fst w < 2^31 /\ Forall is_s64 (snd w))); [tauto|exact Hw]).
  destruct (indexed o a bs wss W R C Ha F2 Hi Hs Hb) as (w & loc' & E1 & E2 & _ & E3). specialize (E3 NC). subst loc'.
  set (ws := concat wss) in *. pose proof (index_of_ways a ws Ha Hi Hasc Hs Hb) as OK. set (es := entries_of a 0 ws) in *.
  assert (NEe : es <> []) by (unfold es; destruct ws as [|[? ?] ?]; [congruence|discriminate]).
  exists w, (way_index_of es (all_bytes a ws) a), (mkSWI (map word_of es) (all_bytes a ws) a (e_id (last es e0))).
  split; [exact E1|]. split; [exact E2|]. split; [apply whole_pass; assumption|].
  destruct (all_bytes_len a ws ltac:(lia)) as (m & Em & Lm & Sm). pose proof (zpow_pos a ltac:(lia)) as P.
  set (L := fun e : entry => match find (fun w => fst w =? e_id e) ws with Some w => kept 0 (snd w) | None => [] end).
  assert (FU : forall k w, nth_error ws k = Some w -> find (fun x => fst x =? fst w) ws = Some w).
  { intros k x E. destruct (find (fun y => fst y =? fst x) ws) as [y|] eqn:Ef.
    - apply find_some in Ef. destruct Ef as (Iy & Ey). apply Z.eqb_eq in Ey. apply In_nth_error in Iy. destruct Iy as (j & Ej).
      destruct (Nat.lt_trichotomy k j) as [Lt|[->|Lt]]; [|congruence|].
      + pose proof (Hasc k j x y Lt E Ej). lia.
      + pose proof (Hasc j k y x Lt Ej E). lia.
    - exfalso. pose proof (find_none _ _ Ef x (nth_error_In _ _ E)) as X. cbn beta in X. lia. }
  assert (HL : forall e, In e es -> stored (all_bytes a ws) (e_off e * 2^a) (L e)).
  { intros e He. apply In_nth_error in He. destruct He as (k & E). apply entries_nth in E; [|lia]. destruct E as (x & E & ->). unfold L. cbn [e_id e_off]. rewrite (FU k x E).
    rewrite Z.add_0_l. destruct (all_bytes_len a (firstn k ws) ltac:(lia)) as (p & Ep & _). rewrite Ep, Z.div_mul by lia. rewrite <- Ep. apply stored_way; [lia|exact Ht|lia|exact E]. }
  assert (TOP : forall e, In e es -> e_id e <= e_id (last es e0)) by (intros e He; apply asc_last; [apply OK|exact He]).
  split.
  - intros id refs hint I Hh. destruct (FindLocations_spec es _ a id OK L HL _ hint TOP Hh) as (F & _).
    apply In_nth_error in I. destruct I as (k & E). 
    assert (K : (k < List.length es)%nat).
    { assert (k < List.length ws)%nat by (apply nth_error_Some; congruence). pose proof (entries_zlen a ws 0) as Z. unfold zlen in Z. fold es in Z. lia. }
    destruct (nth_error es k) as [e|] eqn:Ee; [|apply nth_error_None in Ee; lia].
    pose proof Ee as Ee'. apply entries_nth in Ee'; [|lia]. destruct Ee' as (x & Ex & ->). rewrite E in Ex. injection Ex as <-.
    rewrite (F k _ Ee eq_refl). unfold L. cbn [e_id]. rewrite (FU k _ E). cbn [snd]. eexists. reflexivity.
  - intros id hint Nid Hh. destruct (FindLocations_spec es _ a id OK L HL _ hint TOP Hh) as (_ & N). apply N.
    intros e He E. apply Nid. rewrite <- E. replace (map fst ws) with (map e_id es) by apply entries_ids. apply in_map. exact He.
Qed.
Definition os_fine : os := mkOS (fun _ n => (n, false)) (fun _ => (5, NoErr)) (fun _ => false) (fun _ => false).
(** a block of ways, not compressed *)
Definition wi_block (index : Z) (ways : list Way) : zenv * Block :=
  (mkZenv true [] [],
   mkBlk index (match Blob_Write (mkBlob None None None (Some (PrimitiveBlock_Write
       (mkBlock None (Some [[]]) [mkGroup None None (Some ways) [] None []] 100 1000 0 0)))) [] with
           | Ok out => exact out | _ => exact [] end) (bytes_of "OSMData")).
Definition ex_wi_blocks := [(mkZenv true [] [], mkBlk 0 (exact [1]) (bytes_of "OSMHeader"));
  wi_block 1 [mkWay 5 [1] [2] [3; 3; 4]; mkWay 7 [] [] [0; -9]]; wi_block 2 []; wi_block 3 [mkWay 8 [] [] []]].
Definition ex_wi_ways : list (list (Z * list Z)) := [[]; [(5, [3; 3; 4]); (7, [0; -9])]; []; [(8, [])]].
Lemma ex_wi_input index ways p ws :
  (exists b raw, ReadBlob (blk_Data (snd (wi_block index ways))) Blob0 = Ok b /\ GetRawData (mkZenv true [] []) b = Ok raw /\
     ReadPrimitiveBlock (mkReader true true false true) raw PrimitiveBlock0 = Ok p) -> ws = block_ways p ->
  ways_block (wi_block index ways) ws.
Proof. intros (b & raw & E1 & E2 & E3) ->. right. split; [reflexivity|]. exists b, raw, p. auto. Qed.
Ltac wblk := eapply ex_wi_input; [do 2 eexists; split; [vm_compute; reflexivity|]; split; [vm_compute; reflexivity|]; vm_compute; reflexivity|reflexivity].
Ltac asc_tac := intros ?i ?j ?x ?y ?Lt ?E1 ?E2;
  repeat match goal with
  | E : nth_error _ ?i = Some _ |- _ => destruct i as [|i]; cbn in E; [injection E as <-|]
  | E : None = Some _ |- _ => discriminate E
  | E : nth_error [] ?i = Some _ |- _ => destruct i; discriminate E
  end; cbn; try lia.
Lemma pC57_ex : all_well os_fine /\ Forall2 ways_block ex_wi_blocks ex_wi_ways /\ concat ex_wi_ways = [(5, [3; 3; 4]); (7, [0; -9]); (8, [])] /\
  Forall (fun w => 0 <= fst w < 2^31 /\ Forall is_s64 (snd w)) (concat ex_wi_ways) /\ ascending_by fst (concat ex_wi_ways) /\
  size_bound 4 (concat ex_wi_ways) < 2^37 /\
  exists w ix si, wi_index os_fine 4 ex_wi_blocks = (w, Ok tt) /\ NewWayIndex (f_data (w_idx w)) = Ok ix /\ SubIndexWithScaledPass ix 0 1 = Ok si /\
    FindLocations si 7 0 = Ok ([-9], 1, true) /\ FindLocations si 5 2 = Ok ([3; 4], 0, true) /\ FindLocations si 6 2 = Ok ([], 2, false).
Proof.
  split; [exact os_well_ok|]. split.
  { unfold ex_wi_blocks, ex_wi_ways. apply Forall2_cons; [left; split; [discriminate|]; split; [discriminate|reflexivity]|].
    apply Forall2_cons; [wblk|]. apply Forall2_cons; [wblk|]. apply Forall2_cons; [wblk|]. apply Forall2_nil. }
  split; [reflexivity|]. split; [|split; [|split; [vm_compute; reflexivity|]]].
  - cbn [concat ex_wi_ways app]. repeat (apply Forall_cons; [split; [cbn; lia|cbn [snd]; repeat (apply Forall_cons; [unfold is_s64; lia|]); apply Forall_nil]|]). apply Forall_nil.
  - cbn [concat ex_wi_ways app]. asc_tac.
  - do 3 eexists. split; [vm_compute; reflexivity|]. split; [vm_compute; reflexivity|]. split; [vm_compute; reflexivity|]. split; [vm_compute; reflexivity|]. split; vm_compute; reflexivity.
Qed.

(** ** C58 *)
(** C58.  What pass [k] of [n] contains: the entries that start in the [k]-th of [n] equal parts
    of the locations (all entries if none starts there or later); it panics if no entry starts
    before the end of that part. *)
Lemma pC58_pass : forall es loc shift k n, way_index_ok es loc shift -> 1 <= n -> 0 <= k < n ->
  let q := zlen loc / n in
  ((forall e, In e es -> q * (k + 1) <= position shift e) -> SubIndexWithScaledPass (way_index_of es loc shift) k n = Panic IndexOutOfRange) /\
  ((exists e, In e es /\ position shift e < q * (k + 1)) -> exists top,
    SubIndexWithScaledPass (way_index_of es loc shift) k n = Ok (mkSWI (map word_of (pass_of shift (q * k) (q * (k + 1)) es)) loc shift top) /\
    forall e, In e (pass_of shift (q * k) (q * (k + 1)) es) -> e_id e <= top).
Proof.
  intros es loc shift k n H Hn Hk q. rewrite sub_pass_ok by assumption. cbv zeta. fold q. split.
  - intros N. rewrite filter_none; [reflexivity|]. intros e He. specialize (N e He). lia.
  - intros (e & He & Le). set (lower := filter (fun e => position shift e <? q * (k + 1)) es).
    assert (Il : In e lower) by (apply filter_In; split; [exact He|lia]).
    exists (e_id (last lower e0)). split; [destruct lower; [destruct Il|reflexivity]|].
    intros x Hx. apply asc_last; [apply asc_filter, H|]. apply filter_In. unfold pass_of in Hx. destruct (existsb _ es) eqn:Ex.
    + apply filter_In in Hx. split; [apply Hx|lia].
    + split; [exact Hx|]. pose proof (existsb_false _ _ Ex x Hx) as F. cbn beta in F. assert (0 <= q) by (apply Z.div_pos; [apply zlen_nonneg|lia]). nia.
Qed.
(** C58.  No pass panics unless there are more passes than bytes; and a way is found in some pass exactly if it starts before n * (length / n). *)
Lemma pC58_found_partial : forall es loc shift n L, way_index_ok es loc shift -> (forall e, In e es -> stored loc (position shift e) (L e)) ->
  (exists e, In e es /\ position shift e = 0) -> 1 <= n <= zlen loc ->
  (forall k, 0 <= k < n -> exists si, SubIndexWithScaledPass (way_index_of es loc shift) k n = Ok si) /\
  forall e, In e es ->
    ((exists k si, 0 <= k < n /\ SubIndexWithScaledPass (way_index_of es loc shift) k n = Ok si /\
        forall hint, 0 <= hint -> exists h, FindLocations si (e_id e) hint = Ok (L e, h, true))
     <-> position shift e < zlen loc / n * n).
Proof.
  intros es loc shift n L H HL (z & Iz & Pz) Hn. set (q := zlen loc / n).
  assert (Q : 1 <= q) by (apply Z.div_le_lower_bound; lia).
  assert (PASS : forall k, 0 <= k < n -> exists top, SubIndexWithScaledPass (way_index_of es loc shift) k n = Ok (mkSWI (map word_of (pass_of shift (q * k) (q * (k + 1)) es)) loc shift top) /\
    forall e, In e (pass_of shift (q * k) (q * (k + 1)) es) -> e_id e <= top).
  { intros k Hk. destruct (pC58_pass es loc shift k n H ltac:(lia) Hk) as (_ & X). apply X. exists z. split; [exact Iz|]. fold q. nia. }
  assert (SUB : forall k e, In e (pass_of shift (q * k) (q * (k + 1)) es) -> In e es).
  { intros k e. unfold pass_of. destruct (existsb _ es); [|auto]. intros X. apply filter_In in X. apply X. }
  assert (OKP : forall k, way_index_ok (pass_of shift (q * k) (q * (k + 1)) es) loc shift).
  { intros k. unfold pass_of. destruct (existsb _ es); [apply ok_filter|]; exact H. }
  split; [intros k Hk; destruct (PASS k Hk) as (top & -> & _); eexists; reflexivity|].
  intros e He. pose proof H as (_ & HA & _ & _ & _ & H6). pose proof (proj1 (Forall_forall _ _) H6 e He) as Re. cbn beta in Re. fold (position shift e) in Re. split.
  - intros (k & si & Hk & E & F). destruct (PASS k Hk) as (top & E' & T). rewrite E' in E. injection E as <-.
    destruct (F 0 ltac:(lia)) as (h & Fh). 
    destruct (FindLocations_spec _ loc shift (e_id e) (OKP k) L ltac:(intros x Hx; apply (HL x (SUB k x Hx))) top 0 T ltac:(lia)) as (_ & N).
    destruct (in_dec (fun a b : entry => ltac:(decide equality; apply Z.eq_dec)) e (pass_of shift (q * k) (q * (k + 1)) es)) as [I|I].
    + unfold pass_of in I. destruct (existsb _ es) eqn:Ex.
      * apply filter_In in I. nia.
      * pose proof (existsb_false _ _ Ex e He) as Fe. cbn beta in Fe. nia.
    + exfalso. assert (X : FindLocations (mkSWI (map word_of (pass_of shift (q * k) (q * (k + 1)) es)) loc shift top) (e_id e) 0 = Ok ([], 0, false)).
      { apply N. intros x Hx Ei. apply I. assert (x = e); [|subst; exact Hx]. apply In_nth_error in He. destruct He as (i & Ei'). pose proof (SUB k x Hx) as Ix. apply In_nth_error in Ix. destruct Ix as (j & Ej).
        destruct (Nat.lt_trichotomy i j) as [Lt|[->|Lt]]; [|congruence|].
        - pose proof (HA i j e x Lt Ei' Ej). lia.
        - pose proof (HA j i x e Lt Ej Ei'). lia. }
      rewrite X in Fh. discriminate.
  - intros Lp. assert (Hk : 0 <= position shift e / q < n) by (split; [apply Z.div_pos; lia|apply Z.div_lt_upper_bound; lia]).
    pose proof (Z.div_mod (position shift e) q ltac:(lia)) as DM. pose proof (Z.mod_pos_bound (position shift e) q ltac:(lia)) as MB.
    set (k := position shift e / q) in *. destruct (PASS k Hk) as (top & E & T). exists k. eexists. split; [exact Hk|]. split; [exact E|].
    intros hint Hh. destruct (FindLocations_spec _ loc shift (e_id e) (OKP k) L ltac:(intros x Hx; apply (HL x (SUB k x Hx))) top hint T Hh) as (F & _).
    assert (I : In e (pass_of shift (q * k) (q * (k + 1)) es)).
    { unfold pass_of. destruct (existsb _ es) eqn:Ex.
      - apply filter_In. split; [exact He|]. apply andb_true_intro. split; [apply Z.leb_le; nia|apply Z.ltb_lt; nia].
      - exact He. }
    apply In_nth_error in I. destruct I as (i & Ei). exists (Z.of_nat i). exact (F i e Ei eq_refl).
Qed.
(** C58.  In particular with at most 2^shift passes every way is found in some pass. *)
Lemma pC58_all_found_partial : forall es loc shift n L, way_index_ok es loc shift -> (forall e, In e es -> stored loc (position shift e) (L e)) ->
  (exists e, In e es /\ position shift e = 0) -> (forall e, In e es -> position shift e + 2^shift <= zlen loc) -> 1 <= n <= 2^shift ->
  forall e, In e es -> exists k si, 0 <= k < n /\ SubIndexWithScaledPass (way_index_of es loc shift) k n = Ok si /\
    forall hint, 0 <= hint -> exists h, FindLocations si (e_id e) hint = Ok (L e, h, true).
Proof.
  intros es loc shift n L H HL (z & Iz & Pz) HB Hn e He. pose proof (HB z Iz).
  destruct (pC58_found_partial es loc shift n L H HL (ex_intro _ z (conj Iz Pz)) ltac:(lia)) as (_ & X). apply X; [exact He|].
  pose proof (HB e He). pose proof (Z.div_mod (zlen loc) n ltac:(lia)). pose proof (Z.mod_pos_bound (zlen loc) n ltac:(lia)). lia.
Qed.
(** Ten ways of 8 bytes each. *)
Definition ex_pass_es : list entry := map (fun i => mkEntry (Z.of_nat i + 1) (Z.of_nat i)) (seq 0 10).
Definition ex_pass_loc : list Z := concat (repeat [2; 0; 0; 0; 0; 0; 0; 0] 10).
Definition ex_L (e : entry) : list Z := [1].
Lemma pC58_ex : way_index_ok ex_pass_es ex_pass_loc 3 /\ (forall e, In e ex_pass_es -> stored ex_pass_loc (position 3 e) (ex_L e)) /\
  (exists e, In e ex_pass_es /\ position 3 e = 0) /\ (forall e, In e ex_pass_es -> position 3 e + 2^3 <= zlen ex_pass_loc) /\ zlen ex_pass_loc = 80.
Proof.
  assert (A : forall e, In e ex_pass_es -> exists i, (i < 10)%nat /\ e = mkEntry (Z.of_nat i + 1) (Z.of_nat i)).
  { intros e He. unfold ex_pass_es in He. apply in_map_iff in He. destruct He as (i & <- & Hi). exists i. split; [apply in_seq in Hi; lia|reflexivity]. }
  assert (N : forall i e, nth_error ex_pass_es i = Some e -> e = mkEntry (Z.of_nat i + 1) (Z.of_nat i)).
  { intros i e E. do 10 (destruct i as [|i]; [cbn in E; injection E as <-; reflexivity|]). destruct i; discriminate. }
  split; [|split; [|split; [|split; [|reflexivity]]]].
  - split; [|split; [|split; [|split; [lia|split; [reflexivity|]]]]].
    + apply Forall_forall. intros e He. destruct (A e He) as (i & Hi & ->). split; cbn [e_id e_off]; lia.
    + intros i j x y Lt E1 E2. apply N in E1, E2. subst. cbn [e_id]. lia.
    + intros i j x y Lt E1 E2. apply N in E1, E2. subst. cbn [e_off]. lia.
    + apply Forall_forall. intros e He. destruct (A e He) as (i & Hi & ->). cbn [e_off]. change (zlen ex_pass_loc) with 80. change (2^3) with 8. lia.
  - intros e He. destruct (A e He) as (i & Hi & ->). do 10 (destruct i as [|i]; [split; [vm_compute; split; congruence|vm_compute; reflexivity]|]). lia.
  - exists (mkEntry 1 0). split; [left; reflexivity|reflexivity].
  - intros e He. destruct (A e He) as (i & Hi & ->). unfold position. cbn [e_off]. change (zlen ex_pass_loc) with 80. change (2^3) with 8. lia.
Qed.
(** C58 is false of the code: in nine passes over these ten ways the last one is found in none,
    though no pass panics. *)
Lemma pC58_lost_way_refuted : forall k, 0 <= k < 9 -> exists si, SubIndexWithScaledPass (way_index_of ex_pass_es ex_pass_loc 3) k 9 = Ok si /\
  In (mkEntry 10 9) ex_pass_es /\ FindLocations si 10 0 = Ok ([], 0, false).
Proof.
  intros k Hk. assert (C : k = 0 \/ k = 1 \/ k = 2 \/ k = 3 \/ k = 4 \/ k = 5 \/ k = 6 \/ k = 7 \/ k = 8) by lia.
  repeat (destruct C as [->|C]; [eexists; split; [vm_compute; reflexivity|]; split; [vm_compute; tauto|vm_compute; reflexivity]|]).
  subst k. eexists; split; [vm_compute; reflexivity|]; split; [vm_compute; tauto|vm_compute; reflexivity].
Qed.
(** C58 is false of the code: an index without ways, or with fewer bytes than passes, panics. *)
Lemma pC58_panics_refuted : forall es loc shift k n, way_index_ok es loc shift -> 1 <= n -> 0 <= k < n -> es = [] \/ zlen loc < n ->
  SubIndexWithScaledPass (way_index_of es loc shift) k n = Panic IndexOutOfRange.
Proof.
  intros es loc shift k n H Hn Hk C. destruct (pC58_pass es loc shift k n H Hn Hk) as (X & _). apply X. intros e He.
  destruct C as [->|C]; [destruct He|]. rewrite Z.div_small by (pose proof (zlen_nonneg loc); lia). destruct H as (_ & _ & _ & _ & _ & H6).
  pose proof (proj1 (Forall_forall _ _) H6 e He) as R. cbn beta in R. unfold position. lia.
Qed.

(** ** C59 *)
(** C59.  What the writer writes opens as an index with the same entries, locations and alignment. *)
Lemma pC59_roundtrip : forall o shift msgs bs, all_well o -> 0 <= shift <= 62 -> ways_typed msgs -> Forall2 batch_as (way_batches msgs) bs ->
  Forall (fun b => (2^shift | zlen (snd b))) bs -> Forall entry_ok (merged shift 0 bs) -> zlen (locs_of bs) < 2^62 -> zlen (merged shift 0 bs) < 2^59 ->
  exists w, wi_output o shift msgs w0 = (w, Ok tt) /\
    NewWayIndex (f_data (w_idx w)) = Ok (way_index_of (merged shift 0 bs) (locs_of bs) shift).
Proof.
  intros o shift msgs bs (W & R & C & NC) Hs T B D E L N. pose proof (zpow_pos shift ltac:(lia)) as P.
  destruct (wi_output_ok o shift msgs bs W R C Hs T B L E N) as (w & loc' & E1 & E2 & _ & E3).
  - apply (Forall_impl _ (P := fun b => (2^shift | zlen (snd b)))); [intros b Hb; apply Z.mod_divide; [lia|exact Hb]|exact D].
  - exists w. rewrite (E3 NC) in E2. auto.
Qed.
Definition ex_wi_msgs : list wi_msg := [mkWiMsg 0 (bytes_of "OSMHeader") None;
  mkWiMsg 1 (bytes_of "IndexData") (Some ([5 * 2^33; 7 * 2^33 + 1], [2; 0; 0; 0]));
  mkWiMsg 2 (bytes_of "Filler") (Some ([], [])); mkWiMsg 3 (bytes_of "IndexData") (Some ([8 * 2^33], [4; 0; 0; 0]))].
Definition ex_wi_bs : list (list entry * list Z) := [([mkEntry 5 0; mkEntry 7 1], [2; 0; 0; 0]); ([mkEntry 8 0], [4; 0; 0; 0])].
Lemma pC59_ex : ways_typed ex_wi_msgs /\ Forall2 batch_as (way_batches ex_wi_msgs) ex_wi_bs /\ Forall (fun b => (2^1 | zlen (snd b))) ex_wi_bs /\
  Forall entry_ok (merged 1 0 ex_wi_bs) /\ merged 1 0 ex_wi_bs = [mkEntry 5 0; mkEntry 7 1; mkEntry 8 2] /\ locs_of ex_wi_bs = [2; 0; 0; 0; 4; 0; 0; 0].
Proof.
  split. { intros m Hm E. unfold ex_wi_msgs in Hm. cbn [In] in Hm. destruct Hm as [<-|[<-|[<-|[<-|[]]]]]; cbn; discriminate || (vm_compute in E; discriminate). }
  split. { apply Forall2_cons; [|apply Forall2_cons; [|apply Forall2_nil]]; (split; [reflexivity|split; [|reflexivity]]); cbn [fst]; repeat (apply Forall_cons; [split; cbn [e_id e_off]; lia|]); apply Forall_nil. }
  split. { repeat (apply Forall_cons; [exists 2; reflexivity|]). apply Forall_nil. }
  split; [|split; reflexivity]. change (merged 1 0 ex_wi_bs) with [mkEntry 5 0; mkEntry 7 1; mkEntry 8 2]. repeat (apply Forall_cons; [split; cbn [e_id e_off]; lia|]). apply Forall_nil.
Qed.

(** ** C60 *)
Lemma wi_safe_batches o shift msgs : forall off cnt, safe (wi_write_batches o shift msgs off cnt).
Proof.
  induction msgs as [|m msgs IH]; intros off cnt; cbn [wi_write_batches]; [apply safe_lift|].
  destruct (negb _); [apply IH|]. destruct (wm_Batch m) as [[blocks locations]|]; [|apply safe_lift].
  apply safe_bind; [apply safe_lift|]. intros x. apply safe_bind; [apply safe_idx|]. intros _. apply safe_bind; [apply safe_locw|]. intros _. apply safe_bind; [apply safe_lift|]. intros _. apply IH.
Qed.
Lemma wi_unfinished o shift msgs : unfinished (f_data (w_idx (fst (wi_output_body o shift msgs w0)))).
Proof.
  assert (U0 : unfinished []) by (exists O, []; auto).
  unfold wi_output_body. unfold io_bind at 1. unfold io_call at 1. destruct (os_fail o _); [exact U0|].
  unfold io_bind at 1. unfold io_call at 1. destruct (os_fail o _); [exact U0|]. cbn [w_k w_idx w_loc w0].
  unfold io_bind at 1. unfold idx_WriteSlice at 1. cbn [w_k w_idx w_loc].
  destruct (FWriteSlice_any o 2 (mkFile [] 0) [0; 0] eq_refl) as (k' & f' & r & part & -> & A & D & P & F). cbn [f_data app] in D.
  change (SliceAsByteSlice [0; 0]) with (repeat 0 16) in P, F.
  destruct r as [[]|p|]; [|cbn [fst w_idx]; rewrite D; destruct (prefix_repeat _ _ _ P) as (m & ->); exists m, []; rewrite app_nil_r; auto..].
  assert (Z0 : zero16 (mkW k' f' (mkFile [] 0))).
  { split; cbn [w_idx]; [exact A|]. rewrite D, (F eq_refl). exists []. rewrite app_nil_r. reflexivity. }
  revert Z0. generalize (mkW k' f' (mkFile [] 0)). intros w Hw.
  unfold io_bind at 1. pose proof (wi_safe_batches o shift msgs 0 0 w Hw) as H1.
  destruct (wi_write_batches o shift msgs 0 0 w) as [w1 [n|p|]]; cbn [fst] in H1 |- *; [|apply zero16_unfinished; exact H1..].
  unfold io_bind at 1, io_lift at 1. destruct (shift <? 0); [cbn [fst]; apply zero16_unfinished; exact H1|].
  unfold io_bind at 1. pose proof (safe_rewind o w1 H1) as H2.
  destruct (loc_rewind o w1) as [w2 [u|p|]]; cbn [fst] in H2 |- *; [|apply zero16_unfinished; exact H2..].
  unfold io_bind at 1. pose proof (safe_copy o w2 H2) as H3.
  destruct (io_copy o w2) as [w3 [u3|p|]]; cbn [fst] in H3 |- *; [|apply zero16_unfinished; exact H3..].
  unfold io_bind at 1. pose proof (safe_call o w3 H3) as H4.
  destruct (io_call o w3) as [w4 [u4|p|]]; cbn [fst] in H4 |- *; [|apply zero16_unfinished; exact H4..].
  unfold io_bind at 1. pose proof (safe_call o w4 H4) as H5.
  destruct (io_call o w4) as [w5 [u5|p|]]; cbn [fst] in H5 |- *; [|apply zero16_unfinished; exact H5..].
  apply zero16_unfinished in H5. unfold io_bind at 1. unfold idx_rewind at 1. destruct (os_fail o _); exact H5.
Qed.
Lemma open_zero rest : exists l, NewWayIndex (repeat 0 16 ++ rest) = Ok (mkWI [] l 0).
Proof.
  exists rest. change (repeat 0 16) with (SliceAsByteSlice (zlen (@nil Z) :: 0 :: [])). apply open_way; [lia|reflexivity|constructor].
Qed.
Lemma open_short n : (n < 16)%nat -> exists p, NewWayIndex (repeat 0 n) = Panic p.
Proof. intros H. do 16 (destruct n as [|n]; [eexists; vm_compute; reflexivity|]). lia. Qed.
(** C60, as far as it holds: the file as it is at any point before the final header write is
    refused, or opens as an index without entries from which no sub-index can be made: no
    lookup can be done with it. *)
Lemma pC60_unfinished_partial : forall o shift msgs, let data := f_data (w_idx (fst (wi_output_body o shift msgs w0))) in
  (exists p, NewWayIndex data = Panic p) \/
  (exists ix, NewWayIndex data = Ok ix /\ wi_Ids ix = [] /\ forall k n, exists p, SubIndexWithScaledPass ix k n = Panic p).
Proof.
  intros o shift msgs. pose proof (wi_unfinished o shift msgs) as (n & rest & E & C). cbv zeta. rewrite E.
  assert (OZ : forall rest, exists ix, NewWayIndex (repeat 0 16 ++ rest) = Ok ix /\ wi_Ids ix = [] /\ forall k n, exists p, SubIndexWithScaledPass ix k n = Panic p).
  { intros r. destruct (open_zero r) as (l & X). exists (mkWI [] l 0). split; [exact X|]. split; [reflexivity|]. intros k m. unfold SubIndexWithScaledPass. destruct (m =? 0); [eexists; reflexivity|].
    cbn [wi_Ids wi_Loc wi_Shift first_at bind]. cbn [skipn Z.to_nat first_at bind]. change (zlen []) with 0. unfold lslice at 1. change (zlen []) with 0. cbn [Z.leb andb bind]. eexists. vm_compute. reflexivity. }
  destruct C as [-> | ->].
  - right. apply OZ.
  - rewrite app_nil_r. destruct (Nat.lt_ge_cases n 16) as [Lt|Ge].
    + left. apply open_short. exact Lt.
    + right. replace n with (16 + (n - 16))%nat by lia. rewrite repeat_app. apply OZ.
Qed.
(** C60 is false of the code: a run stopped after all entries and locations were written (its
    copy of the locations fails) leaves a file that opens without an error. *)
Lemma pC60_opens_refuted : let o := mkOS (fun k n => (n, false)) (fun _ => (5, OtherErr)) (fun _ => false) (fun _ => false) in
  exists w p ix, wi_output_body o 1 ex_wi_msgs w0 = (w, Panic p) /\ zlen (f_data (w_idx w)) = 40 /\ zlen (f_data (w_loc w)) = 8 /\
    NewWayIndex (f_data (w_idx w)) = Ok ix /\ wi_Ids ix = [] /\ zlen (wi_Loc ix) = 24.
Proof. do 3 eexists. split; [vm_compute; reflexivity|]. split; [vm_compute; reflexivity|]. split; [vm_compute; reflexivity|]. split; [vm_compute; reflexivity|]. split; vm_compute; reflexivity. Qed.

(** ** C76 *)
(** C76 is false of the code: however the run is cancelled, the file opens as an index with all
    entries, whose locations are an initial part of those it should have. *)
Lemma pC76_cancelled_opens_refuted : forall o shift msgs bs, writes_whole o -> reads_progress o -> calls_succeed o -> 0 <= shift <= 62 -> ways_typed msgs ->
  Forall2 batch_as (way_batches msgs) bs -> Forall (fun b => (2^shift | zlen (snd b))) bs -> Forall entry_ok (merged shift 0 bs) ->
  zlen (locs_of bs) < 2^62 -> zlen (merged shift 0 bs) < 2^59 ->
  exists w loc', wi_output o shift msgs w0 = (w, Ok tt) /\
    NewWayIndex (f_data (w_idx w)) = Ok (way_index_of (merged shift 0 bs) loc' shift) /\ prefix loc' (locs_of bs).
Proof.
  intros o shift msgs bs W R C Hs T B D E L N. pose proof (zpow_pos shift ltac:(lia)) as P.
  destruct (wi_output_ok o shift msgs bs W R C Hs T B L E N) as (w & loc' & E1 & E2 & E3 & _).
  - apply (Forall_impl _ (P := fun b => (2^shift | zlen (snd b)))); [intros b Hb; apply Z.mod_divide; [lia|exact Hb]|exact D].
  - exists w, loc'. auto.
Qed.
(** Cancelled before the first byte is copied: a sub-index panics; cancelled in the middle: the
    last way is in the index, and looking it up panics. *)
Lemma pC76_lookup_panics_refuted :
  (exists w ix, wi_output (mkOS (fun _ n => (n, false)) (fun _ => (5, NoErr)) (fun _ => false) (fun _ => true)) 1 ex_wi_msgs w0 = (w, Ok tt) /\
     NewWayIndex (f_data (w_idx w)) = Ok ix /\ zlen (wi_Ids ix) = 3 /\ wi_Loc ix = [] /\ SubIndexWithScaledPass ix 0 1 = Panic IndexOutOfRange) /\
  (exists w ix, wi_output (mkOS (fun _ n => (n, false)) (fun _ => (3, NoErr)) (fun _ => false) (fun k => (10 <? k)%nat)) 1 ex_wi_msgs w0 = (w, Ok tt) /\
     NewWayIndex (f_data (w_idx w)) = Ok ix /\ zlen (wi_Ids ix) = 3 /\ exists p, FindLocations (mkSWI (wi_Ids ix) (wi_Loc ix) (wi_Shift ix) 8) 8 0 = Panic p).
Proof.
  split.
  - do 2 eexists. split; [vm_compute; reflexivity|]. split; [vm_compute; reflexivity|]. split; [vm_compute; reflexivity|]. split; vm_compute; reflexivity.
  - do 2 eexists. split; [vm_compute; reflexivity|]. split; [vm_compute; reflexivity|]. split; [vm_compute; reflexivity|]. eexists. vm_compute. reflexivity.
Qed.

Lemma sidx_more a q i x : sidx (exact a) i = Ok x -> sidx (exact (a ++ q)) i = Ok x.
Proof.
  unfold sidx, exact, slen. cbn [vis]. destruct ((0 <=? i) && (i <? Z.of_nat (List.length a))) eqn:E; [|discriminate].
  apply andb_true_iff in E. rewrite app_length. replace ((0 <=? i) && (i <? Z.of_nat (List.length a + List.length q))) with true by (symmetry; apply andb_true_iff; lia).
  rewrite app_nth1 by lia. auto.
Qed.
Lemma DecodeVarInt_more a q s r : DecodeVarInt (exact a) s = Ok r -> DecodeVarInt (exact (a ++ q)) s = Ok r.
Proof.
  unfold DecodeVarInt. intros H.
  repeat match type of H with
  | bind (sidx (exact a) ?i) _ = Ok _ =>
      let E := fresh in destruct (sidx (exact a) i) eqn:E; try discriminate H; rewrite (sidx_more _ q _ _ E); cbn [bind] in H |- *; cbv zeta in H |- *
  | (if ?b then _ else _) = Ok _ => destruct b; [exact H|]
  end. exact H.
Qed.
Lemma dz_more a q : forall n st out, loop n (dz_cond (exact a)) (dz_body (exact a)) st = Ok out -> snd out = true ->
  loop n (dz_cond (exact (a ++ q))) (dz_body (exact (a ++ q))) st = Ok out.
Proof.
  induction n as [|n IH]; intros [[[nx l] o] ret] out; cbn [loop].
  - unfold dz_cond at 1 2. unfold slen, exact. cbn [vis]. rewrite app_length. destruct ret; cbn [negb andb]; [intros H _; exact H|].
    destruct (Z.ltb_spec nx (Z.of_nat (List.length a))); [discriminate|]. intros H' S. injection H' as <-. discriminate S.
  - unfold dz_cond at 1 3. unfold slen, exact. cbn [vis]. rewrite app_length. destruct ret; cbn [negb andb]; [intros H _; exact H|].
    destruct (Z.ltb_spec nx (Z.of_nat (List.length a))); [|intros H' S; injection H' as <-; discriminate S].
    replace (nx <? Z.of_nat (List.length a + List.length q)) with true by lia.
    fold (exact a). fold (exact (a ++ q)). intros H' S. destruct (dz_body (exact a) (nx, l, o, false)) as [st'| |] eqn:E; try discriminate H'.
    cbn [bind] in H'.
    assert (E' : dz_body (exact (a ++ q)) (nx, l, o, false) = Ok st').
    { unfold dz_body in E |- *. destruct (DecodeVarInt (exact a) nx) as [[d nx']| |] eqn:D; try discriminate E. rewrite (DecodeVarInt_more _ q _ _ D). exact E. }
    rewrite E'. cbn [bind]. apply IH; assumption.
Qed.
Lemma decode_more a q l : DecodeS64PackedDeltaZero (exact a) = Ok l -> DecodeS64PackedDeltaZero (exact (a ++ q)) = Ok l.
Proof.
  unfold DecodeS64PackedDeltaZero. destruct (loop _ (dz_cond (exact a)) _ _) as [[[[n x] o] ret]| |] eqn:E; try discriminate. cbn [bind]. destruct ret; [|discriminate].
  intros H. injection H as ->. apply (dz_more a q) in E; [|reflexivity]. cbn [vis exact] in *.
  rewrite (loop_more _ _ _ (S (List.length (a ++ q))) _ _ E); [reflexivity|discriminate|rewrite app_length; lia].
Qed.
(** A lookup that finds something found it at an entry with that id. *)
Lemma found_entry si id hint locs h : FindLocations si id hint = Ok (locs, h, true) ->
  exists d, In d (sw_Ids si) /\ wd_WayID d = id /\ way_locations si d = Ok locs.
Proof.
  unfold FindLocations. destruct (sw_Top si <? id); [discriminate|]. cbv zeta.
  assert (S : forall lo up, (lo <- way_search (sw_Ids si) id lo up ;;
      if zlen (sw_Ids si) <=? lo then Ok ([], hint, false)
      else d <- lidx (sw_Ids si) lo ;;
        if negb (wd_WayID d =? id) then Ok ([], hint, false)
        else locs <- way_locations si d ;; Ok (locs, lo, true)) = Ok (locs, h, true) ->
    exists d, In d (sw_Ids si) /\ wd_WayID d = id /\ way_locations si d = Ok locs).
  { intros lo up. destruct (way_search (sw_Ids si) id lo up) as [k| |]; try discriminate. cbn [bind].
    destruct (zlen (sw_Ids si) <=? k); [discriminate|]. destruct (lidx (sw_Ids si) k) as [e| |] eqn:E; try discriminate. cbn [bind].
    destruct (Z.eqb_spec (wd_WayID e) id) as [W|W]; cbn [negb]; [|discriminate].
    destruct (way_locations si e) as [l| |] eqn:L; try discriminate. cbn [bind]. intros H. injection H as -> _.
    exists e. split; [|split; assumption]. apply (proj1 (lidx_spec _ _ _)) in E. destruct E as (_ & E). exact (nth_error_In _ _ E). }
  destruct (hint <? zlen (sw_Ids si)); [|apply S]. destruct (lidx (sw_Ids si) hint) as [e| |] eqn:E; try discriminate. cbn [bind].
  destruct (id <? wd_WayID e); [apply S|]. destruct (Z.eqb_spec id (wd_WayID e)) as [W|W]; [|apply S].
  destruct (way_locations si e) as [l| |] eqn:L; try discriminate. cbn [bind]. intros H. injection H as -> _.
  exists e. split; [|split; [congruence|assumption]]. apply (proj1 (lidx_spec _ _ _)) in E. destruct E as (_ & E). exact (nth_error_In _ _ E).
Qed.
Lemma way_sub_means ix k n si : SubIndexWithScaledPass ix k n = Ok si -> incl (sw_Ids si) (wi_Ids ix) /\ sw_Loc si = wi_Loc ix /\ sw_Shift si = wi_Shift ix.
Proof.
  unfold SubIndexWithScaledPass. destruct (n =? 0); [discriminate|]. cbv zeta.
  destruct (first_at (wi_Ids ix) _ _ _ _) as [a| |]; try discriminate. cbn [bind].
  destruct (first_at (skipn _ _) _ _ _ _) as [b| |]; try discriminate. cbn [bind]. unfold lslice. destruct (_ && _); [|discriminate]. cbn [bind].
  destruct (lidx (wi_Ids ix) (b - 1)) as [x| |]; try discriminate. cbn [bind]. intros H. injection H as <-. cbn [sw_Ids sw_Loc sw_Shift].
  split; [|split; reflexivity]. intros e He.
  rewrite <- (firstn_skipn (Z.to_nat a) (wi_Ids ix)). apply in_or_app. right. rewrite <- (firstn_skipn (Z.to_nat (b - a)) (skipn (Z.to_nat a) (wi_Ids ix))). apply in_or_app. left. exact He.
Qed.
(** C76, what holds instead: however the run is cancelled, an index made from an input as in
    C57 never gives wrong locations: what a lookup finds in any pass is what is kept of
    the refs of the way with that id.  (It may miss ways, or panic.) *)
Lemma pC76_never_wrong_partial : forall o a inBlocks wss, writes_whole o -> reads_progress o -> calls_succeed o -> 0 <= a <= 62 -> Forall2 ways_block inBlocks wss ->
  Forall (fun w => 0 <= fst w < 2^31 /\ Forall is_s64 (snd w)) (concat wss) -> ascending_by fst (concat wss) ->
  size_bound a (concat wss) <= 2^(33 + a) -> size_bound a (concat wss) < 2^62 ->
  exists w ix, wi_index o a inBlocks = (w, Ok tt) /\ NewWayIndex (f_data (w_idx w)) = Ok ix /\
    forall pass count si id hint locs h, SubIndexWithScaledPass ix pass count = Ok si -> FindLocations si id hint = Ok (locs, h, true) ->
      exists refs, In (id, refs) (concat wss) /\ locs = kept 0 refs.
Proof.
  intros o a bs wss W R C Ha F2 Hw Hasc Hs Hb.
  assert (Hi : Forall (fun w => 0 <= fst w < 2^31) (concat wss)) by (apply (Forall_impl _ (P := fun w => 0 <= fst w < 2^31 /\ Forall is_s64 (snd w))); [tauto|exact Hw]).
  assert (Ht : Forall (fun w => Forall is_s64 (snd w)) (concat wss)) by (apply (Forall_impl _ (P := fun w => 0 <= fst w < 2^31 /\ Forall is_s64 (snd w))); [tauto|exact Hw]).
  destruct (indexed o a bs wss W R C Ha F2 Hi Hs Hb) as (w & loc' & E1 & E2 & Pre & _).
  set (ws := concat wss) in *. pose proof (index_of_ways a ws Ha Hi Hasc Hs Hb) as OK. set (es := entries_of a 0 ws) in *.
  exists w, (way_index_of es loc' a). split; [exact E1|]. split; [exact E2|].
  intros pass count si id hint locs h Es Ef. destruct (way_sub_means _ _ _ _ Es) as (Inc & El & Esh). cbn [way_index_of wi_Ids wi_Loc wi_Shift] in Inc, El, Esh.
  destruct (found_entry _ _ _ _ _ Ef) as (d & Hd & Eid & Eloc). apply Inc in Hd. apply in_map_iff in Hd. destruct Hd as (e & <- & He).
  pose proof OK as (O1 & _ & _ & _ & O5 & O6). pose proof (proj1 (Forall_forall _ _) O1 e He) as Oe. pose proof (proj1 (Forall_forall _ _) O6 e He) as Re. cbn beta in Re.
  rewrite word_id in Eid by exact Oe.
  pose proof He as He'. apply In_nth_error in He'. destruct He' as (k & Ek). apply entries_nth in Ek; [|lia]. destruct Ek as ([id' refs] & Ew & ->).
  cbn [e_id e_off fst] in *. rewrite Z.add_0_l in *. subst id'. exists refs. split; [exact (nth_error_In _ _ Ew)|].
  pose proof (stored_way a ws k (id, refs) ltac:(lia) Ht ltac:(lia) Ew) as (_ & Sd). cbn [snd] in Sd.
  unfold way_locations in Eloc. rewrite word_off in Eloc by exact Oe. cbn [e_off] in Eloc. rewrite Esh, El in Eloc.
  pose proof (zpow_pos a ltac:(lia)) as Pw. destruct (all_bytes_len a (firstn k ws) ltac:(lia)) as (p & Ep & _).
  rewrite Ep, Z.div_mul in Re, Eloc by lia. rewrite Ep in Sd. rewrite go_shl_ok in Eloc by lia. cbn [bind] in Eloc.
  unfold sslice, exact in Eloc. replace (scap (mkslice loc' [])) with (zlen loc') in Eloc by (unfold scap, slen, zlen; cbn [vis ext List.length]; lia). cbn [vis ext] in Eloc. rewrite app_nil_r in Eloc.
  destruct ((0 <=? p * 2 ^ a) && (p * 2 ^ a <=? zlen loc') && (zlen loc' <=? zlen loc')) eqn:G; [|discriminate]. cbn [bind] in Eloc.
  apply andb_true_iff in G. destruct G as (G & _). apply andb_true_iff in G.
  rewrite firstn_all2 in Eloc by (rewrite skipn_length; unfold zlen; lia). rewrite (skipn_all2 (n := Z.to_nat (zlen loc'))) in Eloc by (unfold zlen; lia).
  destruct Pre as (q & Eq). apply (decode_more _ q) in Eloc. rewrite Eq in Sd. rewrite skipn_app in Sd.
  replace (Z.to_nat (p * 2 ^ a) - List.length loc')%nat with 0%nat in Sd by (unfold zlen in G; lia). cbn [skipn] in Sd. unfold exact in Eloc, Sd. rewrite Sd in Eloc. congruence.
Qed.

(** Cancelled after 20 of 48 bytes: way 5 is found as it should, way 8 is not found. *)
Lemma pC76_never_wrong_ex : let o := mkOS (fun _ n => (n, false)) (fun _ => (20, NoErr)) (fun _ => false) (fun k => (9 <? k)%nat) in
  writes_whole o /\ reads_progress o /\ calls_succeed o /\
  exists w ix si, wi_index o 4 ex_wi_blocks = (w, Ok tt) /\ NewWayIndex (f_data (w_idx w)) = Ok ix /\ zlen (wi_Loc ix) = 20 /\ SubIndexWithScaledPass ix 0 1 = Ok si /\
    FindLocations si 5 0 = Ok ([3; 4], 0, true) /\ FindLocations si 8 0 = Ok ([], 0, false).
Proof.
  intros o. split; [intros k n; reflexivity|]. split; [intros k; split; [cbn; lia|discriminate]|]. split; [intros k; reflexivity|].
  do 3 eexists. split; [vm_compute; reflexivity|]. split; [vm_compute; reflexivity|]. split; [vm_compute; reflexivity|]. split; [vm_compute; reflexivity|].
  split; vm_compute; reflexivity.
Qed.

(** ** C77 *)
(** C77.  The dump of an index prints for every way, in order, its locations, and finds the same by searching. *)
Lemma pC77_dump : forall es loc shift L, way_index_ok es loc shift -> es <> [] -> (forall e, In e es -> stored loc (position shift e) (L e)) ->
  exists si, SubIndexWithScaledPass (way_index_of es loc shift) 0 1 = Ok si /\
    dump_ways (way_index_of es loc shift) si = Ok (map (fun e => (e_id e, L e, Some (L e))) es).
Proof.
  intros es loc shift L H N HL. eexists. split; [apply whole_pass; assumption|]. unfold dump_ways, way_index_of. cbn [wi_Ids wi_Loc wi_Shift].
  set (si := mkSWI (map word_of es) loc shift (e_id (last es e0))).
  assert (G : forall l, incl l es -> mapm (fun d => locs <- way_locations (mkSWI (map word_of es) loc shift 0) d ;; '(found, _, ok) <- FindLocations si (wd_WayID d) 0 ;;
    Ok (wd_WayID d, locs, if (ok : bool) then Some found else None)) (map word_of l) = Ok (map (fun e => (e_id e, L e, Some (L e))) l)).
  { induction l as [|e l IH]; intros I; [reflexivity|]. cbn [map mapm]. assert (Ie : In e es) by (apply I; left; reflexivity).
    rewrite (wfetch es loc shift H L HL 0 e Ie). cbn [bind]. rewrite word_id by exact (proj1 (Forall_forall _ _) (proj1 H) e Ie).
    destruct (FindLocations_spec es loc shift (e_id e) H L HL (e_id (last es e0)) 0 ltac:(intros x Hx; apply asc_last; [apply H|exact Hx]) ltac:(lia)) as (F & _).
    pose proof Ie as Ik. apply In_nth_error in Ik. destruct Ik as (k & Ek). unfold si. rewrite (F k e Ek eq_refl). cbn [bind].
    fold si. rewrite IH by (intros x Hx; apply I; right; exact Hx). reflexivity. }
  apply G. intros x Hx. exact Hx.
Qed.
Lemma pC77_ex : way_index_ok ex_pass_es ex_pass_loc 3 /\ ex_pass_es <> [] /\ (forall e, In e ex_pass_es -> stored ex_pass_loc (position 3 e) (ex_L e)) /\
  exists si, SubIndexWithScaledPass (way_index_of ex_pass_es ex_pass_loc 3) 2 9 = Ok si /\
  exists l, dump_ways (way_index_of ex_pass_es ex_pass_loc 3) si = Ok ((1, [1], None) :: l).
Proof.
  destruct pC58_ex as (A & B & _). split; [exact A|]. split; [discriminate|]. split; [exact B|]. eexists. split; [vm_compute; reflexivity|]. eexists. vm_compute. reflexivity.
Qed.
