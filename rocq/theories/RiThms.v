(** * RiThms: relation index properties C61-C63. *)
From Verif Require Import Base PbSpec TModel HLModel FrModel ZlModel IoModel IoSpec NiModel RwModel WiModel WiSpec WiThms RiModel RiSpec.
From Verif Require Import BaseLemmas PbModel IoThms WiProofs WiProofs2 RiProofs.
From Verif Require RwThms HLProofs.

(** ** passes *)
Definition in_pass (es : list entry) (shift t1 t2 : Z) (e : entry) : bool :=
  negb (existsb (fun e => t1 <=? position shift e) es) || ((t1 <=? position shift e) && (position shift e <? t2)).
Lemma pass_of_filter es shift t1 t2 : pass_of shift t1 t2 es = filter (in_pass es shift t1 t2) es.
Proof.
  unfold pass_of, in_pass. destruct (existsb _ es); cbn [negb orb]; [reflexivity|]. symmetry. apply filter_all. reflexivity.
Qed.
Definition opt_loc (es : list entry) (L : entry -> list Z) (p : entry -> bool) (id : Z) : option (list Z) :=
  match find (fun e => (e_id e =? id) && p e) es with Some e => Some (L e) | None => None end.
Lemma ids_unique es a b : ascending_by e_id es -> In a es -> In b es -> e_id a = e_id b -> a = b.
Proof.
  intros H A B E. apply In_nth_error in A, B. destruct A as (i & Ei). destruct B as (j & Ej). destruct (Nat.lt_trichotomy i j) as [Lt|[->|Lt]]; [|congruence|].
  - pose proof (H i j a b Lt Ei Ej). lia.
  - pose proof (H j i b a Lt Ej Ei). lia.
Qed.
Lemma find_cases es p id : (exists e, find (fun e => (e_id e =? id) && p e) es = Some e /\ In e es /\ e_id e = id /\ p e = true) \/
  (find (fun e => (e_id e =? id) && p e) es = None /\ forall e, In e es -> e_id e = id -> p e = false).
Proof.
  destruct (find _ es) as [e|] eqn:E.
  - left. exists e. apply find_some in E. split; [reflexivity|]. split; [apply E|]. destruct E as (_ & E). apply andb_prop in E. split; [lia|apply E].
  - right. split; [reflexivity|]. intros e He Ei. pose proof (find_none _ _ E e He) as X. cbn beta in X. rewrite Ei, Z.eqb_refl in X. exact X.
Qed.
Lemma find_ext es p p' id : (forall e, In e es -> p e = p' e) -> find (fun e => (e_id e =? id) && p e) es = find (fun e => (e_id e =? id) && p' e) es.
Proof.
  induction es as [|e es IH]; intros H; [reflexivity|]. cbn [find]. rewrite (H e (or_introl eq_refl)). rewrite IH; [reflexivity|]. intros x Hx. apply H. right. exact Hx.
Qed.
Lemma opt_comb es L p p' id : ascending_by e_id es -> comb (opt_loc es L p) (opt_loc es L p') id = opt_loc es L (fun e => p e || p' e) id.
Proof.
  intros A. unfold comb, opt_loc.
  destruct (find_cases es p id) as [(e & -> & Ie & Ei & Pe)|(-> & N)]; destruct (find_cases es (fun e => p e || p' e) id) as [(e2 & -> & Ie2 & Ei2 & Pe2)|(-> & N2)].
  - rewrite (ids_unique es e e2 A Ie Ie2 ltac:(lia)). reflexivity.
  - specialize (N2 e Ie Ei). cbn beta in N2. rewrite Pe in N2. discriminate.
  - rewrite (N e2 Ie2 Ei2) in Pe2. cbn [orb] in Pe2. destruct (find_cases es p' id) as [(e3 & -> & Ie3 & Ei3 & _)|(_ & N3)].
    + rewrite (ids_unique es e3 e2 A Ie3 Ie2 ltac:(lia)). reflexivity.
    + rewrite (N3 e2 Ie2 Ei2) in Pe2. discriminate.
  - destruct (find_cases es p' id) as [(e3 & -> & Ie3 & Ei3 & Pe3)|(-> & _)]; [|reflexivity]. specialize (N2 e3 Ie3 Ei3). cbn beta in N2. rewrite Pe3, orb_true_r in N2. discriminate.
Qed.
Lemma opt_vals es L p loc shift : zlen loc < 2^63 -> (forall e, In e es -> stored loc (position shift e) (L e)) -> vals_ok (opt_loc es L p).
Proof.
  intros H HL w l E. unfold opt_loc in E. destruct (find_cases es p w) as [(e & X & Ie & _)|(X & _)]; rewrite X in E; [|discriminate]. injection E as <-. exact (stored_ok _ _ _ H (HL e Ie)).
Qed.
Lemma pass_finds es loc shift L p top : way_index_ok es loc shift -> (forall e, In e es -> stored loc (position shift e) (L e)) ->
  (forall e, In e (filter p es) -> e_id e <= top) -> finds (mkSWI (map word_of (filter p es)) loc shift top) (opt_loc es L p).
Proof.
  intros H HL HT id. pose proof (pC57_lookup (filter p es) loc shift L top id 0 (ok_filter p _ _ _ H) ltac:(intros e He; apply filter_In in He; apply HL, He) HT ltac:(lia)) as X.
  pose proof (find_entry_spec (filter p es) id 0) as S. unfold opt_loc. destruct (find_entry (filter p es) id 0) as [[e j]|].
  - destruct S as (_ & S & Ei). apply nth_error_In in S. apply filter_In in S. destruct S as (Ie & Pe). exists j. rewrite X.
    destruct (find_cases es p id) as [(e2 & -> & Ie2 & Ei2 & _)|(_ & N)].
    + rewrite (ids_unique es e2 e); [reflexivity|apply H|assumption..|lia].
    + rewrite (N e Ie Ei) in Pe. discriminate.
  - exists 0. rewrite X. destruct (find_cases es p id) as [(e2 & -> & Ie2 & Ei2 & Pe2)|(-> & _)]; [|reflexivity].
    exfalso. apply (S e2); [apply filter_In; split; assumption|exact Ei2].
Qed.
(** the entries of the first [k] of the passes *)
Fixpoint seen (es : list entry) (shift q : Z) (k : nat) (e : entry) : bool :=
  match k with
  | O => false
  | S k => seen es shift q k e || in_pass es shift (q * Z.of_nat k) (q * (Z.of_nat k + 1)) e
  end.
Lemma seen_spec es shift q loc k e : way_index_ok es loc shift -> In e es -> 1 <= q -> seen es shift q k e = (position shift e <? q * Z.of_nat k).
Proof.
  intros H He Hq. destruct H as (_ & _ & _ & _ & _ & H6). pose proof (proj1 (Forall_forall _ _) H6 e He) as R. cbn beta in R. fold (position shift e) in R.
  induction k as [|k IH]; [cbn; change (Z.of_nat 0) with 0; lia|]. cbn [seen]. rewrite IH. unfold in_pass. replace (q * Z.of_nat (S k)) with (q * (Z.of_nat k + 1)) by lia.
  destruct (existsb _ es) eqn:Ex; cbn [negb orb].
  - destruct (Z.leb_spec (q * Z.of_nat k) (position shift e)); destruct (Z.ltb_spec (position shift e) (q * (Z.of_nat k + 1))); cbn [andb]; nia.
  - pose proof (existsb_false _ _ Ex e He) as F. cbn beta in F. rewrite orb_true_r. symmetry. apply Z.ltb_lt. nia.
Qed.
Lemma words_ext g g' rels : (forall w, g w = g' w) -> words g rels = words g' rels.
Proof. intros H. unfold words. apply flat_map_ext. intros [id ws]. cbn [fst snd]. f_equal. f_equal. apply flat_map_ext. exact H. Qed.
Lemma done_listing es L p rels : words (done (opt_loc es L p)) rels = listing (locations_in es L p) rels.
Proof.
  unfold words, listing. apply flat_map_ext. intros [id ws]. cbn [fst snd]. f_equal. f_equal. apply flat_map_ext. intros w. unfold done, opt_loc, locations_in. destruct (find _ es); reflexivity.
Qed.
Lemma listing_ext f g rels : (forall rel w, In rel rels -> In w (snd rel) -> f w = g w) -> listing f rels = listing g rels.
Proof.
  intros H. unfold listing. induction rels as [|[id ws] rels IH]; [reflexivity|]. cbn [flat_map fst snd]. f_equal; [|apply IH; intros rel w I; apply H; right; exact I].
  f_equal. f_equal. assert (X : forall w, In w ws -> f w = g w) by (intros w; exact (H (id, ws) w (or_introl eq_refl))). clear - X.
  induction ws as [|w ws IH]; [reflexivity|]. cbn [flat_map]. rewrite (X w (or_introl eq_refl)), IH; [reflexivity|]. intros y Hy. apply X. right. exact Hy.
Qed.

Section Passes.
  Context (es : list entry) (loc : list Z) (shift : Z) (L : entry -> list Z) (n : Z).
  Context (H : way_index_ok es loc shift) (HL : forall e, In e es -> stored loc (position shift e) (L e)).
  Context (Hz : exists e, In e es /\ position shift e = 0) (Hn : 1 <= n <= zlen loc) (Hn2 : n < 2^62).
  Let q : Z := zlen loc / n.
  Lemma q_pos : 1 <= q.
  Proof. apply Z.div_le_lower_bound; lia. Qed.
  Lemma pass_step k rels : (Z.of_nat k < n) -> rels_ok rels -> rels <> [] ->
    ri_rewrite (way_index_of es loc shift) (Z.of_nat k) n (SliceAsByteSlice (words (pend (opt_loc es L (seen es shift q k))) rels)) =
    Ok (SliceAsByteSlice (words ((if Z.of_nat (S k) <? n then pend else done) (opt_loc es L (seen es shift q (S k)))) rels)).
  Proof.
    intros Hk Hr Hne. destruct (pC58_pass es loc shift (Z.of_nat k) n H ltac:(lia) ltac:(lia)) as (_ & X). fold q in X.
    destruct X as (top & E & T). { destruct Hz as (z & Iz & Pz). exists z. split; [exact Iz|]. pose proof q_pos. nia. }
    rewrite pass_of_filter in E, T.
    rewrite (ri_rewrite_ok _ _ (Z.of_nat k) n (opt_loc es L (seen es shift q k)) (opt_loc es L (in_pass es shift (q * Z.of_nat k) (q * (Z.of_nat k + 1)))) rels E);
      [|apply pass_finds; assumption|lia|exact Hr|exact Hne|apply (opt_vals es L _ loc shift); [apply H|exact HL]].
    f_equal. f_equal. replace (Z.of_nat (S k)) with (Z.of_nat k + 1) by lia. cbn [seen].
    destruct (Z.of_nat k + 1 <? n); apply words_ext; intros w; unfold pend, done; rewrite opt_comb by apply H; reflexivity.
  Qed.
  Lemma ri_loop_ok output rels : rels_ok rels -> rels <> [] -> forall m k fs, Z.of_nat k + Z.of_nat m = n -> (1 <= m)%nat ->
    fs (makePassFilename output (Z.of_nat k) n) = Some (SliceAsByteSlice (words (pend (opt_loc es L (seen es shift q k))) rels)) ->
    exists fs', ri_loop (way_index_of es loc shift) output n m (Z.of_nat k) fs = Ok fs' /\
      fs' output = Some (SliceAsByteSlice (listing (locations_in es L (fun e => position shift e <? q * n)) rels)) /\
      (forall j, Z.of_nat k <= j < n -> fs' (makePassFilename output j n) = None) /\
      (forall name, name <> output -> (forall j, Z.of_nat k <= j < n -> name <> makePassFilename output j n) -> fs' name = fs name).
  Proof.
    intros Hr Hne. induction m as [|m IH]; intros k fs Hkm Hm Hf; [lia|]. cbn [ri_loop]. rewrite Hf, pass_step by (assumption || lia). cbn [bind].
    replace (Z.of_nat k + 1) with (Z.of_nat (S k)) by lia. destruct (Z.ltb_spec (Z.of_nat (S k)) n) as [Lt|Ge].
    - match goal with |- context [ri_loop _ _ _ m _ ?f] => set (fs1 := f) end.
      destruct (IH (S k) fs1 ltac:(lia) ltac:(lia)) as (fs' & E & O & P & F).
      { unfold fs1, fs_remove_try. rewrite RwThms.fs_set_other by (intros X; apply RwThms.pass_inj in X; lia). apply RwThms.fs_set_same. }
      exists fs'. split; [exact E|]. split; [exact O|]. split.
      + intros j Hj. destruct (Z.eq_dec j (Z.of_nat k)) as [->|Ne]; [|apply P; lia]. rewrite F.
        * unfold fs1, fs_remove_try. apply RwThms.fs_set_same.
        * apply RwThms.pass_output.
        * intros j Hj' X. apply RwThms.pass_inj in X; lia.
      + intros name N1 N2. rewrite F; [|exact N1|intros j Hj; apply N2; lia]. unfold fs1, fs_remove_try. rewrite RwThms.fs_set_other by (apply N2; lia). apply RwThms.fs_set_other. apply N2. lia.
    - assert (m = 0)%nat by lia. subst m. cbn [ri_loop]. eexists. split; [reflexivity|]. unfold fs_remove_try. split; [|split].
      + rewrite RwThms.fs_set_other by (intros X; symmetry in X; exact (RwThms.pass_output _ _ _ X)). rewrite RwThms.fs_set_same. f_equal. f_equal. rewrite done_listing.
        apply listing_ext. intros rel w _ _. unfold locations_in. rewrite (find_ext es _ (fun e => position shift e <? q * n)); [reflexivity|].
        intros e He. rewrite (seen_spec es shift q loc) by (assumption || apply q_pos). f_equal. f_equal. lia.
      + intros j Hj. assert (j = Z.of_nat k) by lia. subst j. apply RwThms.fs_set_same.
      + intros name N1 N2. rewrite RwThms.fs_set_other by (apply N2; lia). apply RwThms.fs_set_other. exact N1.
  Qed.
End Passes.

(** C62, what holds: the relation index made in [n] passes lists, in file order, every relation
    with its ways and their locations, except that ways whose locations start at or after
    n * (length of the locations / n) are listed without locations.  The files of the passes
    are gone, all other files are as they were. *)
Lemma pC62_passes_partial : forall inBlocks rss wayIndex output n fs contents es loc shift L, Forall2 relations_block inBlocks rss -> Forall relation_ok (concat rss) -> concat rss <> [] ->
  way_index_ok es loc shift -> (forall e, In e es -> stored loc (position shift e) (L e)) -> (exists e, In e es /\ position shift e = 0) -> 1 <= n <= zlen loc -> n < 2^62 ->
  fs wayIndex = Some contents -> NewWayIndex contents = Ok (way_index_of es loc shift) -> wayIndex <> makePassFilename output 0 n ->
  exists fs', ri_main inBlocks wayIndex output n fs = Ok fs' /\
    fs' output = Some (SliceAsByteSlice (listing (locations_in es L (fun e => position shift e <? zlen loc / n * n)) (map summary (concat rss)))) /\
    (forall j, 0 <= j < n -> fs' (makePassFilename output j n) = None) /\
    (forall name, name <> output -> (forall j, 0 <= j < n -> name <> makePassFilename output j n) -> fs' name = fs name).
Proof.
  intros inBlocks rss wayIndex output n fs contents es loc shift L F2 Hr Hne H HL Hz Hn Hn2 Hf Ho Hw. unfold ri_main. rewrite (ri_init_ok _ _ F2 Hr). cbn [bind].
  rewrite RwThms.fs_set_other by exact Hw. rewrite Hf, Ho. cbn [bind]. set (rels := map summary (concat rss)).
  assert (Hne' : rels <> []) by (unfold rels; destruct (concat rss); [congruence|discriminate]).
  match goal with |- context [ri_loop _ _ _ _ _ ?f] => set (fs1 := f) end.
  destruct (ri_loop_ok es loc shift L n H HL Hz Hn Hn2 output rels (summary_ok _ Hr) Hne' (Z.to_nat n) 0 fs1 ltac:(lia) ltac:(lia)) as (fs' & E & O & P & F).
  { unfold fs1. change (Z.of_nat 0) with 0. rewrite RwThms.fs_set_same. f_equal. f_equal. apply words_ext. intros w. unfold pend, nothing, opt_loc. cbn [seen].
    destruct (find_cases es (fun _ => false) w) as [(e & _ & _ & _ & C)|(-> & _)]; [discriminate|reflexivity]. }
  change (Z.of_nat 0) with 0 in *. exists fs'. split; [exact E|]. split; [exact O|]. split; [exact P|]. intros name N1 N2. rewrite F by assumption. apply RwThms.fs_set_other. apply N2. lia.
Qed.
(** C61.  With one pass: every relation, in file order, with its id, its number of ways, and for
    each way its id, the number of its locations and the locations the way index has for it
    (none if it has none). *)
Lemma pC61_listing : forall inBlocks rss wayIndex output fs contents es loc shift L, Forall2 relations_block inBlocks rss -> Forall relation_ok (concat rss) -> concat rss <> [] ->
  way_index_ok es loc shift -> (forall e, In e es -> stored loc (position shift e) (L e)) -> es <> [] ->
  fs wayIndex = Some contents -> NewWayIndex contents = Ok (way_index_of es loc shift) -> wayIndex <> makePassFilename output 0 1 ->
  exists fs', ri_main inBlocks wayIndex output 1 fs = Ok fs' /\
    fs' output = Some (SliceAsByteSlice (listing (locations_in es L (fun _ => true)) (map summary (concat rss)))) /\
    fs' (makePassFilename output 0 1) = None /\
    (forall name, name <> output -> name <> makePassFilename output 0 1 -> fs' name = fs name).
Proof.
  intros inBlocks rss wayIndex output fs contents es loc shift L F2 Hr Hne H HL He Hf Ho Hw. unfold ri_main. rewrite (ri_init_ok _ _ F2 Hr). cbn [bind].
  rewrite RwThms.fs_set_other by exact Hw. rewrite Hf, Ho. cbn [bind]. change (Z.to_nat 1) with 1%nat. cbn [ri_loop]. rewrite RwThms.fs_set_same.
  set (rels := map summary (concat rss)). assert (Hne' : rels <> []) by (unfold rels; destruct (concat rss); [congruence|discriminate]).
  assert (FA : filter (fun _ : entry => true) es = es) by (apply filter_all; reflexivity).
  pose proof (whole_pass es loc shift H He) as W. rewrite <- FA in W at 2.
  rewrite (ri_rewrite_ok _ _ 0 1 nothing (opt_loc es L (fun _ => true)) rels W); [|apply pass_finds; [assumption..|]|lia|exact (summary_ok _ Hr)|exact Hne'|intros w l X; discriminate X].
  2:{ intros e Hi. apply filter_In in Hi. apply asc_last; [apply H|apply Hi]. }
  change (0 + 1 <? 1) with false. cbn [bind]. eexists. split; [reflexivity|]. unfold fs_remove_try. split; [|split].
  - rewrite RwThms.fs_set_other by (intros X; symmetry in X; exact (RwThms.pass_output _ _ _ X)). rewrite RwThms.fs_set_same. f_equal. f_equal. rewrite <- done_listing. apply words_ext. reflexivity.
  - apply RwThms.fs_set_same.
  - intros name N1 N2. rewrite RwThms.fs_set_other by exact N2. rewrite RwThms.fs_set_other by exact N1. apply RwThms.fs_set_other. exact N2.
Qed.
Lemma of_ways a ws : 0 <= a <= 62 -> ws <> [] -> Forall (fun w => 0 <= fst w < 2^31 /\ Forall is_s64 (snd w)) ws -> ascending_by fst ws ->
  size_bound a ws <= 2^(33 + a) -> size_bound a ws < 2^62 -> let es := entries_of a 0 ws in let loc := all_bytes a ws in
  way_index_ok es loc a /\ (forall e, In e es -> stored loc (position a e) (way_locs ws (e_id e))) /\ (exists e, In e es /\ position a e = 0) /\
  (forall e, In e es -> position a e + 2^a <= zlen loc) /\ forall id, locations_in es (fun e => way_locs ws (e_id e)) (fun _ => true) id = way_locs ws id.
Proof.
  intros Ha NE Hw Hasc Hs Hb es loc.
  assert (Hi : Forall (fun w => 0 <= fst w < 2^31) ws) by (revert Hw; apply Forall_impl; tauto).
  assert (Ht : Forall (fun w => Forall is_s64 (snd w)) ws) by (revert Hw; apply Forall_impl; tauto).
  pose proof (index_of_ways a ws Ha Hi Hasc Hs Hb) as OK. fold es loc in OK.
  destruct (all_bytes_len a ws ltac:(lia)) as (m & Em & Lm & Sm). pose proof (zpow_pos a ltac:(lia)) as P.
  assert (FU : forall k w, nth_error ws k = Some w -> find (fun x => fst x =? fst w) ws = Some w).
  { intros k x E. destruct (find (fun y => fst y =? fst x) ws) as [y|] eqn:Ef.
    - apply find_some in Ef. destruct Ef as (Iy & Ey). apply Z.eqb_eq in Ey. apply In_nth_error in Iy. destruct Iy as (j & Ej).
      destruct (Nat.lt_trichotomy k j) as [Lt|[->|Lt]]; [|congruence|].
      + pose proof (Hasc k j x y Lt E Ej). lia.
      + pose proof (Hasc j k y x Lt Ej E). lia.
    - exfalso. pose proof (find_none _ _ Ef x (nth_error_In _ _ E)) as X. cbn beta in X. lia. }
  assert (POS : forall k w, nth_error ws k = Some w -> position a (mkEntry (fst w) (0 + zlen (all_bytes a (firstn k ws)) / 2^a)) = zlen (all_bytes a (firstn k ws))).
  { intros k w E. unfold position. cbn [e_off]. rewrite Z.add_0_l. destruct (all_bytes_len a (firstn k ws) ltac:(lia)) as (p & Ep & _). rewrite Ep, Z.div_mul by lia. reflexivity. }
  split; [exact OK|]. split; [|split; [|split]].
  - intros e He. apply In_nth_error in He. destruct He as (k & E). apply entries_nth in E; [|lia]. destruct E as (x & E & ->). rewrite (POS k x E). unfold way_locs. cbn [e_id]. rewrite (FU k x E).
    apply stored_way; [lia|exact Ht|lia|exact E].
  - destruct ws as [|[id refs] ws']; [congruence|]. exists (mkEntry id 0). split; [left; reflexivity|]. reflexivity.
  - intros e He. apply In_nth_error in He. destruct He as (k & E). apply entries_nth in E; [|lia]. destruct E as (x & E & ->). rewrite (POS k x E).
    unfold loc. rewrite (zlen_split a ws k x E), !zlen_app. destruct (way_bytes_len a (snd x) ltac:(lia)) as (j & Ej & Lj & _). rewrite Ej.
    pose proof (zlen_nonneg (all_bytes a (skipn (S k) ws))). nia.
  - intros id. unfold locations_in. destruct (find_cases es (fun _ => true) id) as [(e & -> & _ & <- & _)|(-> & N)]; [reflexivity|].
    unfold way_locs. destruct (find (fun w => fst w =? id) ws) as [x|] eqn:Ef; [|reflexivity]. exfalso. apply find_some in Ef. destruct Ef as (Ix & Ex). apply Z.eqb_eq in Ex.
    assert (I : In id (map e_id es)) by (unfold es; rewrite entries_ids, <- Ex; apply in_map; exact Ix). apply in_map_iff in I. destruct I as (e & Ee & Ie). specialize (N e Ie Ee). discriminate.
Qed.
(** C61 and C62, from the files on: index the ways of a file, then the relations of a file (any),
    in at most 2^a passes.  The relation index lists every relation, in file order, with its id,
    its number of ways, and for each way its id, the number of its locations, and these: what
    is kept of the refs of that way.  The number of passes makes no difference. *)
Lemma pC61_from_files : forall o a wayBlocks wss inBlocks rss wayIndex output n, all_well o -> 0 <= a <= 61 -> Forall2 ways_block wayBlocks wss -> concat wss <> [] ->
  Forall (fun w => 0 <= fst w < 2^31 /\ Forall is_s64 (snd w)) (concat wss) -> ascending_by fst (concat wss) ->
  size_bound a (concat wss) <= 2^(33 + a) -> size_bound a (concat wss) < 2^62 ->
  Forall2 relations_block inBlocks rss -> Forall relation_ok (concat rss) -> concat rss <> [] -> 1 <= n <= 2^a -> wayIndex <> makePassFilename output 0 n ->
  exists w, wi_index o a wayBlocks = (w, Ok tt) /\ forall fs, fs wayIndex = Some (f_data (w_idx w)) ->
  exists fs', ri_main inBlocks wayIndex output n fs = Ok fs' /\
    fs' output = Some (SliceAsByteSlice (listing (way_locs (concat wss)) (map summary (concat rss)))) /\
    (forall j, 0 <= j < n -> fs' (makePassFilename output j n) = None) /\
    (forall name, name <> output -> (forall j, 0 <= j < n -> name <> makePassFilename output j n) -> fs' name = fs name).
Proof.
  intros o a wayBlocks wss inBlocks rss wayIndex output n (W & R & C & NC) Ha F2 NE Hw Hasc Hs Hb R2 Hr Rne Hn Hx.
  assert (Hi : Forall (fun w => 0 <= fst w < 2^31) (concat wss)) by (revert Hw; apply Forall_impl; tauto).
  destruct (indexed o a wayBlocks wss W R C ltac:(lia) F2 Hi Hs Hb) as (w & loc' & E1 & E2 & _ & E3). specialize (E3 NC). subst loc'.
  destruct (of_ways a (concat wss) ltac:(lia) NE Hw Hasc Hs Hb) as (OK & ST & Z0 & PB & LE). cbv zeta in *.
  set (es := entries_of a 0 (concat wss)) in *. set (loc := all_bytes a (concat wss)) in *.
  exists w. split; [exact E1|]. intros fs Hf. pose proof Z0 as (z & Iz & Pz). pose proof (PB z Iz) as Bz.
  assert (2^a <= 2^61) by (apply Z.pow_le_mono_r; lia).
  destruct (pC62_passes_partial inBlocks rss wayIndex output n fs _ es loc a (fun e => way_locs (concat wss) (e_id e)) R2 Hr Rne OK ST Z0 ltac:(lia) ltac:(lia) Hf E2 Hx) as (fs' & M & O & P & F).
  exists fs'. split; [exact M|]. split; [|split; [exact P|exact F]]. rewrite O. f_equal. f_equal. apply listing_ext. intros rel y _ _. rewrite <- LE. unfold locations_in.
  rewrite (find_ext es _ (fun _ => true)); [reflexivity|]. intros e He. pose proof (PB e He). pose proof (Z.div_mod (zlen loc) n ltac:(lia)). pose proof (Z.mod_pos_bound (zlen loc) n ltac:(lia)). lia.
Qed.
(** C62, what holds of any index with aligned locations: at most 2^shift passes give the same as one. *)
Lemma pC62_same_partial : forall inBlocks rss wayIndex output n fs contents es loc shift L, Forall2 relations_block inBlocks rss -> Forall relation_ok (concat rss) -> concat rss <> [] ->
  way_index_ok es loc shift -> (forall e, In e es -> stored loc (position shift e) (L e)) -> (exists e, In e es /\ position shift e = 0) ->
  (forall e, In e es -> position shift e + 2^shift <= zlen loc) -> 1 <= n <= 2^shift -> n < 2^62 ->
  fs wayIndex = Some contents -> NewWayIndex contents = Ok (way_index_of es loc shift) -> wayIndex <> makePassFilename output 0 1 -> wayIndex <> makePassFilename output 0 n ->
  exists fs1 fsn, ri_main inBlocks wayIndex output 1 fs = Ok fs1 /\ ri_main inBlocks wayIndex output n fs = Ok fsn /\ fs1 output = fsn output.
Proof.
  intros inBlocks rss wayIndex output n fs contents es loc shift L F2 Hr Hne H HL Hz HB Hn Hn2 Hf Ho Hw1 Hwn. pose proof Hz as (z & Iz & Pz). pose proof (HB z Iz) as Bz.
  assert (NE : es <> []) by (intros ->; destruct Iz).
  destruct (pC61_listing inBlocks rss wayIndex output fs contents es loc shift L F2 Hr Hne H HL NE Hf Ho Hw1) as (fs1 & M1 & O1 & _).
  destruct (pC62_passes_partial inBlocks rss wayIndex output n fs contents es loc shift L F2 Hr Hne H HL Hz ltac:(lia) Hn2 Hf Ho Hwn) as (fsn & Mn & On & _).
  exists fs1, fsn. split; [exact M1|]. split; [exact Mn|]. rewrite O1, On. f_equal. f_equal. apply listing_ext. intros rel y _ _. unfold locations_in.
  rewrite (find_ext es _ (fun e => position shift e <? zlen loc / n * n)); [reflexivity|]. intros e He. pose proof (HB e He). pose proof (Z.div_mod (zlen loc) n ltac:(lia)). pose proof (Z.mod_pos_bound (zlen loc) n ltac:(lia)). lia.
Qed.

(** ** examples *)
(** a block of relations, not compressed *)
Definition ri_block (index : Z) (rels : list Relation) : zenv * Block :=
  (mkZenv true [] [],
   mkBlk index (match Blob_Write (mkBlob None None None (Some (PrimitiveBlock_Write
       (mkBlock None (Some [[]]) [mkGroup None None None [] (Some rels) []] 100 1000 0 0)))) [] with
           | Ok out => exact out | _ => exact [] end) (bytes_of "OSMData")).
(** members: node 5, way 7, way 6, way 5; none; way 8 *)
Definition ex_ri_blocks := [(mkZenv true [] [], mkBlk 0 (exact [1]) (bytes_of "OSMHeader"));
  ri_block 1 [mkRelation 100 [1] [2] [0; 0; 0; 0] [5; 7; 6; 5] [0; 1; 1; 1]; mkRelation 99 [] [] [] [] []]; wi_block 2 []; ri_block 3 [mkRelation 102 [] [] [0] [8] [1]]].
Definition ex_ri_rels : list (list Relation) :=
  [[]; [mkRelation 100 [1] [2] [0; 0; 0; 0] [5; 7; 6; 5] [0; 1; 1; 1]; mkRelation 99 [] [] [] [] []]; []; [mkRelation 102 [] [] [0] [8] [1]]].
Definition ex_ri_fs (index : list Z) : fsys := fs_set (fun _ => None) (bytes_of "ways") (Some index).
Ltac rblk := right; split; [reflexivity|]; do 3 eexists; split; [vm_compute; reflexivity|]; split; [vm_compute; reflexivity|]; split; [vm_compute; reflexivity|vm_compute; reflexivity].
Lemma ex_ri_blocks_ok : Forall2 relations_block ex_ri_blocks ex_ri_rels.
Proof.
  apply Forall2_cons; [left; split; [discriminate|]; split; [discriminate|reflexivity]|].
  apply Forall2_cons; [rblk|]. apply Forall2_cons; [rblk|]. apply Forall2_cons; [rblk|]. apply Forall2_nil.
Qed.
(** With the ways 5, 7, 8 of C57's example and three passes.  Way 6 is unknown. *)
Lemma pC61_ex : Forall2 ways_block ex_wi_blocks ex_wi_ways /\ Forall2 relations_block ex_ri_blocks ex_ri_rels /\ Forall relation_ok (concat ex_ri_rels) /\
  bytes_of "ways" <> makePassFilename (bytes_of "out") 0 3 /\
  listing (way_locs (concat ex_wi_ways)) (map summary (concat ex_ri_rels)) = [100; 3] ++ [7; 1; -9] ++ [6; 0] ++ [5; 2; 3; 4] ++ [99; 0] ++ [102; 1] ++ [8; 0] /\
  exists w fs', wi_index os_fine 4 ex_wi_blocks = (w, Ok tt) /\ ri_main ex_ri_blocks (bytes_of "ways") (bytes_of "out") 3 (ex_ri_fs (f_data (w_idx w))) = Ok fs' /\
    fs' (bytes_of "out") = Some (SliceAsByteSlice ([100; 3] ++ [7; 1; -9] ++ [6; 0] ++ [5; 2; 3; 4] ++ [99; 0] ++ [102; 1] ++ [8; 0])).
Proof.
  split; [exact (proj1 (proj2 pC57_ex))|]. split; [exact ex_ri_blocks_ok|]. split.
  { cbn [concat ex_ri_rels app]. repeat (apply Forall_cons; [split; [reflexivity|]; split; [vm_compute; reflexivity|]; match goal with |- Forall ?P ?l => let l' := eval vm_compute in l in change (Forall P l') end;
      repeat (apply Forall_cons; [lia|]); apply Forall_nil|]). apply Forall_nil. }
  split; [discriminate|]. split; [vm_compute; reflexivity|]. eexists. eexists. split; [vm_compute; reflexivity|]. split; [cbv [w_idx f_data]; vm_compute; reflexivity|]. vm_compute. reflexivity.
Qed.
(** the index of C58's example: ten ways with 8 bytes of locations each *)
Definition ex_pass_file : list Z := SliceAsByteSlice (zlen ex_pass_es :: 3 :: map word_of ex_pass_es) ++ ex_pass_loc.
Definition ex_ri_one := [ri_block 0 [mkRelation 77 [] [] [0; 0] [10; 2] [1; 1]]].
Lemma pC62_ex : Forall2 relations_block ex_ri_one [[mkRelation 77 [] [] [0; 0] [10; 2] [1; 1]]] /\ relation_ok (mkRelation 77 [] [] [0; 0] [10; 2] [1; 1]) /\
  NewWayIndex ex_pass_file = Ok (way_index_of ex_pass_es ex_pass_loc 3) /\ bytes_of "ways" <> makePassFilename (bytes_of "out") 0 1 /\
  forall n, In n [1; 2; 3; 4; 5; 6; 7; 8] -> exists fs', ri_main ex_ri_one (bytes_of "ways") (bytes_of "out") n (ex_ri_fs ex_pass_file) = Ok fs' /\
    fs' (bytes_of "out") = Some (SliceAsByteSlice ([77; 2] ++ [10; 1; 1] ++ [2; 1; 1])).
Proof.
  split; [apply Forall2_cons; [rblk|apply Forall2_nil]|]. split.
  { split; [reflexivity|]. split; [vm_compute; reflexivity|]. match goal with |- Forall ?P ?l => let l' := eval vm_compute in l in change (Forall P l') end. repeat (apply Forall_cons; [lia|]); apply Forall_nil. }
  split; [vm_compute; reflexivity|]. split; [discriminate|]. intros n Hn. cbn [In] in Hn.
  repeat (destruct Hn as [<-|Hn]; [eexists; split; vm_compute; reflexivity|]). destruct Hn.
Qed.
(** C62 is false of the code: in nine passes over this index, way 10 is listed without locations;
    in 81 passes, more than there are bytes of locations, the run panics; with no passes the
    output is not made and the file of the first step is left. *)
Lemma pC62_passes_refuted :
  (exists fs', ri_main ex_ri_one (bytes_of "ways") (bytes_of "out") 9 (ex_ri_fs ex_pass_file) = Ok fs' /\
     fs' (bytes_of "out") = Some (SliceAsByteSlice ([77; 2] ++ [10; 0] ++ [2; 1; 1]))) /\
  ri_main ex_ri_one (bytes_of "ways") (bytes_of "out") 81 (ex_ri_fs ex_pass_file) = Panic IndexOutOfRange /\
  (exists fs', ri_main ex_ri_one (bytes_of "ways") (bytes_of "out") 0 (ex_ri_fs ex_pass_file) = Ok fs' /\
     fs' (bytes_of "out") = None /\ fs' (bytes_of "out.pass_000_000") = Some (SliceAsByteSlice [77; 2; -10; -2])).
Proof.
  split; [eexists; split; vm_compute; reflexivity|]. split; [vm_compute; reflexivity|]. eexists. split; [vm_compute; reflexivity|]. split; vm_compute; reflexivity.
Qed.
(** C63, for which inputs it holds: at least one relation, way ids positive, as many member types as
    members, a way index with a way, and passes for which C62 finds no panic. *)
Lemma pC63_works_partial : forall inBlocks rss wayIndex output n fs contents es loc shift L, Forall2 relations_block inBlocks rss -> Forall relation_ok (concat rss) -> concat rss <> [] ->
  way_index_ok es loc shift -> (forall e, In e es -> stored loc (position shift e) (L e)) -> (exists e, In e es /\ position shift e = 0) -> 1 <= n <= zlen loc -> n < 2^62 ->
  fs wayIndex = Some contents -> NewWayIndex contents = Ok (way_index_of es loc shift) -> wayIndex <> makePassFilename output 0 n ->
  exists fs', ri_main inBlocks wayIndex output n fs = Ok fs'.
Proof.
  intros inBlocks rss wayIndex output n fs contents es loc shift L F2 Hr Hne H HL Hz Hn Hn2 Hf Ho Hw.
  destruct (pC62_passes_partial inBlocks rss wayIndex output n fs contents es loc shift L F2 Hr Hne H HL Hz Hn Hn2 Hf Ho Hw) as (fs' & E & _). exists fs'. exact E.
Qed.
(** C63 is false of the code: every input without relations makes it panic, whatever the index. *)
Lemma pC63_no_relations_refuted : forall inBlocks rss wayIndex output n fs contents es loc shift, Forall2 relations_block inBlocks rss -> concat rss = [] ->
  way_index_ok es loc shift -> es <> [] -> 1 <= n -> fs wayIndex = Some contents -> NewWayIndex contents = Ok (way_index_of es loc shift) -> wayIndex <> makePassFilename output 0 n ->
  exists p, ri_main inBlocks wayIndex output n fs = Panic p.
Proof.
  intros inBlocks rss wayIndex output n fs contents es loc shift F2 E H He Hn Hf Ho Hw. unfold ri_main. rewrite (ri_init_ok _ _ F2) by (rewrite E; constructor). cbn [bind]. rewrite E. cbn [map words flat_map].
  rewrite RwThms.fs_set_other by exact Hw. rewrite Hf, Ho. cbn [bind]. destruct (Z.to_nat n) as [|m] eqn:Em; [lia|]. cbn [ri_loop]. rewrite RwThms.fs_set_same. unfold ri_rewrite.
  pose proof (sub_pass_ok es loc shift 0 n H Hn ltac:(lia)) as S. cbv zeta in S. rewrite S. destruct (filter _ es); [eexists; reflexivity|]. cbn [bind]. eexists. reflexivity.
Qed.
(** C63 is false of the code: a relation with the ways 0 and 7 makes it panic; of a relation 5 with the way -3 and a
    relation 1 without ways it lists only the first, with a location that way 3 does not have; a
    relation with more members than member types makes it panic. *)
Lemma pC63_ways_refuted :
  ri_main [ri_block 0 [mkRelation 5 [] [] [0; 0] [0; 7] [1; 1]]] (bytes_of "ways") (bytes_of "out") 1 (ex_ri_fs ex_pass_file) = Panic SliceOutOfRange /\
  (exists fs', ri_main [ri_block 0 [mkRelation 5 [] [] [0] [-3] [1]; mkRelation 1 [] [] [] [] []]] (bytes_of "ways") (bytes_of "out") 1 (ex_ri_fs ex_pass_file) = Ok fs' /\
     fs' (bytes_of "out") = Some (SliceAsByteSlice ([5; 1] ++ [3; 1; 0]))) /\
  ri_main [ri_block 0 [mkRelation 5 [] [] [0; 0] [1; 2] [1]]] (bytes_of "ways") (bytes_of "out") 1 (ex_ri_fs ex_pass_file) = Panic IndexOutOfRange.
Proof. split; [vm_compute; reflexivity|]. split; [eexists; split; vm_compute; reflexivity|]. vm_compute. reflexivity. Qed.
