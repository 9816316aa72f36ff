(** * XrThms: C62 exactly. *)
From Verif Require Import Base PbSpec TModel HLModel FrModel ZlModel IoModel IoSpec NiModel RwModel WiModel WiSpec WiThms RiModel RiSpec RiThms.
From Verif Require Import BaseLemmas IoThms.

Lemma way_part_len (f g : Z -> list Z) ws : (forall w, In w ws -> f w = g w \/ f w = []) ->
  let part (h : Z -> list Z) := flat_map (fun w => w :: zlen (h w) :: h w) ws in
  (List.length (part f) <= List.length (part g))%nat /\
  (List.length (part f) = List.length (part g) -> forall w, In w ws -> f w = g w).
Proof.
  induction ws as [|w ws IH]; intros H part.
  - split; [apply Nat.le_refl|intros _ w []].
  - destruct (IH (fun v Hv => H v (or_intror Hv))) as (A & B). cbv zeta in A, B. unfold part. cbn [flat_map]. rewrite !app_length. cbn [List.length].
    destruct (H w (or_introl eq_refl)) as [E|E].
    + rewrite E. split; [lia|]. intros X v [<-|Hv]; [exact E|apply B; [lia|exact Hv]].
    + rewrite E. cbn [List.length]. split; [lia|]. intros X v [<-|Hv]; [|apply B; [lia|exact Hv]].
      assert (Z0 : List.length (g w) = 0%nat) by lia. destruct (g w); [exact E|discriminate Z0].
Qed.
Lemma listing_len (f g : Z -> list Z) rels : (forall r w, In r rels -> In w (snd r) -> f w = g w \/ f w = []) ->
  (List.length (listing f rels) <= List.length (listing g rels))%nat /\
  (List.length (listing f rels) = List.length (listing g rels) -> forall r w, In r rels -> In w (snd r) -> f w = g w).
Proof.
  induction rels as [|r rels IH]; intros H.
  - split; [apply Nat.le_refl|intros _ r w []].
  - destruct (IH (fun r' w Hr Hw => H r' w (or_intror Hr) Hw)) as (A & B).
    destruct (way_part_len f g (snd r) (fun w Hw => H r w (or_introl eq_refl) Hw)) as (C & D). cbv zeta in C, D.
    unfold listing in *. cbn [flat_map]. rewrite !app_length. cbn [List.length]. split; [lia|].
    intros X r' w [<-|Hr] Hw; [apply D; [lia|exact Hw]|apply (B ltac:(lia) r'); assumption].
Qed.
Lemma listing_ext (f g : Z -> list Z) rels : (forall r w, In r rels -> In w (snd r) -> f w = g w) -> listing f rels = listing g rels.
Proof.
  intros H. induction rels as [|r rels IH]; [reflexivity|]. unfold listing in *. cbn [flat_map]. f_equal.
  - f_equal. f_equal. assert (X : forall w, In w (snd r) -> f w = g w) by (intros w Hw; apply (H r); [left; reflexivity|exact Hw]). clear -X.
    induction (snd r) as [|w ws IH]; [reflexivity|]. cbn [flat_map]. rewrite (X w (or_introl eq_refl)). f_equal. apply IH. intros v Hv. apply X. right. exact Hv.
  - apply IH. intros r' w Hr Hw. apply (H r'); [right; exact Hr|exact Hw].
Qed.
Lemma in_index es L p id : ascending_by e_id es ->
  (forall e, In e es -> e_id e = id -> locations_in es L p id = (if p e then L e else [])) /\
  ((forall e, In e es -> e_id e <> id) -> locations_in es L p id = []).
Proof.
  intros A. unfold locations_in. split.
  - intros e He Ei. destruct (find _ es) as [e'|] eqn:F.
    + apply find_some in F as (H1 & H2). apply andb_prop in H2 as (H2 & H3). apply Z.eqb_eq in H2.
      assert (e' = e) by (apply (ids_unique es); [exact A|exact H1|exact He|lia]). subst e'. rewrite H3. reflexivity.
    + pose proof (find_none _ _ F e He) as N. cbn beta in N. rewrite Ei, Z.eqb_refl in N. cbn [andb] in N. rewrite N. reflexivity.
  - intros N. destruct (find _ es) as [e'|] eqn:F; [|reflexivity]. apply find_some in F as (H1 & H2). apply andb_prop in H2 as (H2 & _).
    apply Z.eqb_eq in H2. exfalso. exact (N e' H1 H2).
Qed.

(** C62, exactly: the relation index made in [n] passes is that made in one pass if and only if every way
    of a relation that has locations in the way index starts before n * (length of the locations / n).
    (No pass panics if there are not more passes than bytes of locations.) *)
Lemma pC62_exact : forall inBlocks rss wayIndex output n fs contents es loc shift L, Forall2 relations_block inBlocks rss -> Forall relation_ok (concat rss) -> concat rss <> [] ->
  way_index_ok es loc shift -> (forall e, In e es -> stored loc (position shift e) (L e)) -> (exists e, In e es /\ position shift e = 0) -> 1 <= n <= zlen loc -> n < 2^62 ->
  fs wayIndex = Some contents -> NewWayIndex contents = Ok (way_index_of es loc shift) -> wayIndex <> makePassFilename output 0 1 -> wayIndex <> makePassFilename output 0 n ->
  exists fs1 fsn, ri_main inBlocks wayIndex output 1 fs = Ok fs1 /\ ri_main inBlocks wayIndex output n fs = Ok fsn /\
    (fsn output = fs1 output <->
     forall r e, In r (concat rss) -> In e es -> In (e_id e) (way_members r) -> L e <> [] -> position shift e < zlen loc / n * n).
Proof.
  intros bs rss wi out n fs contents es loc shift L F Ok1 NE WO St Z0 Hn Hn2 Ef Ei D1 Dn.
  destruct (pC62_passes_partial bs rss wi out n fs contents es loc shift L F Ok1 NE WO St Z0 Hn Hn2 Ef Ei Dn) as (fsn & En & On & _).
  assert (Ne : es <> []) by (destruct Z0 as (e & He & _); intros ->; destruct He).
  destruct (pC61_listing bs rss wi out fs contents es loc shift L F Ok1 NE WO St Ne Ef Ei D1) as (fs1 & E1 & O1 & _).
  exists fs1, fsn. split; [exact E1|]. split; [exact En|]. rewrite On, O1.
  set (P := fun e => position shift e <? zlen loc / n * n). pose proof WO as (_ & A & _).
  assert (Cmp : forall id, locations_in es L P id = locations_in es L (fun _ => true) id \/ locations_in es L P id = []).
  { intros id. destruct (find (fun e => e_id e =? id) es) as [e|] eqn:Fi.
    - apply find_some in Fi as (He & H2). apply Z.eqb_eq in H2.
      rewrite (proj1 (in_index es L P id A) e He H2), (proj1 (in_index es L (fun _ => true) id A) e He H2). destruct (P e); auto.
    - right. apply (proj2 (in_index es L P id A)). intros e He X. pose proof (find_none _ _ Fi e He) as N. cbn beta in N. rewrite X, Z.eqb_refl in N. discriminate N. }
  split.
  - intros X r e Hr He Hw NL. injection X as X.
    assert (X' : List.length (listing (locations_in es L P) (map summary (concat rss))) = List.length (listing (locations_in es L (fun _ => true)) (map summary (concat rss)))).
    { apply (f_equal (@List.length Z)) in X. rewrite !flat_len in X. lia. }
    pose proof (proj2 (listing_len _ _ (map summary (concat rss)) (fun _ w _ _ => Cmp w)) X' (summary r) (e_id e) (in_map summary _ _ Hr) Hw) as Y.
    rewrite (proj1 (in_index es L P _ A) e He eq_refl), (proj1 (in_index es L (fun _ => true) _ A) e He eq_refl) in Y.
    destruct (P e) eqn:Pe; [apply Z.ltb_lt; exact Pe|]. exfalso. apply NL. symmetry. exact Y.
  - intros H. f_equal. f_equal. apply listing_ext. intros r w Hr Hw. apply in_map_iff in Hr as (r' & <- & Hr'). cbn [summary snd] in Hw.
    destruct (find (fun e => e_id e =? w) es) as [e|] eqn:Fi.
    + apply find_some in Fi as (He & H2). apply Z.eqb_eq in H2.
      change (locations_in es L P w = locations_in es L (fun _ => true) w).
      rewrite (proj1 (in_index es L P w A) e He H2), (proj1 (in_index es L (fun _ => true) w A) e He H2).
      destruct (L e) as [|x l] eqn:Le; [destruct (P e); reflexivity|]. rewrite <- H2 in Hw.
      assert (Pe : P e = true) by (apply Z.ltb_lt, (H r' e Hr' He Hw); rewrite Le; discriminate). rewrite Pe. reflexivity.
    + assert (N : forall e, In e es -> e_id e <> w).
      { intros e He X. pose proof (find_none _ _ Fi e He) as N. cbn beta in N. rewrite X, Z.eqb_refl in N. discriminate N. }
      change (locations_in es L P w = locations_in es L (fun _ => true) w). rewrite !(proj2 (in_index es L _ w A) N). reflexivity.
Qed.
(** Both sides: in the example of C62_ex, way 10 of relation 77 starts at byte 72 of 80: before 8 * (80 / 8) but not
    before 9 * (80 / 9). *)
Lemma pC62_exact_ex : way_index_ok ex_pass_es ex_pass_loc 3 /\ In (mkEntry 10 9) ex_pass_es /\
  In 10 (way_members (mkRelation 77 [] [] [0; 0] [10; 2] [1; 1])) /\ ex_L (mkEntry 10 9) <> [] /\
  position 3 (mkEntry 10 9) = 72 /\ zlen ex_pass_loc / 8 * 8 = 80 /\ zlen ex_pass_loc / 9 * 9 = 72.
Proof.
  split; [exact (proj1 pC58_ex)|]. split; [cbn; tauto|]. split; [vm_compute; tauto|]. split; [cbn; discriminate|]. split; [reflexivity|]. split; vm_compute; reflexivity.
Qed.

(** C63, exactly, for sound relations: with a way index as the indexer makes it (the first way's locations first), the tool
    finishes if and only if there is a relation, the way index has a way, and there are not more passes than bytes of locations. *)
Lemma pC63_exact : forall inBlocks rss wayIndex output n fs contents es loc shift L, Forall2 relations_block inBlocks rss -> Forall relation_ok (concat rss) ->
  way_index_ok es loc shift -> (forall e, In e es -> stored loc (position shift e) (L e)) -> (es <> [] -> exists e, In e es /\ position shift e = 0) -> 1 <= n < 2^62 ->
  fs wayIndex = Some contents -> NewWayIndex contents = Ok (way_index_of es loc shift) -> wayIndex <> makePassFilename output 0 n ->
  ((exists fs', ri_main inBlocks wayIndex output n fs = Ok fs') <-> concat rss <> [] /\ es <> [] /\ n <= zlen loc).
Proof.
  intros inBlocks rss wayIndex output n fs contents es loc shift L F2 Hr H HL Hz Hn Hf Ho Hw. split.
  - intros (fs' & E).
    assert (Q : ~ (es = [] \/ zlen loc < n)).
    { intros Q. unfold ri_main in E. destruct (ri_init inBlocks) as [first| |]; cbn [bind] in E; try discriminate. rewrite RwThms.fs_set_other in E by exact Hw. rewrite Hf, Ho in E. cbn [bind] in E.
      destruct (Z.to_nat n) as [|m] eqn:Em; [lia|]. cbn [ri_loop] in E. rewrite RwThms.fs_set_same in E. unfold ri_rewrite in E.
      rewrite (pC58_panics_refuted es loc shift 0 n H ltac:(lia) ltac:(lia) Q) in E. cbn [bind] in E. discriminate E. }
    assert (Ne : es <> []) by tauto. split; [|split; [exact Ne|lia]].
    intros E0. destruct (pC63_no_relations_refuted inBlocks rss wayIndex output n fs contents es loc shift F2 E0 H Ne ltac:(lia) Hf Ho Hw) as (p & Ep). rewrite Ep in E. discriminate E.
  - intros (A & B & C). eapply pC63_works_partial; try eassumption; [apply Hz; exact B|lia|lia].
Qed.
(** Its hypotheses: C62_ex.  80 bytes of locations: 80 passes do, 81 do not. *)
Lemma pC63_exact_ex : way_index_ok ex_pass_es ex_pass_loc 3 /\ zlen ex_pass_loc = 80 /\
  (exists fs', ri_main ex_ri_one (bytes_of "ways") (bytes_of "out") 80 (ex_ri_fs ex_pass_file) = Ok fs') /\
  ri_main ex_ri_one (bytes_of "ways") (bytes_of "out") 81 (ex_ri_fs ex_pass_file) = Panic IndexOutOfRange.
Proof.
  split; [exact (proj1 pC58_ex)|]. split; [reflexivity|]. split; [eexists; vm_compute; reflexivity|]. vm_compute. reflexivity.
Qed.
