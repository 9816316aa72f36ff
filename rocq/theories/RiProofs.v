(** * RiProofs: one pass over the relation file. *)
From Verif Require Import Base BaseLemmas PbSpec PbModel TModel HLModel FrModel ZlModel IoModel IoSpec IoThms NiModel RwModel WiModel WiSpec WiProofs RiModel RiSpec.
From Verif Require HLProofs WiThms.

(** ** the words between passes *)
Definition pend (f : Z -> option (list Z)) (w : Z) : list Z := match f w with Some l => w :: zlen l :: l | None => [- w] end.
Definition done (f : Z -> option (list Z)) (w : Z) : list Z := match f w with Some l => w :: zlen l :: l | None => [w; 0] end.
Definition words (g : Z -> list Z) (rels : list (Z * list Z)) : list Z :=
  flat_map (fun rel => fst rel :: zlen (snd rel) :: flat_map g (snd rel)) rels.
Definition comb (f g : Z -> option (list Z)) (w : Z) : option (list Z) := match f w with Some l => Some l | None => g w end.
Definition finds (swi : SubWayIndex) (g : Z -> option (list Z)) : Prop :=
  forall id, exists h, FindLocations swi id 0 = Ok (match g id with Some l => l | None => [] end, h, match g id with Some _ => true | None => false end).

Lemma ri_ways_ok swi pass count f g : finds swi g -> -1 <= pass < 2^62 -> forall ws fuel rest,
  Forall (fun w => 0 < w < 2^63) ws -> (List.length (flat_map (pend f) ws) < fuel)%nat ->
  ri_ways fuel swi pass count (zlen ws) (flat_map (pend f) ws ++ rest) =
  Ok (flat_map (if pass + 1 <? count then pend (comb f g) else done (comb f g)) ws, rest).
Proof.
  intros Hg Hp. induction ws as [|w ws IH]; intros fuel rest Hw Hf.
  - destruct fuel; reflexivity.
  - pose proof (Forall_inv Hw) as W. cbn beta in W. rewrite zlen_cons. pose proof (zlen_nonneg ws) as N.
    cbn [flat_map] in *. rewrite app_length in Hf. destruct fuel as [|fuel]; [lia|]. cbn [ri_ways]. replace (0 <? 1 + zlen ws) with true by lia.
    replace (1 + zlen ws - 1) with (zlen ws) by lia. rewrite <- app_assoc.
    unfold pend at 1. unfold pend at 1 in Hf. destruct (f w) as [l|] eqn:Ef; cbn [app List.length] in *.
    + replace (w <? 0) with false by lia. unfold lslice. pose proof (zlen_nonneg l) as L.
      assert (A : zlen l <= zlen (l ++ flat_map (pend f) ws ++ rest)) by (rewrite zlen_app; pose proof (zlen_nonneg (flat_map (pend f) ws ++ rest)); lia).
      replace ((0 <=? 0) && (0 <=? zlen l) && (zlen l <=? zlen (l ++ flat_map (pend f) ws ++ rest))) with true by lia.
      cbn [bind skipn]. rewrite Z.sub_0_r. change (Z.to_nat 0) with 0%nat. cbn [skipn].
      assert (TL : Z.to_nat (zlen l) = List.length l) by (unfold zlen; lia). rewrite TL. rewrite skipn_app, Nat.sub_diag, skipn_all, firstn_app, Nat.sub_diag, firstn_all. cbn [app skipn firstn]. rewrite app_nil_r.
      rewrite IH; [|exact (Forall_inv_tail Hw)|lia]. cbn [bind]. f_equal. f_equal.
      assert (C : (if pass + 1 <? count then pend (comb f g) else done (comb f g)) w = w :: zlen l :: l) by (destruct (pass + 1 <? count); unfold pend, done, comb; rewrite Ef; reflexivity).
      rewrite C. reflexivity.
    + replace (- w <? 0) with true by lia. rewrite Z.opp_involutive, s64_id by (unfold is_s64; lia). destruct (Hg w) as (h & ->). cbn [bind].
      rewrite IH; [|exact (Forall_inv_tail Hw)|lia]. cbn [bind]. rewrite (s64_id (pass + 1)) by (unfold is_s64; lia).
      f_equal. f_equal. f_equal. destruct (g w) as [l|] eqn:Eg; cbn [negb]; destruct (pass + 1 <? count); unfold pend, done, comb; rewrite Ef, Eg; reflexivity.
Qed.

Lemma ri_rels_ok swi pass count f g : finds swi g -> -1 <= pass < 2^62 -> forall rels fuel outputData written,
  Forall (fun rel => Forall (fun w => 0 < w < 2^63) (snd rel)) rels -> (List.length (words (pend f) rels) < fuel)%nat ->
  exists od wr, ri_rels fuel swi pass count (words (pend f) rels) outputData written = Ok (od, wr) /\
    wr ++ SliceAsByteSlice od = written ++ SliceAsByteSlice (outputData ++ words (if pass + 1 <? count then pend (comb f g) else done (comb f g)) rels).
Proof.
  intros Hg Hp. induction rels as [|[id ws] rels IH]; intros fuel outputData written Hw Hf.
  - exists outputData, written. split; [destruct fuel; reflexivity|]. cbn. rewrite app_nil_r. reflexivity.
  - unfold words in *. cbn [flat_map fst snd] in *. set (G := if pass + 1 <? count then pend (comb f g) else done (comb f g)) in *.
    cbn [app List.length] in *. rewrite app_length in Hf. destruct fuel as [|fuel]; [lia|]. cbn [ri_rels].
    rewrite (ri_ways_ok swi pass count f g Hg Hp); [|exact (Forall_inv Hw)|rewrite app_length; lia]. cbn [bind]. fold G.
    destruct (1000000 <? zlen (outputData ++ [id; zlen ws] ++ flat_map G ws)).
    + destruct (IH fuel [] (written ++ SliceAsByteSlice (outputData ++ [id; zlen ws] ++ flat_map G ws)) (Forall_inv_tail Hw) ltac:(lia)) as (od & wr & E & A).
      exists od, wr. split; [exact E|]. rewrite A. cbn [app]. rewrite <- app_assoc. f_equal. unfold SliceAsByteSlice. rewrite <- flat_map_app. f_equal. rewrite <- !app_assoc. cbn [app]. rewrite <- ?app_assoc. reflexivity.
    + destruct (IH fuel (outputData ++ [id; zlen ws] ++ flat_map G ws) written (Forall_inv_tail Hw) ltac:(lia)) as (od & wr & E & A).
      exists od, wr. split; [exact E|]. rewrite A. f_equal. f_equal. rewrite <- !app_assoc. cbn [app]. rewrite <- ?app_assoc. reflexivity.
Qed.

Definition rels_ok (rels : list (Z * list Z)) : Prop :=
  Forall (fun rel => is_s64 (fst rel) /\ zlen (snd rel) < 2^63 /\ Forall (fun w => 0 < w < 2^63) (snd rel)) rels.
Definition vals_ok (f : Z -> option (list Z)) : Prop := forall w l, f w = Some l -> Forall is_s64 l /\ zlen l < 2^63.
Lemma words_s64 f rels : rels_ok rels -> vals_ok f -> Forall is_s64 (words (pend f) rels).
Proof.
  intros H V. induction H as [|[id ws] rels (I & Z & W) _ IH]; [constructor|]. unfold words in *. cbn [flat_map fst snd] in *. cbn [app].
  constructor; [exact I|]. constructor; [pose proof (zlen_nonneg ws); unfold is_s64; lia|]. apply Forall_app. split; [|exact IH].
  clear - V W. induction W as [|w ws Hw _ IH]; [constructor|]. cbn [flat_map]. apply Forall_app. split; [|exact IH]. unfold pend.
  destruct (f w) as [l|] eqn:E; [|constructor; [unfold is_s64; lia|constructor]]. destruct (V w l E) as (A & B). pose proof (zlen_nonneg l).
  constructor; [unfold is_s64; lia|]. constructor; [unfold is_s64; lia|exact A].
Qed.
Lemma words_nonempty g rels : rels <> [] -> SliceAsByteSlice (words g rels) <> [].
Proof. destruct rels as [|[id ws] rels]; [congruence|]. intros _. discriminate. Qed.
Lemma map_s64_id' l : Forall is_s64 l -> map s64 l = l.
Proof. induction 1 as [|x l Hx _ IH]; [reflexivity|]. cbn [map]. rewrite IH, s64_id by exact Hx. reflexivity. Qed.

Lemma ri_rewrite_ok wi swi pass count f g rels : SubIndexWithScaledPass wi pass count = Ok swi -> finds swi g -> -1 <= pass < 2^62 ->
  rels_ok rels -> rels <> [] -> vals_ok f ->
  ri_rewrite wi pass count (SliceAsByteSlice (words (pend f) rels)) =
  Ok (SliceAsByteSlice (words (if pass + 1 <? count then pend (comb f g) else done (comb f g)) rels)).
Proof.
  intros E Hg Hp Hr Hn Hv. unfold ri_rewrite. rewrite E. cbn [bind]. pose proof (words_nonempty (pend f) rels Hn) as NE.
  assert (M : MMapMap (SliceAsByteSlice (words (pend f) rels)) = Ok (SliceAsByteSlice (words (pend f) rels))) by (destruct (SliceAsByteSlice _); [congruence|reflexivity]).
  rewrite M. cbn [bind].
  rewrite <- (app_nil_r (SliceAsByteSlice (words (pend f) rels))). rewrite words_back by reflexivity. rewrite map_s64_id' by (apply words_s64; assumption).
  assert (Hw : Forall (fun rel => Forall (fun w => 0 < w < 2^63) (snd rel)) rels) by (revert Hr; apply Forall_impl; tauto).
  destruct (ri_rels_ok swi pass count f g Hg Hp rels (S (List.length (words (pend f) rels))) [] [] Hw ltac:(lia)) as (od & wr & -> & A). cbn [bind].
  cbn [app] in A. rewrite <- A. destruct od as [|x od]; [cbn; rewrite app_nil_r; reflexivity|]. rewrite zlen_cons. pose proof (zlen_nonneg od). replace (0 <? 1 + zlen od) with true by lia. reflexivity.
Qed.

(** ** the first step *)
Lemma ri_members_ok ids : forall types, List.length ids = List.length types -> Forall (fun id => 0 < id < 2^63) (map fst (filter (fun m : Z * Z => snd m =? 1) (combine ids types))) ->
  ri_members ids types = Ok (map Z.opp (map fst (filter (fun m : Z * Z => snd m =? 1) (combine ids types)))).
Proof.
  induction ids as [|id ids IH]; intros [|t types] H F; try discriminate; [reflexivity|]. cbn [combine filter snd map ri_members] in *. injection H as H.
  unfold RelationMemberTypeWay. destruct (t =? 1); cbn [negb map fst] in *.
  - rewrite (IH types H (Forall_inv_tail F)). cbn [bind]. pose proof (Forall_inv F) as W. cbn beta in W. rewrite s64_id by (unfold is_s64; lia). reflexivity.
  - rewrite (IH types H F). reflexivity.
Qed.
Lemma ri_count_ok ids : forall types, List.length ids = List.length types -> ri_count types = zlen (filter (fun m : Z * Z => snd m =? 1) (combine ids types)).
Proof.
  induction ids as [|id ids IH]; intros [|t types] H; try discriminate; [reflexivity|]. cbn [combine filter snd ri_count] in *. injection H as H.
  rewrite (IH types H). unfold RelationMemberTypeWay. destruct (t =? 1); [rewrite zlen_cons|]; lia.
Qed.
Definition nothing (w : Z) : option (list Z) := None.
Lemma flat_map_single {A B} (f : A -> B) l : flat_map (fun x => [f x]) l = map f l.
Proof. induction l as [|a l IH]; [reflexivity|]. cbn. rewrite IH. reflexivity. Qed.
Lemma ri_relation_ok out r : relation_ok r -> ri_relation out r = Ok (out ++ words (pend nothing) [summary r]).
Proof.
  intros (L & _ & W). unfold ri_relation. rewrite ri_members_ok by assumption. cbn [bind]. rewrite (ri_count_ok (rel_MemIDs r)) by exact L.
  unfold words, summary. cbn [flat_map fst snd app]. rewrite app_nil_r. unfold way_members. rewrite zlen_map. unfold pend, nothing. rewrite flat_map_single. reflexivity.
Qed.
Lemma words_app g x y : words g (x ++ y) = words g x ++ words g y.
Proof. unfold words. apply flat_map_app. Qed.
Lemma ri_fold_ok rs : Forall relation_ok rs -> forall out, foldm ri_relation rs out = Ok (out ++ words (pend nothing) (map summary rs)).
Proof.
  induction 1 as [|r rs Hr _ IH]; intros out; cbn [foldm map]; [rewrite app_nil_r; reflexivity|]. rewrite ri_relation_ok by exact Hr. cbn [bind]. rewrite IH, <- app_assoc, <- words_app. reflexivity.
Qed.
Lemma ri_data_ok p : Forall relation_ok (block_relations p) -> ri_data p = Ok (words (pend nothing) (map summary (block_relations p))).
Proof.
  intros H. unfold ri_data. assert (G : forall gs, Forall relation_ok (flat_map (fun g => match pg_Relations g with None => [] | Some rs => rs end) gs) -> forall out,
    foldm (fun s pg => match pg_Relations pg with None => Ok s | Some rs => foldm ri_relation rs s end) gs out =
    Ok (out ++ words (pend nothing) (map summary (flat_map (fun g => match pg_Relations g with None => [] | Some rs => rs end) gs)))).
  { clear. induction gs as [|g gs IH]; intros F out; cbn [foldm flat_map]; [cbn; rewrite app_nil_r; reflexivity|]. cbn [flat_map] in F. apply Forall_app in F. destruct F as (F1 & F2).
    destruct (pg_Relations g) as [rs|]; cbn [app].
    - rewrite ri_fold_ok by exact F1. cbn [bind]. rewrite (IH F2), map_app, words_app, app_assoc. reflexivity.
    - cbn [bind]. apply IH. exact F2. }
  rewrite (G (pblk_PrimitiveGroup p) H []). reflexivity.
Qed.
Lemma ri_init_ok bs rss : Forall2 relations_block bs rss -> Forall relation_ok (concat rss) ->
  ri_init bs = Ok (SliceAsByteSlice (words (pend nothing) (map summary (concat rss)))).
Proof.
  intros F2 H. unfold ri_init.
  assert (X : exists msgs, mapm (fun b => ri_worker (fst b) (snd b)) bs = Ok msgs /\ forall c, ri_write msgs c = Ok (c ++ SliceAsByteSlice (words (pend nothing) (map summary (concat rss))))).
  { induction F2 as [|b rs bs rss Hb _ IH]; [exists []; split; [reflexivity|]; intros c; cbn; rewrite app_nil_r; reflexivity|].
    cbn [concat] in H. apply Forall_app in H. destruct H as (H1 & H2). destruct (IH H2) as (msgs & E & W).
    assert (Y : exists m, ri_worker (fst b) (snd b) = Ok m /\ forall c r, ri_write (m :: r) c = ri_write r (c ++ SliceAsByteSlice (words (pend nothing) (map summary rs)))).
    { unfold ri_worker. destruct Hb as [(N1 & N2 & ->)|(T & bl & raw & p & E1 & E2 & E3 & ->)].
      - destruct (HLProofs.seqb_spec (blk_Type (snd b)) tOSMData) as [C|_]; [contradiction|]. cbn [negb]. eexists. split; [reflexivity|]. intros c r. cbn [ri_write rm_Type].
        destruct (HLProofs.seqb_spec (blk_Type (snd b)) tRelationData) as [C|_]; [contradiction|]. cbn. rewrite app_nil_r. reflexivity.
      - rewrite T. unfold tOSMData. rewrite HLProofs.seqb_refl. cbn [negb]. rewrite E1. cbn [bind]. rewrite E2. cbn [bind]. unfold ri_reader. rewrite E3. cbn [bind]. rewrite ri_data_ok by exact H1. cbn [bind].
        eexists. split; [reflexivity|]. intros c r. cbn [ri_write rm_Type rm_Words]. rewrite HLProofs.seqb_refl. reflexivity. }
    destruct Y as (m & Em & Wm). exists (m :: msgs). split; [cbn [mapm]; rewrite Em; cbn [bind]; rewrite E; reflexivity|]. intros c. rewrite Wm, W, <- app_assoc.
    cbn [concat]. rewrite map_app, words_app. unfold SliceAsByteSlice. rewrite flat_map_app. reflexivity. }
  destruct X as (msgs & -> & W). cbn [bind]. rewrite W. reflexivity.
Qed.
Lemma summary_ok rs : Forall relation_ok rs -> rels_ok (map summary rs).
Proof.
  intros H. unfold rels_ok. rewrite Forall_map. revert H. apply Forall_impl. intros r (A & B & C). unfold summary. cbn [fst snd]. split; [|split; [|exact C]].
  - apply BaseLemmas.s64_range.
  - unfold way_members. rewrite zlen_map. unfold zlen in *. 
    assert (D : forall (p : Z * Z -> bool) l, (List.length (filter p l) <= List.length l)%nat) by (clear; intros p l; induction l as [|a l IH]; [reflexivity|]; cbn; destruct (p a); cbn; lia).
    specialize (D (fun m : Z * Z => snd m =? 1) (combine (rel_MemIDs r) (rel_MemberType r))). rewrite combine_length in D. lia.
Qed.

(** ** decoded locations *)
Lemma dz_len buf fuel : forall next last out n' l' out', Forall is_s64 out -> loop fuel (dz_cond buf) (dz_body buf) (next, last, out, false) = Ok (n', l', out', true) ->
  (List.length out' + 1 <= List.length out + fuel)%nat /\ Forall is_s64 out'.
Proof.
  induction fuel as [|fuel IH]; intros next last out n' l' out' F H; cbn [loop] in H.
  - destruct (dz_cond buf _); [discriminate|]. injection H; congruence.
  - destruct (dz_cond buf _); [|injection H; congruence]. unfold dz_body in H at 1. destruct (DecodeVarInt buf next) as [[d nx]|p|]; cbn [bind] in H; try discriminate.
    destruct (d =? 0).
    + destruct fuel; cbn [loop dz_cond negb andb] in H; injection H as <- <- <-; split; [lia|exact F|lia|exact F].
    + apply IH in H; [rewrite app_length in H; cbn [List.length] in H; split; [lia|apply H]|]. apply Forall_app. split; [exact F|]. constructor; [apply s64_range|constructor].
Qed.
Lemma stored_ok loc pos l : zlen loc < 2^63 -> stored loc pos l -> Forall is_s64 l /\ zlen l < 2^63.
Proof.
  intros H (P & E). unfold DecodeS64PackedDeltaZero in E. destruct (loop _ _ _ _) as [[[[n' l'] out'] ret]|p|] eqn:Lp; cbn [bind] in E; try discriminate.
  destruct ret; [|discriminate]. injection E as <-. apply dz_len in Lp; [|constructor]. split; [apply Lp|]. destruct Lp as (Lp & _). cbn [vis exact List.length] in Lp. rewrite skipn_length in Lp. unfold zlen in *. lia.
Qed.
