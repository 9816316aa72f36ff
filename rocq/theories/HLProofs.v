(** * HLProofs: sorting, maps, the string table builder, explicit form of a built block. *)
From Coq Require Import Permutation Sorted.
From Verif Require Import Base BaseLemmas PbModel PbSpec TModel TSpec HLModel HLSpec.

(** ** maps *)
Lemma seqb_spec a b : reflect (a = b) (seqb a b).
Proof. unfold seqb. destruct (list_eq_dec Z.eq_dec a b); constructor; assumption. Qed.
Lemma seqb_refl a : seqb a a = true.
Proof. destruct (seqb_spec a a); congruence. Qed.
Lemma mget_mset_same {V} (m : smap V) k v : mget (mset m k v) k = Some v.
Proof.
  induction m as [|[k' v'] m IH]; cbn; [rewrite seqb_refl; reflexivity|].
  destruct (seqb_spec k' k); cbn; [subst; rewrite seqb_refl; reflexivity|].
  destruct (seqb_spec k' k); [congruence|assumption].
Qed.
Lemma mget_mset_other {V} (m : smap V) k k2 v : k <> k2 -> mget (mset m k v) k2 = mget m k2.
Proof.
  intros H. induction m as [|[k' v'] m IH]; cbn; [destruct (seqb_spec k k2); congruence|].
  destruct (seqb_spec k' k) as [->|]; cbn.
  - destruct (seqb_spec k k2); congruence.
  - destruct (seqb_spec k' k2); congruence.
Qed.
Lemma mget_None {V} (m : smap V) k : mget m k = None <-> ~ In k (map fst m).
Proof.
  induction m as [|[k' v'] m IH]; cbn; [tauto|].
  destruct (seqb_spec k' k) as [->|].
  - split; [discriminate|]. intros H; exfalso; apply H; auto.
  - rewrite IH. tauto.
Qed.
Lemma mget_Some_In {V} (m : smap V) k v : mget m k = Some v -> In (k, v) m.
Proof.
  induction m as [|[k' v'] m IH]; cbn; [discriminate|].
  destruct (seqb_spec k' k) as [->|]; [intros H; injection H as ->; auto|auto].
Qed.
Lemma mget_In {V} (m : smap V) k v : is_map m -> In (k, v) m -> mget m k = Some v.
Proof.
  unfold is_map. induction m as [|[k' v'] m IH]; cbn; [tauto|]. intros H [E|E].
  - injection E as -> ->. rewrite seqb_refl. reflexivity.
  - apply NoDup_cons_iff in H as [H1 H2]. destruct (seqb_spec k' k) as [->|]; [|auto].
    exfalso. apply H1. change k with (fst (k, v)). apply in_map. assumption.
Qed.
Lemma mset_keys {V} (m : smap V) k v :
  map fst (mset m k v) = if mget m k then map fst m else map fst m ++ [k].
Proof.
  induction m as [|[k' v'] m IH]; [reflexivity|]. cbn.
  destruct (seqb_spec k' k) as [->|]; [reflexivity|]. cbn. rewrite IH. destruct (mget m k); reflexivity.
Qed.
Lemma mset_new {V} (m : smap V) k v : ~ In k (map fst m) -> mset m k v = m ++ [(k, v)].
Proof.
  induction m as [|[k' v'] m IH]; [reflexivity|]. cbn. intros H.
  destruct (seqb_spec k' k) as [->|]; [tauto|]. rewrite IH; tauto.
Qed.

(** ** string order *)
Lemma slt_spec a b : slt a b = true <-> bytes_lt a b.
Proof.
  split.
  - revert b. induction a as [|x a IH]; intros [|y b]; cbn; try discriminate; intros H; [constructor|].
    destruct (Z.ltb_spec x y); [constructor; assumption|].
    destruct (Z.ltb_spec y x); [discriminate|]. replace y with x by lia. apply lt_tail, IH, H.
  - induction 1; cbn; [reflexivity| |].
    + destruct (Z.ltb_spec x y); [reflexivity|lia].
    + rewrite Z.ltb_irrefl. assumption.
Qed.
Definition sto {A} (less : A -> A -> bool) : Prop :=
  (forall a, less a a = false) /\
  (forall a b c, less a b = true -> less b c = true -> less a c = true) /\
  (forall a b, less a b = false -> less b a = false -> a = b).
Lemma slt_irrefl a : slt a a = false.
Proof. induction a; cbn; [reflexivity|]. rewrite Z.ltb_irrefl. assumption. Qed.
Lemma slt_trans a b c : slt a b = true -> slt b c = true -> slt a c = true.
Proof.
  revert b c. induction a as [|x a IH]; intros [|y b] [|z c]; cbn; try discriminate; try reflexivity.
  destruct (Z.ltb_spec x y), (Z.ltb_spec y z), (Z.ltb_spec x z); try reflexivity; try lia; intros A1 A2;
    destruct (Z.ltb_spec y x), (Z.ltb_spec z y), (Z.ltb_spec z x); try discriminate; try lia; eauto.
Qed.
Lemma slt_total a b : slt a b = false -> slt b a = false -> a = b.
Proof.
  revert b. induction a as [|x a IH]; intros [|y b]; cbn; try discriminate; try reflexivity.
  destruct (Z.ltb_spec x y); [discriminate|]. destruct (Z.ltb_spec y x); [discriminate|].
  intros. f_equal; [lia|auto].
Qed.
Lemma slt_sto : sto slt.
Proof. split; [exact slt_irrefl|split; [exact slt_trans|exact slt_total]]. Qed.

(** ** sorting *)
Lemma isort_cons {A} (less : A -> A -> bool) x l : isort less (x :: l) = insert less x (isort less l).
Proof. reflexivity. Qed.
Lemma insert_perm {A} (less : A -> A -> bool) x l : Permutation (x :: l) (insert less x l).
Proof.
  induction l as [|y l IH]; cbn; [reflexivity|]. destruct (less y x); [|reflexivity].
  rewrite perm_swap. constructor. exact IH.
Qed.
Lemma isort_perm {A} (less : A -> A -> bool) l : Permutation l (isort less l).
Proof.
  induction l as [|x l IH]; cbn; [reflexivity|]. rewrite <- insert_perm. constructor. exact IH.
Qed.
Definition ord {A} (less : A -> A -> bool) (a b : A) : Prop := less b a = false.
Lemma sto_asym {A} (less : A -> A -> bool) a b : sto less -> less a b = true -> less b a = false.
Proof.
  intros (I & T & _) H. destruct (less b a) eqn:E; [|reflexivity].
  pose proof (T _ _ _ H E) as X. rewrite I in X. discriminate.
Qed.
Lemma ord_trans {A} (less : A -> A -> bool) a b c : sto less -> ord less a b -> ord less b c -> ord less a c.
Proof.
  unfold ord. intros S H1 H2. destruct (less c a) eqn:E; [|reflexivity].
  destruct S as (I & T & Tot).
  destruct (less a b) eqn:E1.
  - rewrite (T _ _ _ E E1) in H2. discriminate.
  - rewrite (Tot a b E1 H1) in E. congruence.
Qed.
Lemma insert_sorted {A} (less : A -> A -> bool) x l : sto less ->
  StronglySorted (ord less) l -> StronglySorted (ord less) (insert less x l).
Proof.
  intros S. induction 1 as [|y l Hs IH Hf]; cbn; [repeat constructor|].
  destruct (less y x) eqn:E.
  - constructor; [exact IH|]. rewrite <- insert_perm. constructor; [|exact Hf].
    apply sto_asym; assumption.
  - constructor; [constructor; assumption|]. constructor; [exact E|].
    eapply Forall_impl; [|exact Hf]. intros z Hz. eapply ord_trans; [exact S|exact E|exact Hz].
Qed.
Lemma isort_sorted {A} (less : A -> A -> bool) l : sto less -> StronglySorted (ord less) (isort less l).
Proof. intros S. induction l; cbn; [constructor|]. apply insert_sorted; assumption. Qed.
Lemma sorted_unique {A} (less : A -> A -> bool) l l' : sto less ->
  StronglySorted (ord less) l -> StronglySorted (ord less) l' -> Permutation l l' -> l = l'.
Proof.
  intros S. revert l'. induction l as [|a l IH]; intros l' Hl Hl' P.
  - apply Permutation_nil in P. congruence.
  - destruct l' as [|b l']; [apply Permutation_sym, Permutation_nil in P; discriminate|].
    apply StronglySorted_inv in Hl as [Hl Fa]. apply StronglySorted_inv in Hl' as [Hl' Fb].
    assert (a = b).
    { assert (Ha : In a (b :: l')) by (eapply Permutation_in; [exact P|left; reflexivity]).
      assert (Hb : In b (a :: l)) by (eapply Permutation_in; [apply Permutation_sym; exact P|left; reflexivity]).
      destruct Ha as [->|Ha]; [reflexivity|]. destruct Hb as [->|Hb]; [reflexivity|].
      rewrite Forall_forall in Fa, Fb. destruct S as (_ & _ & Tot).
      apply Tot; [apply (Fb _ Ha)|apply (Fa _ Hb)]. }
    subst b. f_equal. apply IH; [assumption..|]. eapply Permutation_cons_inv; exact P.
Qed.
Lemma isort_unique {A} (less : A -> A -> bool) l l' : sto less -> Permutation l l' ->
  isort less l = isort less l'.
Proof.
  intros S P. apply (sorted_unique less); [assumption|apply isort_sorted; assumption..|].
  rewrite <- !isort_perm. exact P.
Qed.
Lemma insert_ext {A} (less less' : A -> A -> bool) x l :
  (forall a, In a l -> less a x = less' a x) -> insert less x l = insert less' x l.
Proof.
  induction l as [|y l IH]; cbn; intros H; [reflexivity|]. rewrite <- H by auto.
  destruct (less y x); [|reflexivity]. f_equal. apply IH. auto.
Qed.
Lemma isort_ext {A} (less less' : A -> A -> bool) l :
  (forall a b, In a l -> In b l -> less a b = less' a b) -> isort less l = isort less' l.
Proof.
  induction l as [|x l IH]; intros H; [reflexivity|]. rewrite !isort_cons.
  rewrite <- IH by (intros; apply H; right; assumption).
  apply insert_ext. intros a Ha. apply H; [right|left; reflexivity].
  eapply Permutation_in; [apply Permutation_sym, isort_perm|exact Ha].
Qed.

(** ** the builder *)
Definition base (s : list Z) : Z := if seqb s [] then 2^32 - 1 else 0.
Definition weight (L : list (list Z)) (s : list Z) : Z := u32 (base s + occurrences L s).
Definition wless (L : list (list Z)) (a b : list Z) : bool :=
  if negb (weight L a =? weight L b) then weight L b <? weight L a else slt a b.
Definition table (L : list (list Z)) : list (list Z) :=
  isort (wless L) (nodup (list_eq_dec Z.eq_dec) ([] :: L)).

Lemma freq_less_sto (w : list Z -> Z) :
  sto (fun a b => if negb (w a =? w b) then w b <? w a else slt a b).
Proof.
  split; [|split].
  - intros a. rewrite Z.eqb_refl. apply slt_irrefl.
  - intros a b c. destruct (Z.eqb_spec (w a) (w b)), (Z.eqb_spec (w b) (w c)), (Z.eqb_spec (w a) (w c));
      cbn [negb]; try lia; try apply slt_trans; intros; lia.
  - intros a b. destruct (Z.eqb_spec (w a) (w b)), (Z.eqb_spec (w b) (w a)); cbn [negb]; try lia.
    apply slt_total.
Qed.

Definition inv (L : list (list Z)) (stb : Builder) : Prop :=
  exists f lst, stb = mkBuilder (Some f) None lst /\ NoDup lst /\ map fst f = lst /\
    (forall s, In s lst <-> s = [] \/ In s L) /\
    (forall s, In s lst -> mget f s = Some (weight L s)).

Lemma occ_app L L' s : occurrences (L ++ L') s = occurrences L s + occurrences L' s.
Proof. unfold occurrences. rewrite filter_app, zlen_app. reflexivity. Qed.
Lemma occ_one x s : occurrences [x] s = if seqb x s then 1 else 0.
Proof. unfold occurrences, seqb. cbn. destruct (list_eq_dec Z.eq_dec x s); reflexivity. Qed.
Lemma occ_notin L s : ~ In s L -> occurrences L s = 0.
Proof.
  induction L as [|x L IH]; intros H; [reflexivity|]. change (x :: L) with ([x] ++ L).
  rewrite occ_app, occ_one, IH by (intros X; apply H; right; exact X).
  destruct (seqb_spec x s); [exfalso; apply H; left; assumption|reflexivity].
Qed.
Lemma occ_perm L L' s : Permutation L L' -> occurrences L s = occurrences L' s.
Proof.
  unfold occurrences. intros P. assert (Permutation (filter (fun x => if list_eq_dec Z.eq_dec x s then true else false) L)
    (filter (fun x => if list_eq_dec Z.eq_dec x s then true else false) L')) as Q.
  { induction P as [|x l l' P IH|x y l|l l' l'' P1 IH1 P2 IH2]; cbn.
    - constructor.
    - destruct (list_eq_dec Z.eq_dec x s); [constructor|]; exact IH.
    - destruct (list_eq_dec Z.eq_dec x s), (list_eq_dec Z.eq_dec y s); try reflexivity. apply perm_swap.
    - etransitivity; eassumption. }
  unfold zlen. rewrite (Permutation_length Q). reflexivity.
Qed.
Lemma occ_nonneg L s : 0 <= occurrences L s.
Proof. apply zlen_nonneg. Qed.
Lemma occ_le L s : occurrences L s <= zlen L.
Proof.
  unfold occurrences, zlen. induction L as [|x L IH]; cbn; [lia|].
  destruct (list_eq_dec Z.eq_dec x s); cbn [List.length]; lia.
Qed.

Lemma inv_new : inv [] NewStringTableBuilder.
Proof.
  exists [([], 2^32 - 1)], [[]]. split; [reflexivity|]. split; [repeat constructor; intros []|].
  split; [reflexivity|]. split.
  - intros s. cbn. intuition.
  - intros s [<-|[]]. vm_compute. reflexivity.
Qed.
Lemma inv_add L stb s : inv L stb -> exists stb', AddString stb s = Ok stb' /\ inv (L ++ [s]) stb'.
Proof.
  intros (f & lst & -> & ND & Hk & Hin & Hw). unfold AddString. cbn [stb_freq stb_index stb_list].
  assert (W : forall s', s' <> s -> weight (L ++ [s]) s' = weight L s').
  { intros s' Hn. unfold weight. rewrite occ_app, occ_one.
    destruct (seqb_spec s s'); [congruence|]. f_equal. lia. }
  destruct (mget f s) as [n|] eqn:E.
  - eexists. split; [reflexivity|].
    assert (Hs : In s lst).
    { rewrite <- Hk. destruct (in_dec (list_eq_dec Z.eq_dec) s (map fst f)) as [H|H]; [exact H|].
      apply mget_None in H. congruence. }
    exists (mset f s (u32 (n + 1))), lst. split; [reflexivity|]. split; [assumption|].
    split; [rewrite mset_keys, E; assumption|]. split.
    + intros s'. rewrite Hin, in_app_iff. cbn. split; [tauto|]. intros [H|[H|[<-|[]]]]; auto.
      apply Hin. assumption.
    + intros s' Hs'. destruct (list_eq_dec Z.eq_dec s' s) as [->|Hne].
      * rewrite mget_mset_same. rewrite (Hw s Hs) in E. injection E as <-. f_equal.
        unfold weight, u32. rewrite occ_app, occ_one, seqb_refl. rewrite Zplus_mod_idemp_l. f_equal. lia.
      * rewrite mget_mset_other by congruence. rewrite Hw, W by assumption. reflexivity.
  - eexists. split; [reflexivity|].
    assert (Hs : ~ In s lst) by (rewrite <- Hk; apply mget_None; exact E).
    exists (mset f s 1), (lst ++ [s]). split; [reflexivity|].
    split; [eapply Permutation_NoDup; [apply Permutation_cons_append|constructor; assumption]|].
    split; [rewrite mset_keys, E, Hk; reflexivity|]. split.
    + intros s'. rewrite !in_app_iff, Hin. cbn. tauto.
    + intros s' Hs'. apply in_app_iff in Hs'. destruct (list_eq_dec Z.eq_dec s' s) as [->|Hne].
      * rewrite mget_mset_same. f_equal. unfold weight.
        assert (~ (s = [] \/ In s L)) by (rewrite <- Hin; assumption).
        rewrite occ_app, occ_one, seqb_refl, occ_notin by tauto.
        unfold base. destruct (seqb_spec s []); [tauto|]. reflexivity.
      * rewrite mget_mset_other by congruence. destruct Hs' as [Hs'|[<-|[]]]; [|congruence].
        rewrite Hw, W by assumption. reflexivity.
Qed.
Lemma inv_adds S L stb : inv L stb -> exists stb', foldm AddString S stb = Ok stb' /\ inv (L ++ S) stb'.
Proof.
  revert L stb. induction S as [|s S IH]; intros L stb H; cbn [foldm].
  - exists stb. rewrite app_nil_r. auto.
  - destruct (inv_add L stb s H) as (stb1 & -> & H1). cbn [bind].
    destruct (IH _ _ H1) as (stb2 & E & H2). exists stb2. rewrite <- app_assoc in H2. auto.
Qed.

(** position in a list *)
Fixpoint posn (t : list (list Z)) (s : list Z) : nat :=
  match t with [] => 0 | x :: r => if seqb x s then 0 else S (posn r s) end.
Lemma posn_nth t s : In s t -> nth_error t (posn t s) = Some s.
Proof.
  induction t as [|x t IH]; [intros []|]. cbn. destruct (seqb_spec x s) as [->|]; [reflexivity|].
  intros [|H]; [congruence|]. cbn. auto.
Qed.
Lemma posn_lt t s : In s t -> (posn t s < List.length t)%nat.
Proof. intros H. apply nth_error_Some. rewrite posn_nth by assumption. discriminate. Qed.
Definition idx (t : list (list Z)) (s : list Z) : Z := u32 (Z.of_nat (posn t s)).

Lemma set_indexes_notin m i l s : ~ In s l -> mget (set_indexes m i l) s = mget m s.
Proof.
  revert m i. induction l as [|x l IH]; intros m i H; [reflexivity|]. cbn [set_indexes].
  rewrite IH by (intros X; apply H; right; exact X).
  apply mget_mset_other. intros ->. apply H; left; reflexivity.
Qed.
Lemma set_indexes_in m i l s : NoDup l -> In s l ->
  mget (set_indexes m i l) s = Some (u32 (i + Z.of_nat (posn l s))).
Proof.
  revert m i. induction l as [|x l IH]; intros m i ND H; [destruct H|]. cbn [set_indexes posn].
  apply NoDup_cons_iff in ND as [Nx ND]. destruct (seqb_spec x s) as [->|Hne].
  - rewrite set_indexes_notin by assumption. rewrite mget_mset_same. f_equal. f_equal. lia.
  - destruct H as [H|H]; [congruence|]. rewrite IH by assumption. f_equal. f_equal. lia.
Qed.

Lemma table_in L s : In s (table L) <-> s = [] \/ In s L.
Proof.
  unfold table. split.
  - intros H. eapply Permutation_in in H; [|apply Permutation_sym, isort_perm].
    apply nodup_In in H. cbn in H. destruct H; auto.
  - intros H. eapply Permutation_in; [apply isort_perm|]. apply nodup_In. cbn. destruct H; auto.
Qed.
Lemma table_nodup L : NoDup (table L).
Proof. unfold table. eapply Permutation_NoDup; [apply isort_perm|apply NoDup_nodup]. Qed.
Lemma table_len L : zlen (table L) <= 1 + zlen L.
Proof.
  unfold table, zlen. rewrite <- (Permutation_length (isort_perm _ _)).
  assert (Datatypes.length (nodup (list_eq_dec Z.eq_dec) ([] :: L)) <= Datatypes.length ([] :: L))%nat; [|cbn in *; lia].
  apply NoDup_incl_length; [apply NoDup_nodup|]. intros x Hx. apply nodup_In in Hx. exact Hx.
Qed.
Lemma table_perm L L' : Permutation L L' -> table L = table L'.
Proof.
  intros P. unfold table. transitivity (isort (wless L) (nodup (list_eq_dec Z.eq_dec) ([] :: L'))).
  - apply isort_unique; [apply freq_less_sto|].
    apply NoDup_Permutation; [apply NoDup_nodup..|]. intros x. rewrite !nodup_In. cbn.
    split; intros [H|H]; auto; right.
    + eapply Permutation_in; [exact P|exact H].
    + eapply Permutation_in; [apply Permutation_sym; exact P|exact H].
  - apply isort_ext. intros a b _ _. unfold wless, weight.
    rewrite (occ_perm L L' a P), (occ_perm L L' b P). reflexivity.
Qed.

Definition final (L : list (list Z)) (stb : Builder) : Prop :=
  stb_list stb = table L /\
  forall s, GetIndex stb s = if in_dec (list_eq_dec Z.eq_dec) s (table L) then Ok (idx (table L) s)
                             else Panic (PanicMsg "unknown string").
Lemma inv_finalize L stb : inv L stb -> exists stb', Finalize stb = Ok stb' /\ final L stb'.
Proof.
  intros (f & lst & -> & ND & Hk & Hin & Hw). unfold Finalize. cbn [stb_freq stb_index stb_list].
  assert (E : isort (stb_less f) lst = table L).
  { unfold table. transitivity (isort (wless L) lst).
    - apply isort_ext. intros a b Ha Hb. unfold stb_less, freq_of, wless.
      rewrite !Hw by assumption. reflexivity.
    - apply isort_unique; [apply freq_less_sto|]. apply NoDup_Permutation; [assumption|apply NoDup_nodup|].
      intros x. rewrite nodup_In, Hin. cbn. intuition. }
  rewrite E. eexists. split; [reflexivity|]. split; [reflexivity|].
  intros s. unfold GetIndex. cbn [stb_index].
  destruct (in_dec (list_eq_dec Z.eq_dec) s (table L)) as [H|H].
  - rewrite set_indexes_in by (try assumption; apply table_nodup). reflexivity.
  - rewrite set_indexes_notin by assumption.
    assert (mget f s = None) as ->; [|reflexivity].
    apply mget_None. rewrite Hk, Hin, <- table_in. assumption.
Qed.
Lemma built L : exists stb, (stb <- foldm AddString L NewStringTableBuilder ;; Finalize stb) = Ok stb /\ final L stb.
Proof.
  destruct (inv_adds L [] _ inv_new) as (stb & E & I). rewrite E. cbn [bind]. apply inv_finalize, I.
Qed.

(** ** adding entities is adding their strings *)
Lemma foldm_app {A St} (f : St -> A -> res St) l1 l2 s :
  foldm f (l1 ++ l2) s = (s' <- foldm f l1 s ;; foldm f l2 s').
Proof.
  revert s. induction l1 as [|a l1 IH]; intros s; cbn [foldm app bind]; [reflexivity|].
  destruct (f s a); cbn [bind]; auto.
Qed.
Lemma bind_assoc {A B C} (m : res A) (f : A -> res B) (g : B -> res C) :
  bind (bind m f) g = bind m (fun a => bind (f a) g).
Proof. destruct m; reflexivity. Qed.
Lemma AddMap_eq stb m : AddMap stb m = foldm AddString (tag_strings m) stb.
Proof.
  unfold AddMap, tag_strings. revert stb. induction m as [|[k v] m IH]; intros stb; [reflexivity|].
  cbn [flat_map foldm fst snd app]. rewrite bind_assoc. destruct (AddString stb k); cbn [bind]; [|reflexivity..].
  destruct (AddString a v); cbn [bind]; auto.
Qed.
Lemma foldm_flat {A St X} (f : St -> X -> res St) (g : A -> list X) (h : St -> A -> res St) l s :
  (forall s a, h s a = foldm f (g a) s) -> foldm h l s = foldm f (flat_map g l) s.
Proof.
  intros H. revert s. induction l as [|a l IH]; intros s; cbn [foldm flat_map]; [reflexivity|].
  rewrite H, foldm_app. destruct (foldm f (g a) s); cbn [bind]; auto.
Qed.
Lemma add_all ns ws rs stb :
  (stb <- nodes_add ns stb ;; stb <- ways_add ws stb ;; rels_add rs stb) =
  foldm AddString (all_strings ns ws rs) stb.
Proof.
  unfold all_strings, nodes_add, ways_add, rels_add. rewrite foldm_app.
  rewrite <- (foldm_flat AddString (fun n => tag_strings (hn_Tags n)) _ ns stb
               (fun s n => AddMap_eq s (hn_Tags n))).
  destruct (foldm _ ns stb); cbn [bind]; [|reflexivity..]. rewrite foldm_app.
  rewrite <- (foldm_flat AddString (fun n => tag_strings (hw_Tags n)) _ ws a
               (fun s n => AddMap_eq s (hw_Tags n))).
  destruct (foldm _ ws a); cbn [bind]; [|reflexivity..].
  apply foldm_flat. intros s r. rewrite foldm_app, AddMap_eq. reflexivity.
Qed.

(** ** explicit form of key/value lists *)
Definition sorted_tags (m : smap (list Z)) : smap (list Z) :=
  map (fun k => (k, mval m k)) (isort slt (map fst m)).
Definition kv (t : list (list Z)) (m : smap (list Z)) : list (Z * Z) :=
  map (fun e => (idx t (fst e), idx t (snd e))) (sorted_tags m).

Lemma mval_self m : is_map m -> map (fun k => (k, mval m k)) (map fst m) = m.
Proof.
  intros H. rewrite map_map. rewrite <- (map_id m) at 2. apply map_ext_in. intros [k v] Hin. cbn.
  unfold mval. rewrite (mget_In m k v H Hin). reflexivity.
Qed.
Lemma sorted_tags_perm m : is_map m -> Permutation m (sorted_tags m).
Proof.
  intros H. unfold sorted_tags. rewrite <- (mval_self m H) at 1. apply Permutation_map, isort_perm.
Qed.
Lemma mval_perm m m' k : is_map m -> Permutation m m' -> mval m k = mval m' k.
Proof.
  intros H P. assert (H' : is_map m') by (eapply Permutation_NoDup; [apply Permutation_map; exact P|exact H]).
  unfold mval. destruct (mget m k) as [v|] eqn:E.
  - apply mget_Some_In in E. apply (Permutation_in _ P) in E. rewrite (mget_In _ _ _ H' E). reflexivity.
  - destruct (mget m' k) as [v|] eqn:E'; [|reflexivity]. apply mget_Some_In in E'.
    apply (Permutation_in _ (Permutation_sym P)) in E'. rewrite (mget_In _ _ _ H E') in E. discriminate.
Qed.
Lemma sorted_tags_same m m' : is_map m -> Permutation m m' -> sorted_tags m = sorted_tags m'.
Proof.
  intros H P. unfold sorted_tags.
  rewrite (isort_unique slt (map fst m) (map fst m') slt_sto) by (apply Permutation_map; exact P).
  apply map_ext. intros k. rewrite (mval_perm m m' k H P). reflexivity.
Qed.
Lemma sorted_tags_strings m s : is_map m -> In s (tag_strings (sorted_tags m)) <-> In s (tag_strings m).
Proof.
  intros H. unfold tag_strings. rewrite !in_flat_map. pose proof (sorted_tags_perm m H) as P.
  split; intros (x & Hx & Hs); exists x; (split; [|exact Hs]).
  - eapply Permutation_in; [apply Permutation_sym; exact P|exact Hx].
  - eapply Permutation_in; [exact P|exact Hx].
Qed.

Lemma final_ok L stb s : final L stb -> s = [] \/ In s L -> GetIndex stb s = Ok (idx (table L) s).
Proof.
  intros [_ F] H. rewrite F. destruct (in_dec _ s (table L)) as [_|N]; [reflexivity|].
  exfalso. apply N, table_in, H.
Qed.
Lemma foldm_keys (f : list Z -> res Z) (g : list Z -> Z) (v : list Z -> list Z) keys ks vs :
  (forall k, In k keys -> f k = Ok (g k) /\ f (v k) = Ok (g (v k))) ->
  foldm (fun '(ks, vs) k => i <- f k ;; j <- f (v k) ;; Ok (ks ++ [i], vs ++ [j])) keys (ks, vs) =
  Ok (ks ++ map g keys, vs ++ map (fun k => g (v k)) keys).
Proof.
  revert ks vs. induction keys as [|k keys IH]; intros ks vs H; cbn [foldm map].
  - rewrite !app_nil_r. reflexivity.
  - destruct (H k (or_introl eq_refl)) as [-> ->]. cbn [bind]. rewrite IH by (intros; apply H; right; assumption).
    rewrite <- !app_assoc. reflexivity.
Qed.
Lemma foldm_linear (f : list Z -> res Z) (g : list Z -> Z) (v : list Z -> list Z) keys ids :
  (forall k, In k keys -> f k = Ok (g k) /\ f (v k) = Ok (g (v k))) ->
  foldm (fun ids k => i <- f k ;; j <- f (v k) ;; Ok (ids ++ [s32 i; s32 j])) keys ids =
  Ok (ids ++ flat (map (fun k => (s32 (g k), s32 (g (v k)))) keys)).
Proof.
  revert ids. induction keys as [|k keys IH]; intros ids H; cbn [foldm map flat].
  - rewrite app_nil_r. reflexivity.
  - destruct (H k (or_introl eq_refl)) as [-> ->]. cbn [bind]. rewrite IH by (intros; apply H; right; assumption).
    rewrite <- !app_assoc. reflexivity.
Qed.
Lemma keys_in m k : is_map m -> In k (isort slt (map fst m)) -> In k (tag_strings m) /\ In (mval m k) (tag_strings m).
Proof.
  intros H Hk. eapply Permutation_in in Hk; [|apply Permutation_sym, isort_perm].
  apply in_map_iff in Hk as ((k', v) & E & Hin). cbn in E. subst k'. unfold mval.
  rewrite (mget_In m k v H Hin). unfold tag_strings. split; apply in_flat_map; exists (k, v); cbn; auto.
Qed.
Lemma ToKeyVals_ok L stb m : final L stb -> is_map m -> (forall s, In s (tag_strings m) -> In s L) ->
  ToKeyVals stb m = Ok (map fst (kv (table L) m), map snd (kv (table L) m)).
Proof.
  intros F H Hs. unfold ToKeyVals.
  rewrite (foldm_keys (GetIndex stb) (idx (table L)) (mval m)).
  - unfold kv, sorted_tags. rewrite !map_map. reflexivity.
  - intros k Hk. destruct (keys_in m k H Hk). split; apply (final_ok L); auto.
Qed.
Lemma ToKeyValLinear_ok L stb m : final L stb -> is_map m -> (forall s, In s (tag_strings m) -> In s L) ->
  ToKeyValLinear stb m = Ok (flat (map (fun e => (s32 (fst e), s32 (snd e))) (kv (table L) m))).
Proof.
  intros F H Hs. unfold ToKeyValLinear.
  rewrite (foldm_linear (GetIndex stb) (idx (table L)) (mval m)).
  - unfold kv, sorted_tags. rewrite !map_map. reflexivity.
  - intros k Hk. destruct (keys_in m k H Hk). split; apply (final_ok L); auto.
Qed.
Lemma mapm_ok {A B} (f : A -> res B) (g : A -> B) l :
  (forall a, In a l -> f a = Ok (g a)) -> mapm f l = Ok (map g l).
Proof.
  induction l as [|a l IH]; intros H; cbn [mapm map]; [reflexivity|].
  rewrite H by (left; reflexivity). cbn [bind]. rewrite IH by (intros; apply H; right; assumption). reflexivity.
Qed.

(** ** explicit form of the block *)
Definition kvs32 t n := map (fun e => (s32 (fst e), s32 (snd e))) (kv t (hn_Tags n)).
Definition dense_of (t : list (list Z)) (ns : list HLNode) : DenseNodes :=
  let kvs := dense_array (map (kvs32 t) ns) in
  mkDense (map (fun n => s64 (hn_Id n)) ns) (map (fun n => Z.quot (hn_Lat n) 100) ns)
    (map (fun n => Z.quot (hn_Lon n) 100) ns)
    (if zlen kvs =? zlen ns then [] else kvs) [] [].
Definition way_of t (w : HLWay) : Way :=
  mkWay (hw_Id w) (map fst (kv t (hw_Tags w))) (map snd (kv t (hw_Tags w))) (map s64 (hw_Nodes w)).
Definition rel_of t (r : HLRelation) : Relation :=
  mkRelation (hr_Id r) (map fst (kv t (hr_Tags r))) (map snd (kv t (hr_Tags r)))
    (map (fun s => s32 (idx t s)) (hr_Roles r)) (hr_Members r) (map u64 (hr_MemberType r)).
Definition one {A} (c : list A) (g : PrimitiveGroup) : list PrimitiveGroup :=
  match c with [] => [] | _ => [g] end.
Definition block_of (ns : list HLNode) (ws : list HLWay) (rs : list HLRelation) : PrimitiveBlock :=
  let t := table (all_strings ns ws rs) in
  mkBlock None (Some t)
    (one ns (mkGroup None (Some (dense_of t ns)) None [] None []) ++
     one ws (mkGroup None None (Some (map (way_of t) ws)) [] None []) ++
     one rs (mkGroup None None None [] (Some (map (rel_of t) rs)) []))
    100 1000 0 0.

Lemma nodes_group_ok L stb ns : final L stb -> Forall (fun n => is_map (hn_Tags n)) ns ->
  (forall n s, In n ns -> In s (tag_strings (hn_Tags n)) -> In s L) ->
  nodes_group ns stb = Ok (mkGroup None (Some (dense_of (table L) ns)) None [] None []).
Proof.
  intros F Hm Hs. unfold nodes_group.
  assert (G : forall dn, dn_cacheKeys dn = [] -> dn_cacheVals dn = [] ->
    foldm (fun dn n =>
          kv <- ToKeyValLinear stb (hn_Tags n) ;;
          Ok (mkDense (dn_Id dn ++ [s64 (hn_Id n)]) (dn_Lat dn ++ [Z.quot (hn_Lat n) 100])
                (dn_Lon dn ++ [Z.quot (hn_Lon n) 100]) (dn_KeyVals dn ++ kv ++ [0]) [] [])) ns dn =
    Ok (mkDense (dn_Id dn ++ map (fun n => s64 (hn_Id n)) ns)
          (dn_Lat dn ++ map (fun n => Z.quot (hn_Lat n) 100) ns)
          (dn_Lon dn ++ map (fun n => Z.quot (hn_Lon n) 100) ns)
          (dn_KeyVals dn ++ dense_array (map (kvs32 (table L)) ns)) [] [])).
  { induction ns as [|n ns IH]; intros dn C1 C2; cbn [foldm map dense_array].
    - rewrite !app_nil_r. destruct dn; cbn in *; subst; reflexivity.
    - apply Forall_cons_iff in Hm as [Hn Hm].
      rewrite (ToKeyValLinear_ok L stb (hn_Tags n) F Hn (fun s => Hs n s (or_introl eq_refl))).
      cbn [bind]. rewrite IH; try reflexivity; try assumption.
      + cbn [dn_Id dn_Lat dn_Lon dn_KeyVals]. rewrite <- !app_assoc. reflexivity.
      + intros n' s Hin. apply Hs. right; assumption. }
  rewrite G by reflexivity. cbn [bind DenseNodes0 dn_Id dn_Lat dn_Lon dn_KeyVals app].
  unfold dense_of. rewrite zlen_map. destruct (_ =? zlen ns); reflexivity.
Qed.

Lemma one_ok {A} (l : list A) (g : PrimitiveGroup) :
  (if 0 <? zlen l then g <- Ok g ;; Ok [g] else Ok []) = Ok (one l g).
Proof.
  destruct l as [|a l]; [reflexivity|]. rewrite zlen_cons. pose proof (zlen_nonneg l).
  destruct (Z.ltb_spec 0 (1 + zlen l)); [reflexivity|lia].
Qed.
Lemma MakePrimitiveBlock_ok ns ws rs :
  Forall (fun n => is_map (hn_Tags n)) ns -> Forall (fun w => is_map (hw_Tags w)) ws ->
  Forall (fun r => is_map (hr_Tags r)) rs ->
  MakePrimitiveBlock ns ws rs = Ok (block_of ns ws rs).
Proof.
  intros Hn Hw Hr. unfold MakePrimitiveBlock.
  set (L := all_strings ns ws rs).
  destruct (built L) as (stb & E & F).
  assert (E' : (stb <- nodes_add ns NewStringTableBuilder ;; stb <- ways_add ws stb ;;
                stb <- rels_add rs stb ;; Finalize stb) = Ok stb).
  { rewrite <- E. unfold L. rewrite <- add_all. rewrite bind_assoc.
    destruct (nodes_add ns NewStringTableBuilder); cbn [bind]; [|reflexivity..].
    rewrite bind_assoc. reflexivity. }
  assert (X : forall (K : Builder -> res PrimitiveBlock),
    (stb <- nodes_add ns NewStringTableBuilder ;; stb <- ways_add ws stb ;;
     stb <- rels_add rs stb ;; stb <- Finalize stb ;; K stb) = K stb).
  { intros K. revert E'. destruct (nodes_add ns _); cbn [bind]; try discriminate.
    destruct (ways_add ws _); cbn [bind]; try discriminate.
    destruct (rels_add rs _); cbn [bind]; try discriminate. intros ->. reflexivity. }
  rewrite X. clear X E'.
  assert (S1 : forall n s, In n ns -> In s (tag_strings (hn_Tags n)) -> In s L).
  { intros n s H1 H2. unfold L, all_strings. rewrite !in_app_iff. left. apply in_flat_map. exists n; auto. }
  assert (S2 : forall n s, In n ws -> In s (tag_strings (hw_Tags n)) -> In s L).
  { intros n s H1 H2. unfold L, all_strings. rewrite !in_app_iff. right; left. apply in_flat_map. exists n; auto. }
  assert (S3 : forall n s, In n rs -> In s (tag_strings (hr_Tags n)) \/ In s (hr_Roles n) -> In s L).
  { intros n s H1 H2. unfold L, all_strings. rewrite !in_app_iff. right; right. apply in_flat_map. exists n.
    rewrite in_app_iff. auto. }
  rewrite (nodes_group_ok L) by assumption.
  assert (G2 : ways_group ws stb = Ok (mkGroup None None (Some (map (way_of (table L)) ws)) [] None [])).
  { unfold ways_group. rewrite (mapm_ok _ (way_of (table L))); [reflexivity|].
    intros w Hin. rewrite (ToKeyVals_ok L); [reflexivity|assumption| |intros; eapply S2; eauto].
    eapply Forall_forall in Hw; eauto. }
  assert (G3 : rels_group rs stb = Ok (mkGroup None None None [] (Some (map (rel_of (table L)) rs)) [])).
  { unfold rels_group. rewrite (mapm_ok _ (rel_of (table L))); [reflexivity|].
    intros r Hin. rewrite (ToKeyVals_ok L); [|assumption| |intros; eapply S3; eauto].
    - cbn [bind]. rewrite (mapm_ok _ (fun s => s32 (idx (table L) s))); [reflexivity|].
      intros s Hs. rewrite (final_ok L); [reflexivity|assumption|right; eauto].
    - eapply Forall_forall in Hr; eauto. }
  rewrite G2, G3. destruct F as [FL _]. unfold ToStringTable, block_of. fold L. rewrite FL.
  rewrite !one_ok. reflexivity.
Qed.
