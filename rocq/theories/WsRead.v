(** * WsRead: the readers accept every plain message of the schema. *)
From Verif Require Import Base BaseLemmas PbModel PbSpec PbProofs PbProofs2 PbThms TModel TSpec TProofs TMsg TMsg2 T2Raw WsSpec WsProofs.

Definition var1 (n : Z) (f : pbfield) : list (list Z) := match f with PV m _ v => if m =? n then [v] else [] | PB _ _ _ _ => [] end.
Definition chunk1 (n : Z) (f : pbfield) : list (list Z) := match f with PV _ _ _ => [] | PB m _ _ p => if m =? n then [p] else [] end.
Lemma chunks1 n fs : concat (map (chunk1 n) fs) = chunks n fs.
Proof. reflexivity. Qed.
Lemma varints1 n fs : concat (map (var1 n) fs) = varints n fs.
Proof. reflexivity. Qed.
Lemma in_chunks n k l p fs : In (PB n k l p) fs -> In p (chunks n fs).
Proof.
  intros H. unfold chunks. apply in_concat. exists [p]. split; [|left; reflexivity].
  apply in_map_iff. exists (PB n k l p). split; [|exact H]. rewrite Z.eqb_refl. reflexivity.
Qed.
Lemma in_varints n k v fs : In (PV n k v) fs -> In v (varints n fs).
Proof.
  intros H. unfold varints. apply in_concat. exists [v]. split; [|left; reflexivity].
  apply in_map_iff. exists (PV n k v). split; [|exact H]. rewrite Z.eqb_refl. reflexivity.
Qed.
Lemma plain_v vs bs once fs n k v : plain vs bs once fs -> In (PV n k v) fs -> In n vs.
Proof. intros [F _] H. rewrite Forall_forall in F. apply (F _ H). Qed.
Lemma plain_b vs bs once fs n k l p : plain vs bs once fs -> In (PB n k l p) fs -> In n bs.
Proof. intros [F _] H. rewrite Forall_forall in F. apply (F _ H). Qed.
Lemma okb n k l p : pb_ok (PB n k l p) -> varint_of (8 * n + 2) k /\ len_prefix l p.
Proof. intros (_ & A & B & _). split; [exact A|apply lenprefix_vof, B]. Qed.
Lemma okv n k v : pb_ok (PV n k v) -> varint_of (8 * n + 0) k /\ varint_of (leb_value v) v.
Proof. intros (_ & A & B). split; assumption. Qed.

Lemma scalar_i64 n fs x d : scalar int64_of d n fs x -> match last_of (varints n fs) with Some v => s64 (leb_value v) | None => d end = x.
Proof. unfold scalar. destruct (last_of (varints n fs)); intros H; [symmetry; apply i64_val, H|symmetry; exact H]. Qed.
Lemma scalar_i32 n fs x d : scalar int32_of d n fs x -> match last_of (varints n fs) with Some v => s32 (leb_value v) | None => d end = x.
Proof. unfold scalar. destruct (last_of (varints n fs)); intros H; [symmetry; apply i32_val, H|symmetry; exact H]. Qed.

Ltac upd_case := let n := fresh "n" in intros [n ? ?|n ? ? ?] st; cbn;
  repeat (match goal with |- context [n =? ?k] => destruct (Z.eqb_spec n k); subst end; cbn; try lia); rewrite ?app_nil_r; reflexivity.

Ltac fld Hk Hv R := eapply consumes_ext; [|(first [eapply field_reads; [exact Hk|intros; reflexivity|R] | eapply field_skip; [exact Hk|exact Hv|intros; reflexivity]])]; intros ? ?; reflexivity.

(** ** Way *)
Definition way_upd (f : pbfield) (st : Way) : Way :=
  match f with
  | PV n _ v => if n =? 1 then mkWay (s64 (leb_value v)) (way_Keys st) (way_Vals st) (way_Refs st) else st
  | PB n _ _ p => if n =? 2 then mkWay (way_ID st) (v_u32 p) (way_Vals st) (way_Refs st)
             else if n =? 3 then mkWay (way_ID st) (way_Keys st) (v_u32 p) (way_Refs st)
             else if n =? 8 then mkWay (way_ID st) (way_Keys st) (way_Vals st) (v_delta p) else st
  end.
Lemma way_read p w e : way_msg p w -> zlen p < 2^63 -> ReadWay (mkslice p e) Way0 = Ok w.
Proof.
  intros (fs & M & P & (A & B & C & D)) Hl.
  apply rep_value_u32 in B as [B1 B2]. apply rep_value_u32 in C as [C1 C2]. apply rep_value_delta in D as [D1 D2].
  destruct (packed_value v_u32 2 _ _ _ fs eq_refl P) as [E2 F2]; [cbn; lia|cbn; tauto|].
  destruct (packed_value v_u32 3 _ _ _ fs eq_refl P) as [E3 F3]; [cbn; lia|cbn; tauto|].
  destruct (packed_value v_delta 8 _ _ _ fs eq_refl P) as [E8 F8]; [cbn; lia|cbn; tauto|].
  specialize (F2 B1). specialize (F3 C1). specialize (F8 D1).
  unfold ReadWay. rewrite (read_fold way_handler way_upd p fs e Way0 M Hl).
  - f_equal. set (r := fold_left _ _ _).
    assert (R1 : way_ID r = way_ID w).
    { unfold r. rewrite (fold_last way_upd way_ID (var1 1) (fun v => s64 (leb_value v))) by upd_case. apply scalar_i64, A. }
    assert (R2 : way_Keys r = way_Keys w).
    { unfold r. rewrite (fold_last way_upd way_Keys (chunk1 2) v_u32) by upd_case. rewrite chunks1. rewrite <- B2, <- E2. reflexivity. }
    assert (R3 : way_Vals r = way_Vals w).
    { unfold r. rewrite (fold_last way_upd way_Vals (chunk1 3) v_u32) by upd_case. rewrite chunks1. rewrite <- C2, <- E3. reflexivity. }
    assert (R4 : way_Refs r = way_Refs w).
    { unfold r. rewrite (fold_last way_upd way_Refs (chunk1 8) v_delta) by upd_case. rewrite chunks1. rewrite <- D2, <- E8. reflexivity. }
    clearbody r. destruct r, w; cbn in *. congruence.
  - intros [n k v|n k l q] Hin Hok.
    + apply okv in Hok as [Hk Hv]. pose proof (plain_v _ _ _ _ _ _ _ P Hin) as [<-|[]]. cbn [pb_wire way_upd Z.eqb Pos.eqb].
      fld Hk Hv ltac:(apply (reads_i64_any _ _ Hv)).
    + apply okb in Hok as [Hk Hv]. pose proof (in_chunks _ _ _ _ _ Hin) as Hc.
      pose proof (plain_b _ _ _ _ _ _ _ _ P Hin) as [<-|[<-|[<-|[<-|[]]]]]; cbn [pb_wire way_upd Z.eqb Pos.eqb].
      * fld Hk Hv ltac:(apply reads_u32; auto).
      * fld Hk Hv ltac:(apply reads_u32; auto).
      * fld Hk Hv ltac:(fail).
      * fld Hk Hv ltac:(apply reads_delta; auto).
Qed.

(** ** Relation *)
Definition rel_upd (f : pbfield) (r : Relation) : Relation :=
  match f with
  | PV n _ v => if n =? 1 then mkRelation (s64 (leb_value v)) (rel_Keys r) (rel_Vals r) (rel_RolesSID r) (rel_MemIDs r) (rel_MemberType r) else r
  | PB n _ _ p => if n =? 2 then mkRelation (rel_ID r) (v_u32 p) (rel_Vals r) (rel_RolesSID r) (rel_MemIDs r) (rel_MemberType r)
             else if n =? 3 then mkRelation (rel_ID r) (rel_Keys r) (v_u32 p) (rel_RolesSID r) (rel_MemIDs r) (rel_MemberType r)
             else if n =? 8 then mkRelation (rel_ID r) (rel_Keys r) (rel_Vals r) (v_i32 p) (rel_MemIDs r) (rel_MemberType r)
             else if n =? 9 then mkRelation (rel_ID r) (rel_Keys r) (rel_Vals r) (rel_RolesSID r) (v_delta p) (rel_MemberType r)
             else if n =? 10 then mkRelation (rel_ID r) (rel_Keys r) (rel_Vals r) (rel_RolesSID r) (rel_MemIDs r) (v_u64 p) else r
  end.
Lemma relation_read p w e : relation_msg p w -> zlen p < 2^63 -> ReadRelation (mkslice p e) Relation0 = Ok w.
Proof.
  intros (fs & M & P & (A & B & C & D & G & H)) Hl.
  apply rep_value_u32 in B as [B1 B2]. apply rep_value_u32 in C as [C1 C2]. apply rep_value_i32 in D as [D1 D2].
  apply rep_value_delta in G as [G1 G2]. apply rep_value_u64 in H as [H1 H2].
  destruct (packed_value v_u32 2 _ _ _ fs eq_refl P) as [E2 F2]; [cbn; lia|cbn; tauto|].
  destruct (packed_value v_u32 3 _ _ _ fs eq_refl P) as [E3 F3]; [cbn; lia|cbn; tauto|].
  destruct (packed_value v_i32 8 _ _ _ fs eq_refl P) as [E8 F8]; [cbn; lia|cbn; tauto|].
  destruct (packed_value v_delta 9 _ _ _ fs eq_refl P) as [E9 F9]; [cbn; lia|cbn; tauto|].
  destruct (packed_value v_u64 10 _ _ _ fs eq_refl P) as [E10 F10]; [cbn; lia|cbn; tauto|].
  specialize (F2 B1). specialize (F3 C1). specialize (F8 D1). specialize (F9 G1). specialize (F10 H1).
  unfold ReadRelation. rewrite (read_fold relation_handler rel_upd p fs e Relation0 M Hl).
  - f_equal. set (r := fold_left _ _ _).
    assert (R1 : rel_ID r = rel_ID w).
    { unfold r. rewrite (fold_last rel_upd rel_ID (var1 1) (fun v => s64 (leb_value v))) by upd_case. apply scalar_i64, A. }
    assert (R2 : rel_Keys r = rel_Keys w).
    { unfold r. rewrite (fold_last rel_upd rel_Keys (chunk1 2) v_u32) by upd_case. rewrite chunks1. rewrite <- B2, <- E2. reflexivity. }
    assert (R3 : rel_Vals r = rel_Vals w).
    { unfold r. rewrite (fold_last rel_upd rel_Vals (chunk1 3) v_u32) by upd_case. rewrite chunks1. rewrite <- C2, <- E3. reflexivity. }
    assert (R4 : rel_RolesSID r = rel_RolesSID w).
    { unfold r. rewrite (fold_last rel_upd rel_RolesSID (chunk1 8) v_i32) by upd_case. rewrite chunks1. rewrite <- D2, <- E8. reflexivity. }
    assert (R5 : rel_MemIDs r = rel_MemIDs w).
    { unfold r. rewrite (fold_last rel_upd rel_MemIDs (chunk1 9) v_delta) by upd_case. rewrite chunks1. rewrite <- G2, <- E9. reflexivity. }
    assert (R6 : rel_MemberType r = rel_MemberType w).
    { unfold r. rewrite (fold_last rel_upd rel_MemberType (chunk1 10) v_u64) by upd_case. rewrite chunks1. rewrite <- H2, <- E10. reflexivity. }
    clearbody r. destruct r, w; cbn in *. congruence.
  - intros [n k v|n k l q] Hin Hok.
    + apply okv in Hok as [Hk Hv]. pose proof (plain_v _ _ _ _ _ _ _ P Hin) as [<-|[]]. cbn [pb_wire rel_upd Z.eqb Pos.eqb].
      fld Hk Hv ltac:(apply (reads_i64_any _ _ Hv)).
    + apply okb in Hok as [Hk Hv]. pose proof (in_chunks _ _ _ _ _ Hin) as Hc.
      pose proof (plain_b _ _ _ _ _ _ _ _ P Hin) as [<-|[<-|[<-|[<-|[<-|[<-|[]]]]]]]; cbn [pb_wire rel_upd Z.eqb Pos.eqb].
      * fld Hk Hv ltac:(apply reads_u32; auto).
      * fld Hk Hv ltac:(apply reads_u32; auto).
      * fld Hk Hv ltac:(fail).
      * fld Hk Hv ltac:(apply reads_i32; auto).
      * fld Hk Hv ltac:(apply reads_delta; auto).
      * fld Hk Hv ltac:(apply reads_u64; auto).
Qed.

(** ** DenseNodes *)
Definition dense_upd (f : pbfield) (d : DenseNodes) : DenseNodes :=
  match f with
  | PV n _ v => d
  | PB n _ _ p => if n =? 1 then mkDense (v_delta p) (dn_Lat d) (dn_Lon d) (dn_KeyVals d) (dn_cacheKeys d) (dn_cacheVals d)
             else if n =? 8 then mkDense (dn_Id d) (v_delta p) (dn_Lon d) (dn_KeyVals d) (dn_cacheKeys d) (dn_cacheVals d)
             else if n =? 9 then mkDense (dn_Id d) (dn_Lat d) (v_delta p) (dn_KeyVals d) (dn_cacheKeys d) (dn_cacheVals d)
             else if n =? 10 then mkDense (dn_Id d) (dn_Lat d) (dn_Lon d) (v_i32 p) (dn_cacheKeys d) (dn_cacheVals d) else d
  end.
Lemma dense_read p d e : dense_msg p d -> zlen p < 2^63 -> ReadDenseNodes (mkslice p e) DenseNodes0 = Ok (strip d).
Proof.
  intros (fs & M & P & (A & B & C & D)) Hl.
  apply rep_value_delta in A as [A1 A2]. apply rep_value_delta in B as [B1 B2]. apply rep_value_delta in C as [C1 C2]. apply rep_value_i32 in D as [D1 D2].
  destruct (packed_value v_delta 1 _ _ _ fs eq_refl P) as [E1 F1]; [cbn; lia|cbn; tauto|].
  destruct (packed_value v_delta 8 _ _ _ fs eq_refl P) as [E8 F8]; [cbn; lia|cbn; tauto|].
  destruct (packed_value v_delta 9 _ _ _ fs eq_refl P) as [E9 F9]; [cbn; lia|cbn; tauto|].
  destruct (packed_value v_i32 10 _ _ _ fs eq_refl P) as [E10 F10]; [cbn; lia|cbn; tauto|].
  specialize (F1 A1). specialize (F8 B1). specialize (F9 C1). specialize (F10 D1).
  unfold ReadDenseNodes. rewrite (read_fold dense_handler dense_upd p fs e DenseNodes0 M Hl).
  - f_equal. set (r := fold_left _ _ _).
    assert (R1 : dn_Id r = dn_Id d).
    { unfold r. rewrite (fold_last dense_upd dn_Id (chunk1 1) v_delta) by upd_case. rewrite chunks1. rewrite <- A2, <- E1. reflexivity. }
    assert (R2 : dn_Lat r = dn_Lat d).
    { unfold r. rewrite (fold_last dense_upd dn_Lat (chunk1 8) v_delta) by upd_case. rewrite chunks1. rewrite <- B2, <- E8. reflexivity. }
    assert (R3 : dn_Lon r = dn_Lon d).
    { unfold r. rewrite (fold_last dense_upd dn_Lon (chunk1 9) v_delta) by upd_case. rewrite chunks1. rewrite <- C2, <- E9. reflexivity. }
    assert (R4 : dn_KeyVals r = dn_KeyVals d).
    { unfold r. rewrite (fold_last dense_upd dn_KeyVals (chunk1 10) v_i32) by upd_case. rewrite chunks1. rewrite <- D2, <- E10. reflexivity. }
    assert (R5 : dn_cacheKeys r = []).
    { unfold r. rewrite (fold_const dense_upd dn_cacheKeys) by upd_case. reflexivity. }
    assert (R6 : dn_cacheVals r = []).
    { unfold r. rewrite (fold_const dense_upd dn_cacheVals) by upd_case. reflexivity. }
    clearbody r. destruct r, d; cbn in *. unfold strip; cbn. congruence.
  - intros [n k v|n k l q] Hin Hok.
    + destruct (plain_v _ _ _ _ _ _ _ P Hin).
    + apply okb in Hok as [Hk Hv]. pose proof (in_chunks _ _ _ _ _ Hin) as Hc.
      pose proof (plain_b _ _ _ _ _ _ _ _ P Hin) as [<-|[<-|[<-|[<-|[<-|[]]]]]]; cbn [pb_wire dense_upd Z.eqb Pos.eqb].
      * fld Hk Hv ltac:(apply reads_delta; auto).
      * fld Hk Hv ltac:(fail).
      * fld Hk Hv ltac:(apply reads_delta; auto).
      * fld Hk Hv ltac:(apply reads_delta; auto).
      * fld Hk Hv ltac:(apply reads_i32; auto).
Qed.

(** ** StringTable *)
Lemma reads_string L p : len_prefix L p -> reads DecodeString (L ++ p) p.
Proof.
  intros HL b pre post Hv Hb Hl. unfold DecodeString. rewrite (DecodeBytes_at b pre L p post) by assumption. reflexivity.
Qed.
Definition st_upd (f : pbfield) (st : list (list Z)) : list (list Z) := st ++ chunk1 1 f.
Lemma strings_read p st e : strings_msg p st -> zlen p < 2^63 -> ReadStringTable (mkslice p e) [] = Ok st.
Proof.
  intros (fs & M & P & ->) Hl. unfold ReadStringTable. rewrite (read_fold st_handler st_upd p fs e [] M Hl).
  - f_equal. rewrite (fold_append st_upd (fun x => x) (chunk1 1) (fun x => x)) by (intros f st; rewrite map_id; reflexivity).
    rewrite map_id. reflexivity.
  - intros [n k v|n k l q] Hin Hok.
    + destruct (plain_v _ _ _ _ _ _ _ P Hin).
    + apply okb in Hok as [Hk Hv]. pose proof (plain_b _ _ _ _ _ _ _ _ P Hin) as [<-|[]].
      fld Hk Hv ltac:(apply reads_string; assumption).
Qed.

(** ** PrimitiveGroup *)
Definition dd (p : list Z) : DenseNodes := match ReadDenseNodes (mkslice p []) DenseNodes0 with Ok d => d | _ => DenseNodes0 end.
Definition dw (p : list Z) : Way := match ReadWay (mkslice p []) Way0 with Ok w => w | _ => Way0 end.
Definition dr (p : list Z) : Relation := match ReadRelation (mkslice p []) Relation0 with Ok w => w | _ => Relation0 end.
Definition group_upd (pbr : PBReader) (f : pbfield) (g : PrimitiveGroup) : PrimitiveGroup :=
  match f with
  | PV _ _ _ => g
  | PB n _ _ p =>
      if n =? 2 then (if SkipDenseNodes pbr then set_raw_dense (Some p) g else set_dense (Some (dd p)) g)
      else if n =? 3 then (if SkipWays pbr then set_raw_ways (pg_RawWays g ++ [p]) g else set_ways (opt_append (pg_Ways g) (dw p)) g)
      else if n =? 4 then (if SkipRelations pbr then set_raw_rels (pg_RawRelations g ++ [p]) g else set_rels (opt_append (pg_Relations g) (dr p)) g)
      else g
  end.
Lemma opt_last {A} (o : option A) l : opt_list o = l -> last_of l = o.
Proof. intros <-. destruct o; reflexivity. Qed.
Lemma elems_append {A} (o : option (list A)) x : elems (opt_append o x) = elems o ++ [x].
Proof. destruct o; reflexivity. Qed.
Lemma map_val {A B} (R : A -> B -> Prop) (f : A -> B) l ys : (forall x y, In x l -> R x y -> f x = y) -> Forall2 R l ys -> map f l = ys.
Proof.
  intros H F. induction F as [|x y l ys Hxy F IH]; [reflexivity|]. cbn [map]. rewrite (H x y); [|left; reflexivity|exact Hxy].
  f_equal. apply IH. intros a b Hin. apply H. right. exact Hin.
Qed.
Lemma f2_in {A B} (R : A -> B -> Prop) l ys x : Forall2 R l ys -> In x l -> exists y, In y ys /\ R x y.
Proof.
  intros F. induction F as [|a b l ys Hab F IH]; [intros []|]. intros [->|H]; [exists b; split; [left; reflexivity|assumption]|].
  destruct (IH H) as (y & Hy & Hr). exists y. split; [right; exact Hy|exact Hr].
Qed.
Ltac gupd_case pbr Hs := let n := fresh "n" in intros [n ? ?|n ? ? ?] st; unfold group_upd; cbn [chunk1 map];
  repeat (match goal with |- context [n =? ?k] => destruct (Z.eqb_spec n k); subst end; cbn [chunk1 map]; try lia);
  rewrite ?Hs; destruct pbr as [s0 s1 s2 s3]; cbn in Hs |- *; subst; try destruct s1; try destruct s2; try destruct s3; cbn; rewrite ?elems_append, ?app_nil_r; reflexivity.

Definition gout (pbr : PBReader) (fs : list pbfield) : PrimitiveGroup := fold_left (fun st f => group_upd pbr f st) fs PrimitiveGroup0.
Lemma group_fold pbr p fs g : message p fs -> zlen p < 2^63 -> plain [] [2; 3; 4; 5] [2] fs -> group_of pbr fs g ->
  (forall e, ReadPrimitiveGroup pbr (mkslice p e) PrimitiveGroup0 = Ok (gout pbr fs)) /\ same_group g (gout pbr fs).
Proof.
  intros M Hl P (A & B & C).
  assert (SD : SkipDenseNodes pbr = false -> forall q d, In q (chunks 2 fs) -> dense_msg q d -> forall e, ReadDenseNodes (mkslice q e) DenseNodes0 = Ok (strip d)).
  { intros _ q d Hq Hd e. apply dense_read; [exact Hd|]. pose proof (chunk_len _ _ _ _ M Hq). lia. }
  assert (SW : forall q d, In q (chunks 3 fs) -> way_msg q d -> forall e, ReadWay (mkslice q e) Way0 = Ok d).
  { intros q d Hq Hd e. apply way_read; [exact Hd|]. pose proof (chunk_len _ _ _ _ M Hq). lia. }
  assert (SR : forall q d, In q (chunks 4 fs) -> relation_msg q d -> forall e, ReadRelation (mkslice q e) Relation0 = Ok d).
  { intros q d Hq Hd e. apply relation_read; [exact Hd|]. pose proof (chunk_len _ _ _ _ M Hq). lia. }
  split.
  - intros e. unfold ReadPrimitiveGroup. rewrite (read_fold (group_handler pbr) (group_upd pbr) p fs e PrimitiveGroup0 M Hl); [reflexivity|].
    intros [n k v|n k l q] Hin Hok.
    + destruct (plain_v _ _ _ _ _ _ _ P Hin).
    + apply okb in Hok as [Hk Hv]. pose proof (in_chunks _ _ _ _ _ Hin) as Hc.
      pose proof (plain_b _ _ _ _ _ _ _ _ P Hin) as [<-|[<-|[<-|[<-|[]]]]]; cbn [pb_wire group_upd Z.eqb Pos.eqb].
      * destruct (SkipDenseNodes pbr) eqn:Es.
        { eapply consumes_ext; [|eapply (field_raw (group_handler pbr) _ _ (fun x => set_raw_dense (Some x))); [exact Hk|exact Hv|intros; apply gh_raw_dense; exact Es]]. intros ? ?. cbn [group_upd Z.eqb Pos.eqb]. rewrite Es. reflexivity. }
        destruct A as [_ A]. destruct (f2_in _ _ _ _ A Hc) as (d & _ & Hd). pose proof (SD eq_refl _ _ Hc Hd) as Hr.
        eapply consumes_ext; [|eapply (field_nested (group_handler pbr) _ _ (fun i => ReadDenseNodes i DenseNodes0) (fun x => set_dense (Some x))); [exact Hk|exact Hv|intros; apply gh_dense; exact Es|exact Hr]].
        intros ? ?. cbn [group_upd Z.eqb Pos.eqb]. rewrite Es. unfold dd. rewrite Hr. reflexivity.
      * destruct (SkipWays pbr) eqn:Es.
        { eapply consumes_ext; [|eapply (field_raw (group_handler pbr) _ _ (fun p g => set_raw_ways (pg_RawWays g ++ [p]) g)); [exact Hk|exact Hv|intros; apply gh_raw_ways; exact Es]]. intros ? ?. cbn [group_upd Z.eqb Pos.eqb]. rewrite Es. reflexivity. }
        destruct B as [_ B]. destruct (f2_in _ _ _ _ B Hc) as (d & _ & Hd). pose proof (SW _ _ Hc Hd) as Hr.
        eapply consumes_ext; [|eapply (field_nested (group_handler pbr) _ _ (fun i => ReadWay i Way0) (fun w g => set_ways (opt_append (pg_Ways g) w) g)); [exact Hk|exact Hv|intros; apply gh_ways; exact Es|exact Hr]].
        intros ? ?. cbn [group_upd Z.eqb Pos.eqb]. rewrite Es. unfold dw. rewrite Hr. reflexivity.
      * destruct (SkipRelations pbr) eqn:Es.
        { eapply consumes_ext; [|eapply (field_raw (group_handler pbr) _ _ (fun p g => set_raw_rels (pg_RawRelations g ++ [p]) g)); [exact Hk|exact Hv|intros; apply gh_raw_rels; exact Es]]. intros ? ?. cbn [group_upd Z.eqb Pos.eqb]. rewrite Es. reflexivity. }
        destruct C as [_ C]. destruct (f2_in _ _ _ _ C Hc) as (d & _ & Hd). pose proof (SR _ _ Hc Hd) as Hr.
        eapply consumes_ext; [|eapply (field_nested (group_handler pbr) _ _ (fun i => ReadRelation i Relation0) (fun w g => set_rels (opt_append (pg_Relations g) w) g)); [exact Hk|exact Hv|intros; apply gh_rels; exact Es|exact Hr]].
        intros ? ?. cbn [group_upd Z.eqb Pos.eqb]. rewrite Es. unfold dr. rewrite Hr. reflexivity.
      * fld Hk Hv ltac:(fail).
  - unfold same_group, gout. repeat split.
    + destruct (SkipDenseNodes pbr) eqn:Es; destruct A as [A1 A2].
      * rewrite (fold_last (group_upd pbr) pg_RawDense (chunk1 2) Some) by (gupd_case pbr Es). rewrite chunks1, (opt_last _ _ A2). destruct (pg_RawDense g); reflexivity.
      * rewrite A1. apply (fold_const (group_upd pbr) pg_RawDense). gupd_case pbr Es.
    + destruct (SkipDenseNodes pbr) eqn:Es; destruct A as [A1 A2].
      * rewrite A1, (fold_const (group_upd pbr) pg_Dense) by (gupd_case pbr Es). exact I.
      * rewrite (fold_last (group_upd pbr) pg_Dense (chunk1 2) (fun x => Some (dd x))) by (gupd_case pbr Es). rewrite chunks1.
        destruct (pg_Dense g) as [d|]; cbn [opt_list] in A2; inversion A2 as [|q ? ? ? Hq Hn E1]; subst; [|reflexivity..].
        inversion Hn. subst. cbn. unfold dd. rewrite (SD eq_refl q d); [repeat split|rewrite <- E1; left; reflexivity|exact Hq].
    + destruct (SkipWays pbr) eqn:Es; destruct B as [B1 B2].
      * rewrite B1, (fold_const (group_upd pbr) (fun g => elems (pg_Ways g))) by (gupd_case pbr Es). reflexivity.
      * rewrite (fold_append (group_upd pbr) (fun g => elems (pg_Ways g)) (chunk1 3) dw) by (gupd_case pbr Es). rewrite chunks1. cbn [app elems PrimitiveGroup0 pg_Ways].
        eapply map_val; [|exact B2]. intros x y Hx Hy. unfold dw. rewrite (SW x y Hx Hy). reflexivity.
    + destruct (SkipWays pbr) eqn:Es; destruct B as [B1 B2].
      * rewrite (fold_append (group_upd pbr) pg_RawWays (chunk1 3) (fun x => x)) by (gupd_case pbr Es). rewrite map_id, chunks1, B2. reflexivity.
      * rewrite B1, (fold_const (group_upd pbr) pg_RawWays) by (gupd_case pbr Es). reflexivity.
    + destruct (SkipRelations pbr) eqn:Es; destruct C as [B1 B2].
      * rewrite B1, (fold_const (group_upd pbr) (fun g => elems (pg_Relations g))) by (gupd_case pbr Es). reflexivity.
      * rewrite (fold_append (group_upd pbr) (fun g => elems (pg_Relations g)) (chunk1 4) dr) by (gupd_case pbr Es). rewrite chunks1. cbn [app elems PrimitiveGroup0 pg_Relations].
        eapply map_val; [|exact B2]. intros x y Hx Hy. unfold dr. rewrite (SR x y Hx Hy). reflexivity.
    + destruct (SkipRelations pbr) eqn:Es; destruct C as [B1 B2].
      * rewrite (fold_append (group_upd pbr) pg_RawRelations (chunk1 4) (fun x => x)) by (gupd_case pbr Es). rewrite map_id, chunks1, B2. reflexivity.
      * rewrite B1, (fold_const (group_upd pbr) pg_RawRelations) by (gupd_case pbr Es). reflexivity.
Qed.

(** ** PrimitiveBlock *)
Definition dst (p : list Z) : list (list Z) := match ReadStringTable (mkslice p []) [] with Ok d => d | _ => [] end.
Definition dg (pbr : PBReader) (p : list Z) : PrimitiveGroup := match ReadPrimitiveGroup pbr (mkslice p []) PrimitiveGroup0 with Ok d => d | _ => PrimitiveGroup0 end.
Definition block_upd (pbr : PBReader) (f : pbfield) (b : PrimitiveBlock) : PrimitiveBlock :=
  match f with
  | PV n _ v =>
      if n =? 17 then mkBlock (pblk_StringTableRaw b) (pblk_StringTable b) (pblk_PrimitiveGroup b) (s32 (leb_value v)) (pblk_DateGranularity b) (pblk_LatOffset b) (pblk_LonOffset b)
      else if n =? 18 then mkBlock (pblk_StringTableRaw b) (pblk_StringTable b) (pblk_PrimitiveGroup b) (pblk_Granularity b) (s32 (leb_value v)) (pblk_LatOffset b) (pblk_LonOffset b)
      else if n =? 19 then mkBlock (pblk_StringTableRaw b) (pblk_StringTable b) (pblk_PrimitiveGroup b) (pblk_Granularity b) (pblk_DateGranularity b) (s64 (leb_value v)) (pblk_LonOffset b)
      else if n =? 20 then mkBlock (pblk_StringTableRaw b) (pblk_StringTable b) (pblk_PrimitiveGroup b) (pblk_Granularity b) (pblk_DateGranularity b) (pblk_LatOffset b) (s64 (leb_value v))
      else b
  | PB n _ _ p =>
      if n =? 1 then (if SkipStringTable pbr then set_st_raw (Some p) b else set_st (Some (dst p)) b)
      else if n =? 2 then add_groups [dg pbr p] b
      else b
  end.
Ltac bupd_case pbr Hs := let n := fresh "n" in intros [n ? ?|n ? ? ?] st; unfold block_upd; cbn [chunk1 var1 map];
  repeat (match goal with |- context [n =? ?k] => destruct (Z.eqb_spec n k); subst end; cbn [chunk1 var1 map]; try lia);
  rewrite ?Hs; destruct pbr as [s0 s1 s2 s3]; cbn in Hs |- *; subst; try destruct s0; cbn; rewrite ?app_nil_r; reflexivity.

Lemma block_read pbr p b e : block_msg pbr p b -> zlen p < 2^63 ->
  exists b', ReadPrimitiveBlock pbr (mkslice p e) PrimitiveBlock0 = Ok b' /\ same_block b b'.
Proof.
  intros (fs & M & P & (A & B & C & D & E & F)) Hl.
  assert (SS : forall q d, In q (chunks 1 fs) -> strings_msg q d -> forall e, ReadStringTable (mkslice q e) [] = Ok d).
  { intros q d Hq Hd e'. apply strings_read; [exact Hd|]. pose proof (chunk_len _ _ _ _ M Hq). lia. }
  assert (SG : forall q d, In q (chunks 2 fs) -> group_msg pbr q d -> (forall e, ReadPrimitiveGroup pbr (mkslice q e) PrimitiveGroup0 = Ok (dg pbr q)) /\ same_group d (dg pbr q)).
  { intros q d Hq (gfs & Mg & Pg & Hd). assert (Hlq : zlen q < 2^63) by (pose proof (chunk_len _ _ _ _ M Hq); lia).
    destruct (group_fold pbr q gfs d Mg Hlq Pg Hd) as [R1 R2]. unfold dg. rewrite R1. split; [exact R1|exact R2]. }
  exists (fold_left (fun st f => block_upd pbr f st) fs (mkBlock None None [] 100 1000 0 0)). split.
  - unfold ReadPrimitiveBlock. cbn [PrimitiveBlock0 pblk_StringTableRaw pblk_StringTable pblk_PrimitiveGroup pblk_LatOffset pblk_LonOffset].
    rewrite (read_fold (block_handler pbr) (block_upd pbr) p fs e _ M Hl); [reflexivity|].
    intros [n k v|n k l q] Hin Hok.
    + apply okv in Hok as [Hk Hv]. pose proof (plain_v _ _ _ _ _ _ _ P Hin) as [<-|[<-|[<-|[<-|[]]]]]; cbn [pb_wire].
      * fld Hk Hv ltac:(apply (reads_i32_any _ _ Hv)).
      * fld Hk Hv ltac:(apply (reads_i32_any _ _ Hv)).
      * fld Hk Hv ltac:(apply (reads_i64_any _ _ Hv)).
      * fld Hk Hv ltac:(apply (reads_i64_any _ _ Hv)).
    + apply okb in Hok as [Hk Hv]. pose proof (in_chunks _ _ _ _ _ Hin) as Hc.
      pose proof (plain_b _ _ _ _ _ _ _ _ P Hin) as [<-|[<-|[]]]; cbn [pb_wire].
      * destruct (SkipStringTable pbr) eqn:Es.
        { eapply consumes_ext; [|eapply (field_raw (block_handler pbr) _ _ (fun x => set_st_raw (Some x))); [exact Hk|exact Hv|intros; unfold block_handler; rewrite Es; reflexivity]].
          intros ? ?. cbn [block_upd Z.eqb Pos.eqb]. rewrite Es. reflexivity. }
        destruct A as [_ A]. destruct (f2_in _ _ _ _ A Hc) as (d & _ & Hd). pose proof (SS _ _ Hc Hd) as Hr.
        eapply consumes_ext; [|eapply (field_nested (block_handler pbr) _ _ (fun i => ReadStringTable i []) (fun x => set_st (Some x))); [exact Hk|exact Hv|intros; unfold block_handler; rewrite Es; reflexivity|exact Hr]].
        intros ? ?. cbn [block_upd Z.eqb Pos.eqb]. rewrite Es. unfold dst. rewrite Hr. reflexivity.
      * destruct (f2_in _ _ _ _ B Hc) as (d & _ & Hd). destruct (SG _ _ Hc Hd) as [Hr _].
        eapply consumes_ext; [|eapply (field_nested (block_handler pbr) _ _ (fun i => ReadPrimitiveGroup pbr i PrimitiveGroup0) (fun x => add_groups [x])); [exact Hk|exact Hv|intros; reflexivity|exact Hr]].
        intros ? ?. reflexivity.
  - unfold same_block. repeat split.
    + destruct (SkipStringTable pbr) eqn:Es; destruct A as [A1 A2].
      * rewrite (fold_last (block_upd pbr) pblk_StringTableRaw (chunk1 1) Some) by (bupd_case pbr Es). rewrite chunks1, (opt_last _ _ A2). destruct (pblk_StringTableRaw b); reflexivity.
      * rewrite A1. apply (fold_const (block_upd pbr) pblk_StringTableRaw). bupd_case pbr Es.
    + destruct (SkipStringTable pbr) eqn:Es; destruct A as [A1 A2].
      * rewrite A1, (fold_const (block_upd pbr) pblk_StringTable) by (bupd_case pbr Es). reflexivity.
      * rewrite (fold_last (block_upd pbr) pblk_StringTable (chunk1 1) (fun x => Some (dst x))) by (bupd_case pbr Es). rewrite chunks1.
        destruct (pblk_StringTable b) as [d|]; cbn [opt_list] in A2; inversion A2 as [|q ? ? ? Hq Hn E1]; subst; [|reflexivity..].
        inversion Hn. subst. cbn. unfold dst. rewrite (SS q d); [reflexivity|rewrite <- E1; left; reflexivity|exact Hq].
    + assert (Es : True) by exact I. rewrite (fold_append (block_upd pbr) pblk_PrimitiveGroup (chunk1 2) (dg pbr)) by (bupd_case pbr Es). rewrite chunks1. cbn [app pblk_PrimitiveGroup].
      assert (Hin : forall q, In q (chunks 2 fs) -> In q (chunks 2 fs)) by auto. revert B Hin. generalize (chunks 2 fs) at 1 2 4. intros cs B Hin.
      induction B as [|q d cs ds Hq B IH]; [constructor|]. cbn [map]. constructor; [apply SG; [apply Hin; left; reflexivity|exact Hq]|apply IH; intros x Hx; apply Hin; right; exact Hx].
    + assert (Es : True) by exact I. rewrite (fold_last (block_upd pbr) pblk_Granularity (var1 17) (fun v => s32 (leb_value v))) by (bupd_case pbr Es). apply scalar_i32, C.
    + assert (Es : True) by exact I. rewrite (fold_last (block_upd pbr) pblk_DateGranularity (var1 18) (fun v => s32 (leb_value v))) by (bupd_case pbr Es). apply scalar_i32, D.
    + assert (Es : True) by exact I. rewrite (fold_last (block_upd pbr) pblk_LatOffset (var1 19) (fun v => s64 (leb_value v))) by (bupd_case pbr Es). apply scalar_i64, E.
    + assert (Es : True) by exact I. rewrite (fold_last (block_upd pbr) pblk_LonOffset (var1 20) (fun v => s64 (leb_value v))) by (bupd_case pbr Es). apply scalar_i64, F.
Qed.

(** ** BlobHeader *)
Definition bh_upd (f : pbfield) (h : BlobHeader) : BlobHeader :=
  match f with
  | PV n _ v => if n =? 3 then mkBlobHeader (bh_Type h) (s32 (leb_value v)) else h
  | PB n _ _ p => if n =? 1 then mkBlobHeader p (bh_DataSize h) else h
  end.
Lemma header_read p h e : header_msg p h -> zlen p < 2^63 -> ReadBlobHeader (mkslice p e) = Ok h.
Proof.
  intros (fs & M & P & (A & B)) Hl. unfold ReadBlobHeader. rewrite (read_fold bh_handler bh_upd p fs e BlobHeader0 M Hl).
  - f_equal. set (r := fold_left _ _ _).
    assert (R1 : bh_Type r = bh_Type h).
    { unfold r. rewrite (fold_last bh_upd bh_Type (chunk1 1) (fun x => x)) by upd_case. rewrite chunks1, A. reflexivity. }
    assert (R2 : bh_DataSize r = bh_DataSize h).
    { unfold r. rewrite (fold_last bh_upd bh_DataSize (var1 3) (fun v => s32 (leb_value v))) by upd_case. apply scalar_i32, B. }
    clearbody r. destruct r, h; cbn in *. congruence.
  - intros [n k v|n k l q] Hin Hok.
    + apply okv in Hok as [Hk Hv]. pose proof (plain_v _ _ _ _ _ _ _ P Hin) as [<-|[]]. cbn [pb_wire].
      fld Hk Hv ltac:(apply (reads_i32_any _ _ Hv)).
    + apply okb in Hok as [Hk Hv]. pose proof (plain_b _ _ _ _ _ _ _ _ P Hin) as [<-|[]]. cbn [pb_wire].
      fld Hk Hv ltac:(apply reads_string; assumption).
Qed.

(** ** Blob *)
Lemma consumes_view {St V} (h : handler St) (view : St -> V) (upd : pbfield -> V -> V) fs :
  (forall f, In f fs -> exists U, consumes h (pb_wire f) U /\ forall r st, view (U r st) = upd f (view st)) ->
  exists U, consumes h (concat (map pb_wire fs)) U /\ forall r st, view (U r st) = fold_left (fun v f => upd f v) fs (view st).
Proof.
  induction fs as [|f fs IH]; intros H; [exists (fun _ st => st); split; [apply consumes_nil|reflexivity]|].
  destruct (H f (or_introl eq_refl)) as (U1 & C1 & V1). destruct IH as (U2 & C2 & V2); [intros x Hx; apply H; right; exact Hx|].
  eexists. split; [cbn [map concat]; apply consumes_app; [exact C1|exact C2]|]. intros r st. cbn beta. rewrite V2, V1. reflexivity.
Qed.
Definition bview (b : Blob) : option (list Z) * option Z * option (list Z) * option Embedder :=
  (option_map vis (blob_Raw b), blob_RawSize b, blob_ZLibData b, blob_RawFunc b).
Definition blob_upd (f : pbfield) (v : option (list Z) * option Z * option (list Z) * option Embedder) :=
  let '(a, b, c, d) := v in
  match f with
  | PV n _ x => if n =? 2 then (a, Some (s32 (leb_value x)), c, d) else v
  | PB n _ _ p => if n =? 1 then (Some p, b, c, d) else if n =? 3 then (a, b, Some p, d) else v
  end.
Definition f_raw (v : option (list Z) * option Z * option (list Z) * option Embedder) := fst (fst (fst v)).
Definition f_size (v : option (list Z) * option Z * option (list Z) * option Embedder) := snd (fst (fst v)).
Definition f_zlib (v : option (list Z) * option Z * option (list Z) * option Embedder) := snd (fst v).
Definition f_func (v : option (list Z) * option Z * option (list Z) * option Embedder) := snd v.
Ltac vupd_case := let n := fresh "n" in intros [n ? ?|n ? ? ?] [[[? ?] ?] ?]; cbn;
  repeat (match goal with |- context [n =? ?k] => destruct (Z.eqb_spec n k); subst end; cbn; try lia); reflexivity.
Lemma blob_read p raw size zlib e : blob_msg p raw size zlib -> zlen p < 2^63 ->
  exists b, ReadBlob (mkslice p e) Blob0 = Ok b /\ option_map vis (blob_Raw b) = raw /\ blob_RawSize b = size /\ blob_ZLibData b = zlib /\ blob_RawFunc b = None.
Proof.
  intros (fs & M & P & (A & B & C)) Hl. pose proof (message_bytes _ _ M) as Bp.
  destruct (consumes_view blob_handler bview blob_upd fs) as (U & HU & HV).
  - intros [n k v|n k l q] Hin; assert (Hok := proj2 M); rewrite Forall_forall in Hok; specialize (Hok _ Hin).
    + apply okv in Hok as [Hk Hv]. pose proof (plain_v _ _ _ _ _ _ _ P Hin) as [<-|[]]. cbn [pb_wire].
      eexists. split; [eapply field_reads; [exact Hk|intros; reflexivity|apply (reads_i32_any _ _ Hv)]|]. intros r st. reflexivity.
    + apply okb in Hok as [Hk Hv]. pose proof (plain_b _ _ _ _ _ _ _ _ P Hin) as [<-|[<-|[]]]; cbn [pb_wire].
      * exists (fun r bl => mkBlob (Some (mkslice q r)) (blob_RawSize bl) (blob_ZLibData bl) (blob_RawFunc bl)). split; [|reflexivity].
        apply (consumes_key _ _ _ _ (fun r bl => mkBlob (Some (mkslice q r)) (blob_RawSize bl) (blob_ZLibData bl) (blob_RawFunc bl)) Hk).
        intros b pre post E1 E2 E3. change (blob_handler (8 * 1 + 2) b (zlen pre)) with ('(b, next) <- DecodeBytes b (zlen pre) ;; Ok (next, fun bl => mkBlob (Some b) (blob_RawSize bl) (blob_ZLibData bl) (blob_RawFunc bl))).
        rewrite (DecodeBytes_at b pre l q post) by assumption. reflexivity.
      * eexists. split; [eapply (field_raw blob_handler _ _ (fun p bl => mkBlob (blob_Raw bl) (blob_RawSize bl) (Some p) (blob_RawFunc bl))); [exact Hk|exact Hv|intros; reflexivity]|]. intros r st. reflexivity.
  - unfold ReadBlob. exists (U e Blob0). split.
    + destruct M as [-> _]. apply read_msg_consumes; assumption.
    + specialize (HV e Blob0). pose proof (f_equal f_raw HV) as V1. pose proof (f_equal f_size HV) as V2. pose proof (f_equal f_zlib HV) as V3. pose proof (f_equal f_func HV) as V4.
      change (f_raw (bview (U e Blob0))) with (option_map vis (blob_Raw (U e Blob0))) in V1.
      change (f_size (bview (U e Blob0))) with (blob_RawSize (U e Blob0)) in V2.
      change (f_zlib (bview (U e Blob0))) with (blob_ZLibData (U e Blob0)) in V3.
      change (f_func (bview (U e Blob0))) with (blob_RawFunc (U e Blob0)) in V4.
      rewrite V1, V2, V3, V4. repeat split.
      * rewrite (fold_last blob_upd f_raw (chunk1 1) Some) by vupd_case. rewrite chunks1, A. destruct raw; reflexivity.
      * rewrite (fold_last blob_upd f_size (var1 2) (fun v => Some (s32 (leb_value v)))) by vupd_case. rewrite varints1.
        destruct (last_of (varints 2 fs)) as [v|], size as [n|]; try contradiction; [|reflexivity]. apply i32_val in C. rewrite C. reflexivity.
      * rewrite (fold_last blob_upd f_zlib (chunk1 3) Some) by vupd_case. rewrite chunks1, B. destruct zlib; reflexivity.
      * rewrite (fold_const blob_upd f_func) by vupd_case. reflexivity.
Qed.
