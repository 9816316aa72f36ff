(** * LpThms: exactly when a reader does not return (C11). *)
From Verif Require Import Base BaseLemmas PbModel PbSpec PbProofs PbProofs2 TModel TSpec LpSpec TProofs T2Proofs T2Thms.
From Coq Require Import Relations.

Lemma goes_fun {St} (h : handler St) b n m m' : goes h b n m -> goes h b n m' -> m = m'.
Proof. intros (_ & i & k & u & E1 & E2) (_ & i' & k' & u' & E1' & E2'). congruence. Qed.
Lemma leads_trans {St} (h : handler St) b x y z : leads h b x y -> leads h b y z -> leads h b x z.
Proof. intros A. induction A as [|x m y G _ IH]; [auto|]. intros B. eapply Relation_Operators.rt1n_trans; [exact G|apply IH, B]. Qed.
Lemma goes_leads {St} (h : handler St) b x y : goes h b x y -> leads h b x y.
Proof. intros G. eapply Relation_Operators.rt1n_trans; [exact G|apply Relation_Operators.rt1n_refl]. Qed.

Lemma twice (l : list Z) : ~ NoDup l -> exists a l1 l2 l3, l = l1 ++ a :: l2 ++ a :: l3.
Proof.
  induction l as [|x l IH]; intros N; [exfalso; apply N; constructor|].
  destruct (in_dec Z.eq_dec x l) as [I1|I1].
  - destruct (in_split _ _ I1) as (l2 & l3 & ->). exists x, [], l2, l3. reflexivity.
  - destruct IH as (a & l1 & l2 & l3 & ->); [intros ND; apply N; constructor; assumption|]. exists a, (x :: l1), l2, l3. reflexivity.
Qed.

Section Loop.
Context {St : Type} (h : handler St) (b : slice).
Hypothesis Hb : bytes (vis b).
Hypothesis Hl : slen b < 2^63.

Lemma goes_range n m : goes h b n m -> 0 <= n < slen b.
Proof. intros (L & i & k & u & E & _). apply DecodeVarInt_ok in E; [lia|assumption..]. Qed.

Definition stuck (n : Z) : Prop := exists c, leads h b n c /\ (returns h b c \/ hangs h b c).

Lemma stuck_step n : stuck n -> n < slen b /\ (hangs h b n \/ exists n', goes h b n n' /\ stuck n').
Proof.
  intros (c & A & R). inversion A as [E|m c' G A' E]; subst.
  - destruct R as [(m & G & B)|H].
    + split; [apply (goes_range _ _ G)|]. right. exists m. split; [exact G|]. exists c. split; [exact B|]. left. exists m. split; assumption.
    + split; [apply H|]. left. exact H.
  - split; [apply (goes_range _ _ G)|]. right. exists m. split; [exact G|]. exists c. split; assumption.
Qed.
Lemma stuck_diverges fuel : forall n, stuck n -> cl h b fuel n = Diverge.
Proof.
  unfold cl. induction fuel as [|fuel IH]; intros n S; destruct (stuck_step n S) as (L & C); cbn [loop]; rewrite (proj2 (Z.ltb_lt _ _) L); [reflexivity|].
  unfold step. destruct C as [(_ & i & k & E1 & E2)|(n' & (_ & i & k & u & E1 & E2) & S')].
  - rewrite E1. cbn [bind]. rewrite E2. reflexivity.
  - rewrite E1. cbn [bind]. rewrite E2. cbn [bind]. apply IH, S'.
Qed.

(** a chain of positions *)
Inductive chain : list Z -> Prop :=
| chain_one n : chain [n]
| chain_cons n m l : goes h b n m -> chain (m :: l) -> chain (n :: m :: l).
Lemma chain_app l1 a l2 : chain (l1 ++ a :: l2) -> chain (a :: l2).
Proof.
  induction l1 as [|x l1 IH]; [auto|]. cbn [app]. intros C. apply IH. remember (x :: l1 ++ a :: l2) as w eqn:Ew. destruct C as [n|n m l G C']; [destruct l1; discriminate|]. injection Ew as _ Ew. rewrite <- Ew. exact C'.
Qed.
Lemma chain_leads x l y l2 : chain (x :: l ++ y :: l2) -> exists m, goes h b x m /\ leads h b m y.
Proof.
  revert x. induction l as [|z l IH]; intros x C; cbn [app] in C; inversion C as [|n m l' G C']; subst.
  - exists y. split; [exact G|apply Relation_Operators.rt1n_refl].
  - exists z. split; [exact G|]. destruct (IH z C') as (m & G' & L). eapply Relation_Operators.rt1n_trans; eassumption.
Qed.
Lemma diverges_chain fuel : forall n, cl h b fuel n = Diverge ->
  (exists c, leads h b n c /\ hangs h b c) \/ exists l, List.length l = fuel /\ chain (n :: l) /\ (forall x, In x (removelast (n :: l)) -> 0 <= x < slen b).
Proof.
  unfold cl. induction fuel as [|fuel IH]; intros n D; cbn [loop] in D; destruct (Z.ltb_spec n (slen b)) as [L|L]; try discriminate.
  - right. exists []. split; [reflexivity|]. split; [constructor|]. intros x [].
  - unfold step in D. destruct (DecodeVarInt b n) as [[id n1]|p|] eqn:E1; cbn [bind] in D; try discriminate.
    + destruct (h id b n1) as [[n2 u]|p|] eqn:E2; cbn [bind] in D; try discriminate.
      * assert (G : goes h b n n2) by (split; [exact L|]; exists id, n1, u; auto).
        destruct (IH n2 D) as [(c & A & H)|(l & L1 & L2 & L3)].
        -- left. exists c. split; [eapply Relation_Operators.rt1n_trans; eassumption|exact H].
        -- right. exists (n2 :: l). split; [cbn [List.length]; lia|]. split; [constructor; assumption|].
           intros x Hx. change (In x (n :: removelast (n2 :: l))) in Hx. destruct Hx as [<-|Hx]; [apply (goes_range _ _ G)|apply L3, Hx].
      * left. exists n. split; [apply Relation_Operators.rt1n_refl|]. split; [exact L|]. exists id, n1. auto.
    + exfalso. exact (DecodeVarInt_nodiv _ _ E1).
Qed.
Lemma diverges_stuck n : (forall fuel, cl h b fuel n = Diverge) -> stuck n.
Proof.
  intros D. destruct (diverges_chain (S (List.length (vis b))) n (D _)) as [(c & A & H)|(l & L1 & L2 & L3)]; [exists c; auto|].
  assert (Dup : ~ NoDup (removelast (n :: l))).
  { intros ND. assert (Hle : (List.length (removelast (n :: l)) <= List.length (map Z.of_nat (seq 0 (List.length (vis b)))))%nat).
    { apply NoDup_incl_length; [exact ND|]. intros x Hx. specialize (L3 x Hx). apply in_map_iff. exists (Z.to_nat x). split; [lia|]. apply in_seq. unfold slen in L3. lia. }
    rewrite map_length, seq_length in Hle. rewrite removelast_firstn_len, firstn_length in Hle. cbn [List.length] in *. lia. }
  apply twice in Dup.
  destruct Dup as (a & l1 & l2 & l3 & E).
  assert (E' : exists z, n :: l = l1 ++ a :: l2 ++ a :: l3 ++ [z]).
  { exists (last (n :: l) 0). rewrite (app_removelast_last 0 (l := n :: l)) at 1 by discriminate. rewrite E, <- app_assoc. cbn [app]. rewrite <- app_assoc. reflexivity. }
  destruct E' as (z & E'). exists a. rewrite E' in L2. split.
  - destruct l1 as [|x l1]; cbn [app] in E'; injection E' as -> _; [apply Relation_Operators.rt1n_refl|].
    cbn [app] in L2. destruct (chain_leads _ _ _ _ L2) as (m & G & L). eapply Relation_Operators.rt1n_trans; eassumption.
  - left. apply chain_app in L2. destruct (chain_leads _ _ _ _ L2) as (m & G & L). exists m. split; assumption.
Qed.
End Loop.

(** C11, exactly: a reader of a message fails to return if and only if, following the items
    from the start of the message, it comes to an item at which it comes back to the same
    place (so that it goes round for ever), or to a nested message whose reader fails to
    return. *)
Lemma pC11_exact : forall St (h : handler St) b st, bytes (vis b) -> slen b < 2^63 ->
  (read_msg h b st = Diverge <-> exists n, leads h b 0 n /\ (returns h b n \/ hangs h b n)).
Proof.
  intros St h b st Hb Hl. split.
  - intros D. apply (diverges_stuck h b Hb Hl). intros fuel. pose proof (read_msg_adequate h b st Hb Hl D fuel) as A.
    apply (cl_loop h b fuel 0 st). unfold read_fuel in A. destruct (loop _ _ _ _) as [[? ?]|?|]; cbn [bind] in A; congruence.
  - intros S. unfold read_msg, read_fuel. pose proof (stuck_diverges h b Hb Hl (List.length (vis b) + 1) 0 S) as D.
    pose proof (stuck_diverges h b Hb Hl (Datatypes.S (List.length (vis b))) 0 S) as D'.
    apply (cl_loop h b _ 0 st) in D'. first [rewrite D'; reflexivity | apply (cl_loop h b _ 0 st) in D; rewrite D; reflexivity].
Qed.

Ltac nh_all := repeat match goal with
  | |- (if ?c then _ else _) <> Diverge => destruct c
  | |- Panic _ <> Diverge => discriminate
  | G : go_slice ?b, Hn : 0 <= ?n |- bind (DecodeI64 ?b ?n) _ <> Diverge => pose proof (proj1 (fadv_I64 b n G Hn)); destruct (DecodeI64 b n) as [[? ?]|?|]; cbn [bind]; congruence
  | G : go_slice ?b, Hn : 0 <= ?n |- bind (DecodeU32Packed ?b ?n) _ <> Diverge => pose proof (proj1 (fadv_U32P b n G Hn)); destruct (DecodeU32Packed b n) as [[? ?]|?|]; cbn [bind]; congruence
  | G : go_slice ?b, Hn : 0 <= ?n |- bind (DecodeI32Packed ?b ?n) _ <> Diverge => pose proof (proj1 (fadv_I32P b n G Hn)); destruct (DecodeI32Packed b n) as [[? ?]|?|]; cbn [bind]; congruence
  | G : go_slice ?b, Hn : 0 <= ?n |- bind (DecodeU64Packed ?b ?n) _ <> Diverge => pose proof (proj1 (fadv_U64P b n G Hn)); destruct (DecodeU64Packed b n) as [[? ?]|?|]; cbn [bind]; congruence
  | G : go_slice ?b, Hn : 0 <= ?n |- bind (DecodeS64PackedDelta ?b ?n) _ <> Diverge => pose proof (proj1 (fadv_S64D b n G Hn)); destruct (DecodeS64PackedDelta b n) as [[? ?]|?|]; cbn [bind]; congruence
  | |- bind (SkipBytes ?b ?n) _ <> Diverge => unfold SkipBytes; pose proof (DecodeVarInt_nodiv b n); destruct (DecodeVarInt b n) as [[? ?]|?|]; cbn [bind]; congruence
  end.
Lemma way_nh b id n : go_slice b -> 0 <= n -> way_handler id b n <> Diverge.
Proof. intros G Hn. unfold way_handler. nh_all. Qed.
Lemma relation_nh b id n : go_slice b -> 0 <= n -> relation_handler id b n <> Diverge.
Proof. intros G Hn. unfold relation_handler. nh_all. Qed.
Lemma dense_nh b id n : go_slice b -> 0 <= n -> dense_handler id b n <> Diverge.
Proof. intros G Hn. unfold dense_handler. nh_all. Qed.

Lemma leaf_exact {St} (h : handler St) : (forall b id n, go_slice b -> 0 <= n -> h id b n <> Diverge) ->
  forall b st, go_slice b -> (read_msg h b st = Diverge <-> exists n, leads h b 0 n /\ returns h b n).
Proof.
  intros NH b st G. destruct (go_slice_len b G) as [Hb Hl]. rewrite (pC11_exact _ h b st Hb Hl). split.
  - intros (n & A & [R|(L & id & n1 & E & D)]); [exists n; auto|]. exfalso. apply DecodeVarInt_ok in E; [|assumption..].
    apply (NH b id n1 G) in D; [exact D|lia].
  - intros (n & A & R). exists n. auto.
Qed.
(** C11, exactly, for ways, relations and dense sections: they fail to return only by coming
    back to an item already read. *)
Lemma pC11_exact_leaves : forall b, go_slice b ->
  (forall w, ReadWay b w = Diverge <-> exists n, leads way_handler b 0 n /\ returns way_handler b n) /\
  (forall r, ReadRelation b r = Diverge <-> exists n, leads relation_handler b 0 n /\ returns relation_handler b n) /\
  (forall d, ReadDenseNodes b d = Diverge <-> exists n, leads dense_handler b 0 n /\ returns dense_handler b n).
Proof.
  intros b G. split; [|split]; intros st.
  - exact (leaf_exact way_handler way_nh b st G).
  - exact (leaf_exact relation_handler relation_nh b st G).
  - exact (leaf_exact dense_handler dense_nh b st G).
Qed.
Lemma pC11_exact_ex :
  go_slice (exact (34 :: minus_eleven)) /\ returns way_handler (exact (34 :: minus_eleven)) 0 /\
  go_slice (exact [8; 5; 34; 1; 7]) /\ goes way_handler (exact [8; 5; 34; 1; 7]) 0 2 /\ goes way_handler (exact [8; 5; 34; 1; 7]) 2 5.
Proof.
  assert (B : forall l, forallb (fun x => (0 <=? x) && (x <? 256)) l = true -> zlen l < 2^63 -> go_slice (exact l)).
  { intros l Hl Hz. split; [|split; [constructor|unfold scap, slen, exact; cbn; unfold zlen in Hz; lia]]. cbn [vis exact]. apply Forall_forall. intros x Hx.
    rewrite forallb_forall in Hl. specialize (Hl x Hx). rewrite andb_true_iff, Z.leb_le, Z.ltb_lt in Hl. unfold is_u8. lia. }
  split; [apply B; vm_compute; reflexivity|]. split.
  - exists 0. split; [|apply Relation_Operators.rt1n_refl]. split; [vm_compute; reflexivity|]. exists 34, 1, (fun w => w). split; vm_compute; reflexivity.
  - split; [apply B; vm_compute; reflexivity|]. split; (split; [vm_compute; reflexivity|]).
    + exists 8, 1. eexists. split; vm_compute; reflexivity.
    + exists 34, 3. eexists. split; vm_compute; reflexivity.
Qed.
