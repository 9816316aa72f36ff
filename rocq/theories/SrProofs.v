(** * SrProofs: a logic for any property of the deeds of a goroutine, and the ways of a block. *)
From Verif Require Import Base BaseLemmas FrModel ZlModel TModel HLModel TfModel RwModel SlModel SlSpec SlProofs.

Section holds.
Context {S : Type} (T : S -> list deed -> Prop).
Definition holds_in {A} (P : S -> Prop) (m : told A) (Q : A -> S -> Prop) : Prop :=
  forall st rest, P st ->
  match snd m with
  | Ok a => forall st', Q a st' -> T st' rest
  | _ => rest = []
  end -> T st (fst m ++ rest).
Lemma holds_bind : forall A C (P : S -> Prop) (Q : A -> S -> Prop) (R : C -> S -> Prop) (m : told A) (k : A -> told C),
  holds_in P m Q -> (forall a, snd m = Ok a -> holds_in (Q a) (k a) R) -> holds_in P (tbind m k) R.
Proof.
  intros A C P Q R m k M K st rest H F. destruct m as [d [a|p|]]; cbn [tbind fst snd] in *.
  - rewrite <- app_assoc. apply (M st (fst (k a) ++ rest) H). cbn [snd]. intros st' X. exact (K a eq_refl st' rest X F).
  - exact (M st rest H F).
  - exact (M st rest H F).
Qed.
Lemma holds_silent : forall A (P : S -> Prop) (r : res A), (forall st, P st -> T st []) -> holds_in P (silent r) (fun _ => P).
Proof.
  intros A P r E st rest H F. unfold silent in *. cbn [fst snd app] in *. destruct r as [a|p|]; [exact (F st H)|subst rest; exact (E st H)|subst rest; exact (E st H)].
Qed.
Lemma holds_ok : forall A (P : S -> Prop) (a : A) (Q : A -> S -> Prop), (forall st, P st -> Q a st) -> holds_in P (silent (Ok a)) Q.
Proof. intros A P a Q K st rest H F. unfold silent in *. cbn [fst snd app] in *. apply F, K, H. Qed.
Lemma holds_tell : forall (P : S -> Prop) ds (Q : S -> Prop),
  (forall st rest, P st -> (forall st', Q st' -> T st' rest) -> T st (ds ++ rest)) -> holds_in P (tell ds) (fun _ => Q).
Proof. intros P ds Q K st rest H F. unfold tell in *. cbn [fst snd] in *. exact (K st rest H F). Qed.
Lemma holds_weaken : forall A (P P' : S -> Prop) (m : told A) (Q Q' : A -> S -> Prop), holds_in P' m Q' -> (forall st, P st -> P' st) ->
  (forall a st, Q' a st -> Q a st) -> holds_in P m Q.
Proof.
  intros A P P' m Q Q' K H1 H2 st rest H F. apply (K st rest (H1 _ H)). destruct (snd m); [|exact F|exact F].
  intros st' X. exact (F _ (H2 _ _ X)).
Qed.
Lemma holds_serve : forall X Y (g : X -> told Y) (P P' : S -> Prop) l,
  holds_in P (tell [Doing Waiting]) (fun _ => P') -> (forall x, In x l -> holds_in P' (g x) (fun _ => P)) -> holds_in P (serve g l) (fun _ => P').
Proof.
  intros X Y g P P' l W. induction l as [|x l IH]; intros G; cbn [serve].
  - apply (holds_bind unit (list Y) P (fun _ => P') (fun _ => P')); [exact W|]. intros a _. apply holds_ok. intros st H; exact H.
  - apply (holds_bind unit (list Y) P (fun _ => P') (fun _ => P')); [exact W|]. intros a _.
    apply (holds_bind Y (list Y) P' (fun _ => P) (fun _ => P')); [apply G; left; reflexivity|]. intros y _.
    apply (holds_bind (list Y) (list Y) P (fun _ => P') (fun _ => P')); [apply IH; intros z Z; apply G; right; exact Z|]. intros ys _.
    apply holds_ok. intros st H; exact H.
Qed.
Lemma holds_deeds : forall A (P Q : S -> Prop) (m : told A) st, holds_in P m (fun _ => Q) -> P st -> (forall st', Q st' -> T st' []) -> T st (fst m).
Proof.
  intros A P Q m st K H E. rewrite <- (app_nil_r (fst m)). apply (K st [] H). destruct (snd m); [exact E|reflexivity|reflexivity].
Qed.
End holds.

(** ** the ways of a block *)
Record rst : Type := mkRst { r_live : option (Z * Z); r_rec : status; r_last : option (Z * Z * Z) }.
(** since the worker waited last, the record has said that it works on ways; with this block and this number of ways *)
Definition r_now (st : rst) : option (Z * Z) :=
  match r_live st with Some x => Some x | None => if r_rec st CState =? 2 then Some (r_rec st CBlock, r_rec st CWays) else None end.
Definition r_next (st : rst) (d : deed) : rst :=
  mkRst (match d with Doing Waiting => None | _ => r_now st end) (perform (r_rec st) d) (next_last rewriting (r_last st) d).
Definition r_good (st : rst) (ds : list deed) : Prop :=
  forall b x, r_now st = Some (b, x) -> r_rec st CBlock = b /\ r_rec st CWays = x /\
    exists i n, 0 <= i <= n /\ x = u64 n /\ r_rec st CWay = u64 i /\ (r_last st = Some (b, i, n) \/ first_some (told_of rewriting ds) = Some (b, i, n)).
Fixpoint orderly (st : rst) (ds : list deed) : Prop :=
  r_good st ds /\ match ds with [] => True | d :: r => orderly (r_next st d) r end.
Lemma orderly_moment : forall ds st n, orderly st ds -> (n <= List.length ds)%nat ->
  let st' := fold_left r_next (firstn n ds) st in r_good st' (skipn n ds) /\ orderly st' (skipn n ds).
Proof.
  induction ds as [|d ds IH]; intros st n OD L; cbv zeta.
  - replace n with 0%nat by (cbn in L; lia). cbn [firstn skipn fold_left]. split; [exact (proj1 OD)|exact OD].
  - destruct n as [|n]; [cbn [firstn skipn fold_left]; split; [exact (proj1 OD)|exact OD]|]. cbn [firstn skipn fold_left].
    apply (IH (r_next st d) n (proj2 OD)). cbn in L. lia.
Qed.
Lemma r_rec_fold : forall ds st, r_rec (fold_left r_next ds st) = fold_left perform ds (r_rec st).
Proof. induction ds as [|d ds IH]; intros st; cbn [fold_left]; [reflexivity|]. rewrite IH. reflexivity. Qed.
Lemma r_last_fold : forall ds st, r_last (fold_left r_next ds st) = fold_left (next_last rewriting) ds (r_last st).
Proof. induction ds as [|d ds IH]; intros st; cbn [fold_left]; [reflexivity|]. rewrite IH. reflexivity. Qed.
Lemma r_now_fold : forall ds st v, ~ In (Doing Waiting) ds -> r_now st = Some v -> r_now (fold_left r_next ds st) = Some v.
Proof.
  induction ds as [|d ds IH]; intros st v N H; cbn [fold_left]; [exact H|]. apply IH; [intros X; apply N; right; exact X|].
  unfold r_now, r_next. cbn [r_live r_rec]. destruct d as [c z|c z|w]; try (rewrite H; reflexivity). destruct w; try (rewrite H; reflexivity). exfalso. apply N. left. reflexivity.
Qed.
Lemma firstn_add : forall A (l : list A) m n, (m <= n)%nat -> firstn n l = firstn m l ++ firstn (n - m) (skipn m l).
Proof.
  intros A l m n H. rewrite <- (firstn_skipn m l) at 1. rewrite firstn_app, firstn_firstn, firstn_length. rewrite Nat.min_r by lia.
  destruct (Nat.le_gt_cases m (List.length l)) as [L|L].
  - rewrite Nat.min_l by lia. reflexivity.
  - rewrite (skipn_all2 l) by lia. rewrite !firstn_nil. reflexivity.
Qed.
Lemma orderly_same : forall ds i j, orderly (mkRst None status0 None) ds -> (i <= j <= List.length ds)%nat -> same_block ds i j ->
  status_at ds i CState = 2 ->
  status_at ds j CBlock = status_at ds i CBlock /\ status_at ds j CWays = status_at ds i CWays /\
  exists k n, 0 <= k <= n /\ status_at ds j CWays = u64 n /\ status_at ds j CWay = u64 k /\ about rewriting ds j (status_at ds j CBlock, k, n).
Proof.
  intros ds i j OD L N H. set (st0 := mkRst None status0 None) in *.
  assert (Ri : r_rec (fold_left r_next (firstn i ds) st0) = status_at ds i) by (rewrite r_rec_fold; reflexivity).
  assert (Rj : r_rec (fold_left r_next (firstn j ds) st0) = status_at ds j) by (rewrite r_rec_fold; reflexivity).
  pose proof (orderly_moment ds st0 i OD ltac:(lia)) as [Gi _]. pose proof (orderly_moment ds st0 j OD ltac:(lia)) as [Gj _].
  assert (Ni : exists b x, r_now (fold_left r_next (firstn i ds) st0) = Some (b, x)).
  { unfold r_now. destruct (r_live _) as [[b x]|]; [exists b, x; reflexivity|]. rewrite Ri, H. cbn. do 2 eexists; reflexivity. }
  destruct Ni as (b & x & Ni). destruct (Gi b x Ni) as (Bi & Xi & _). rewrite Ri in Bi, Xi.
  assert (Nj : r_now (fold_left r_next (firstn j ds) st0) = Some (b, x)).
  { rewrite (firstn_add _ ds i j) by lia. rewrite fold_left_app. apply r_now_fold; [exact N|exact Ni]. }
  destruct (Gj b x Nj) as (Bj & Xj & k & n & K1 & K2 & K3 & K4). rewrite Rj in Bj, Xj, K3. split; [congruence|]. split; [congruence|].
  exists k, n. split; [exact K1|]. split; [congruence|]. split; [exact K3|]. rewrite Bj. unfold about.
  rewrite r_last_fold, last_app in K4. cbn [r_last st0] in K4. destruct (first_some (rev (told_of rewriting (firstn j ds)))) as [v|]; [exact K4|].
  destruct K4 as [K4|K4]; [discriminate K4|right; exact K4].
Qed.
