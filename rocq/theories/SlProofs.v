(** * SlProofs: a logic for what records say about goroutines. *)
From Verif Require Import Base FrModel ZlModel TModel HLModel TfModel RwModel SlModel SlSpec.

Section tracks.
Context {B : Type} (f : work -> option B) (view : status -> B) (on : status -> bool).

Definition next_last (last : option B) (d : deed) : option B :=
  match d with Doing w => match f w with Some v => Some v | None => last end | _ => last end.
Fixpoint tracks (begun : bool) (s : status) (last : option B) (ds : list deed) : Prop :=
  (begun || on s = true -> last = Some (view s) \/ first_some (told_of f ds) = Some (view s)) /\
  match ds with
  | [] => True
  | d :: r =>
      (forall w v, d = Doing w -> f w = Some v -> view s = v) /\
      tracks (begun || on s) (perform s d) (next_last last d) r
  end.

Lemma last_app : forall ds last, fold_left next_last ds last = match first_some (rev (told_of f ds)) with Some v => Some v | None => last end.
Proof.
  induction ds as [|d ds IH]; intros last; cbn [fold_left told_of]; [reflexivity|]. rewrite IH. destruct d as [c v|c n|w]; cbn [next_last]; try reflexivity.
  destruct (f w) as [v|]; [|reflexivity]. cbn [rev]. destruct (rev (told_of f ds)); reflexivity.
Qed.

Lemma tracks_moment : forall ds begun s last n, tracks begun s last ds -> (n <= List.length ds)%nat ->
  (begun = true \/ exists m, (m <= n)%nat /\ on (fold_left perform (firstn m ds) s) = true) ->
  let s' := fold_left perform (firstn n ds) s in
  fold_left next_last (firstn n ds) last = Some (view s') \/ first_some (told_of f (skipn n ds)) = Some (view s').
Proof.
  induction ds as [|d ds IH]; intros begun s last n T L H s'; subst s'.
  - replace n with O in * by (cbn in L; lia). cbn [firstn skipn fold_left]. destruct T as [T _]. apply T.
    destruct H as [-> |(m & M & H)]; [reflexivity|]. rewrite firstn_nil in H. cbn in H. rewrite H. apply orb_true_r.
  - destruct n as [|n].
    + cbn [firstn skipn fold_left]. destruct T as [T _]. apply T. destruct H as [-> |(m & M & H)]; [reflexivity|].
      replace m with O in H by lia. cbn in H. rewrite H. apply orb_true_r.
    + cbn [firstn skipn fold_left]. destruct T as [_ [_ T]]. apply (IH (begun || on s) (perform s d) (next_last last d) n T); [cbn in L; lia|].
      destruct H as [-> |(m & M & H)]; [left; reflexivity|]. destruct m as [|m].
      * left. cbn in H. rewrite H. apply orb_true_r.
      * right. exists m. split; [lia|exact H].
Qed.

Lemma tracks_about : forall ds n, tracks false status0 None ds -> (n <= List.length ds)%nat ->
  (exists m, (m <= n)%nat /\ on (status_at ds m) = true) -> about f ds n (view (status_at ds n)).
Proof.
  intros ds n T L H. pose proof (tracks_moment ds false status0 None n T L (or_intror H)) as R. cbv zeta in R. rewrite last_app in R. unfold about, status_at.
  destruct (first_some (rev (told_of f (firstn n ds)))) as [v|]; [exact R|]. destruct R as [R|R]; [discriminate R|right; exact R].
Qed.

Lemma tracks_doing_from : forall before begun s last w after v, tracks begun s last (before ++ Doing w :: after) -> f w = Some v ->
  view (fold_left perform before s) = v.
Proof.
  induction before as [|d before IH]; intros begun s last w after v T F.
  - destruct T as [_ [T _]]. exact (T w v eq_refl F).
  - destruct T as [_ [_ T]]. exact (IH _ _ _ _ _ _ T F).
Qed.
Lemma tracks_doing : forall ds n w v, tracks false status0 None ds -> doing ds n w -> f w = Some v -> view (status_at ds n) = v.
Proof.
  intros ds n w v T (before & after & -> & ->) F. unfold status_at.
  replace (before ++ Doing w :: after) with ((before ++ [Doing w]) ++ after) by (rewrite <- app_assoc; reflexivity).
  rewrite firstn_app. replace (S (List.length before)) with (List.length (before ++ [Doing w])) by (rewrite app_length; cbn; lia).
  rewrite firstn_all, Nat.sub_diag, app_nil_r, fold_left_app. cbn [fold_left perform]. exact (tracks_doing_from before false status0 None w after v T F).
Qed.

(** triples *)
Definition pre : Type := bool -> status -> option B -> Prop.
Definition keeps {A} (P : pre) (m : told A) (Q : A -> pre) : Prop :=
  forall begun s last rest, P begun s last ->
  match snd m with
  | Ok a => forall b' s' l', Q a b' s' l' -> tracks b' s' l' rest
  | _ => rest = []
  end -> tracks begun s last (fst m ++ rest).

Lemma keeps_bind : forall A C (P : pre) (Q : A -> pre) (R : C -> pre) (m : told A) (k : A -> told C),
  keeps P m Q -> (forall a, snd m = Ok a -> keeps (Q a) (k a) R) -> keeps P (tbind m k) R.
Proof.
  intros A C P Q R m k M K begun s last rest H F. destruct m as [d [a|p|]]; cbn [tbind fst snd] in *.
  - rewrite <- app_assoc. apply (M begun s last (fst (k a) ++ rest) H). cbn [snd]. intros b' s' l' X. exact (K a eq_refl b' s' l' rest X F).
  - exact (M begun s last rest H F).
  - exact (M begun s last rest H F).
Qed.
Definition settled (P : pre) : Prop := forall begun s last, P begun s last -> begun || on s = true -> last = Some (view s).
Lemma keeps_silent : forall A (P : pre) (r : res A) (Q : A -> pre), settled P -> (forall a b s l, r = Ok a -> P b s l -> Q a b s l) -> keeps P (silent r) Q.
Proof.
  intros A P r Q S K begun s last rest H F. unfold silent in *. cbn [fst snd app] in *. destruct r as [a|p|].
  - apply F. apply (K a _ _ _ eq_refl H).
  - subst rest. cbn [tracks]. split; [|exact I]. intros X. left. exact (S _ _ _ H X).
  - subst rest. cbn [tracks]. split; [|exact I]. intros X. left. exact (S _ _ _ H X).
Qed.
Lemma keeps_ok : forall A (P : pre) (a : A) (Q : A -> pre), (forall b s l, P b s l -> Q a b s l) -> keeps P (silent (Ok a)) Q.
Proof. intros A P a Q K begun s last rest H F. unfold silent in *. cbn [fst snd app] in *. apply F, K, H. Qed.
Lemma keeps_tell : forall (P : pre) ds (Q : pre),
  (forall begun s last rest, P begun s last -> (forall b' s' l', Q b' s' l' -> tracks b' s' l' rest) -> tracks begun s last (ds ++ rest)) ->
  keeps P (tell ds) (fun _ => Q).
Proof. intros P ds Q K begun s last rest H F. unfold tell in *. cbn [fst snd] in *. exact (K begun s last rest H F). Qed.
Lemma keeps_weaken : forall A (P P' : pre) (m : told A) (Q Q' : A -> pre), keeps P' m Q' -> (forall b s l, P b s l -> P' b s l) ->
  (forall a b s l, Q' a b s l -> Q a b s l) -> keeps P m Q.
Proof.
  intros A P P' m Q Q' K H1 H2 begun s last rest H F. apply (K begun s last rest (H1 _ _ _ H)). destruct (snd m); [|exact F|exact F].
  intros b' s' l' X. exact (F _ _ _ (H2 _ _ _ _ X)).
Qed.

(** [serve]: [P] holds whenever the worker waits. *)
Lemma keeps_serve : forall X Y (g : X -> told Y) (P P' : pre) l,
  keeps P (tell [Doing Waiting]) (fun _ => P') ->
  (forall x, In x l -> keeps P' (g x) (fun _ => P)) ->
  keeps P (serve g l) (fun _ => P').
Proof.
  intros X Y g P P' l W. induction l as [|x l IH]; intros G; cbn [serve].
  - apply (keeps_bind unit (list Y) P (fun _ => P') (fun _ => P')); [exact W|]. intros a _. apply keeps_ok. intros b s la H; exact H.
  - apply (keeps_bind unit (list Y) P (fun _ => P') (fun _ => P')); [exact W|]. intros a _.
    apply (keeps_bind Y (list Y) P' (fun _ => P) (fun _ => P')); [apply G; left; reflexivity|]. intros y _.
    apply (keeps_bind (list Y) (list Y) P (fun _ => P') (fun _ => P')); [apply IH; intros z Z; apply G; right; exact Z|]. intros ys _.
    apply keeps_ok. intros b s la H; exact H.
Qed.
Lemma keeps_tracks : forall A (P Q : pre) (m : told A), keeps P m (fun _ => Q) -> P false status0 None -> settled Q -> tracks false status0 None (fst m).
Proof.
  intros A P Q m K H S. rewrite <- (app_nil_r (fst m)). apply (K false status0 None [] H). destruct (snd m); [|reflexivity|reflexivity].
  intros b s l X. cbn [tracks]. split; [|exact I]. intros Y. left. exact (S _ _ _ X Y).
Qed.
End tracks.

(** ** updates *)
Lemma look_load_inv : forall ds m c k m' l, look ds m (Load c k) m' l ->
  exists n, (m <= n <= List.length ds)%nat /\ look ds n (k (status_at ds n c)) m' l.
Proof. intros ds m c k m' l H. inversion H; subst. exists n. split; assumption. Qed.
Lemma look_show_inv : forall ds m x m' l, look ds m (Show x) m' l -> m' = m /\ l = x.
Proof. intros ds m x m' l H. inversion H; subst. split; reflexivity. Qed.
Lemma look_le : forall ds m u m' l, look ds m u m' l -> (m <= m')%nat.
Proof. intros ds m u m' l H. induction H; lia. Qed.
