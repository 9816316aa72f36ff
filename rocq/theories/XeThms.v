(** * XeThms: C84 for every number of passes. *)
From Verif Require Import NiThms Base PbSpec TModel HLModel FrModel FrSpec ZlModel ZlSpec TfSpec MtModel IoModel IoSpec NiModel NiSpec RwModel RwSpec WiModel WiSpec RiModel RiSpec WsSpec PlThms EeSpec NiSpec EeThms.
From Verif Require Import BaseLemmas PbModel PbProofs PbProofs2 TSpec TProofs TMsg TMsg2 TThms TTyped HLProofs FrProofs FrThms ZlThms TfThms NiProofs NiProofs2 NiThms RwThms WsProofs WsRead WsWrite WsThms EeProofs XwThms.
From Verif Require Import NiSpec RwSpec TfSpec.

Lemma rewrite_any {R} (envs : R -> Z -> zenv) (rp : Z -> R) file blocks rs locs n out : osm_file envs file blocks -> (forall run i, env_ok (envs run i)) ->
  index_ok rs locs -> Forall (fun loc => is_s64 loc /\ loc <= 0) locs -> 1 <= n ->
  (forall k f, Z.of_nat k <= n -> after_passes (fun pass => envs (rp pass)) (index_of rs locs) n k file = Ok f -> zlen f < 2^63) ->
  after_passes (fun pass => envs (rp pass)) (index_of rs locs) n (Z.to_nat n) file = Ok out ->
  osm_file envs out (with_refs (new_ref (firstn (cut (zlen locs / n * n) 0 rs) rs) locs) blocks).
Proof.
  intros (Bf & Lf & blobs & F & L & H) He Hi Hl Hn Sz E. pose proof (pbf_is _ _ Lf F) as F'. pose proof (osm_known envs blobs blocks L H) as K. pose proof (file_blobs blobs file Bf F') as Bd.
  assert (Sz' : zlen out < 2^63) by (apply (Sz (Z.to_nat n) out); [lia|exact E]).
  destruct (choose_list (fun i tb q => (fst tb = tOSMData -> block_typed q /\ rw_form q /\ forall run, holds_alone (envs run (Z.of_nat i)) (snd tb) q) /\ (forall p, nth_error blocks i = Some (Some p) -> seen_as rw_reader p q)) blobs 0) as (l & Hl1 & Hl2).
  { intros i [ty data] Hin. cbn [Nat.add fst snd]. destruct (nth_same _ _ _ _ L Hin) as (c & Hc). specialize (H i _ c Hin Hc). pose proof (proj1 (Forall_forall _ _) Bd _ (nth_error_In _ _ Hin)) as (D1 & D2). cbn [fst snd] in D1, D2.
    destruct c as [p|]; cbn [blob_is fst snd] in H.
    - destruct H as (Ty & raw & D & M). destruct (block_view rw_reader raw p M) as (b' & B' & V).
      pose proof (data_len _ _ _ (D (rp 0)) ltac:(lia)) as Lr. destruct (block_read rw_reader raw b' [] B' Lr) as (q & Eq & Sq). exists q. split.
      + intros _. split; [|split; [exact (ReadBlock_rw _ _ Eq)|]].
        * eapply ReadBlock_typed; [|exact Eq]. destruct M as (fs & M & _). split; [exact (message_bytes _ _ M)|]. split; [constructor|]. unfold scap, slen, zlen in *. cbn [vis ext List.length] in *. lia.
        * intros run. destruct (data_read (envs run (Z.of_nat i)) data raw [] (D run) ltac:(lia)) as (b & s & E1 & E2 & E3). exists b, s. split; [exact E1|]. split; [exact E2|]. rewrite E3. exact Eq.
      + intros p' X. rewrite Hc in X. injection X as <-. exists b'. split; assumption.
    - exists PrimitiveBlock0. split; [|intros p' X; rewrite Hc in X; discriminate]. intros X. rewrite H in X. discriminate X. }
  assert (Rd : forall pass, ready_all (envs (rp pass)) 0 l).
  { intros pass i x Hx. destruct (Hl2 i x Hx) as (A & _). destruct x as [[ty data] q]. cbn [Nat.add fst snd] in *.
    assert (Hb : nth_error blobs i = Some (ty, data)) by (rewrite <- Hl1, nth_error_map, Hx; reflexivity). pose proof (nth_error_In _ _ Hb) as Hb'.
    pose proof (proj1 (Forall_forall _ _) Bd _ Hb') as (D1 & D2). pose proof (proj1 (Forall_forall _ _) K _ Hb') as Kb. cbn [fst snd] in *. split; [exact Kb|]. split; [exact D1|]. split; [exact D2|].
    intros X. destruct (A X) as (A1 & A2 & A3). auto. }
  assert (F'' : is_file file (map fst l)) by (rewrite Hl1; exact F').
  assert (Hs64 : Forall is_s64 locs) by (revert Hl; apply Forall_impl; tauto). assert (Hneg : Forall (fun x => x <= 0) locs) by (revert Hl; apply Forall_impl; tauto).
  pose proof Hi as (Hok & Ha & _).
  set (fn := new_ref (firstn (cut (zlen locs / n * n) 0 rs) rs) locs).
  assert (Sn : s64_fun fn) by (apply new_ref_s64; exact Hs64).
  assert (Hb : exists bl, mapm (step fn) l = Ok bl /\ enc_file bl = Ok out).
  { destruct (Z.to_nat n) as [|k] eqn:En; [lia|].
    cbn [after_passes] in E. destruct (after_passes (fun pass => envs (rp pass)) (index_of rs locs) n k file) as [f0|p|] eqn:E0; cbn [bind] in E; try discriminate.
    assert (Sz0 : forall k f, Z.of_nat k < n -> after_passes (fun pass => envs (rp pass)) (index_of rs locs) n k file = Ok f -> zlen f < 2^63) by (intros k' f' Hk'; apply Sz; lia).
    destruct (passes_stage (fun pass => envs (rp pass)) file l rs locs n Hi Hl Hn Bf F'' Rd Sz0 k f0 ltac:(lia) E0) as (l' & F0 & B' & R' & C').
    destruct (SubIndex (index_of rs locs) (Z.of_nat k) n) as [sub|p|] eqn:Es; cbn [bind] in E; try discriminate.
    destruct (sub_good rs locs n (Z.of_nat k) sub Hi Hn ltac:(lia) Es) as (top & -> & G).
    assert (N0 : f0 <> []) by (intros ->; unfold rw_pass in E; cbn in E; discriminate).
    rewrite (rw_pass_is _ _ locs top _ f0 l' G B' (Sz0 k f0 ltac:(lia) E0) F0 (R' _) N0) in E.
    destruct (mapm _ l') as [bl|p|] eqn:Em; cbn [bind] in E; try discriminate. exists bl. split; [|exact E].
    apply C' in Em. rewrite <- Em. apply step_ext. intros x. unfold fn. replace (zlen locs / n * n) with (slice_size locs n * Z.of_nat (Datatypes.S k)) by (unfold slice_size; f_equal; lia).
    rewrite (firstn_pass rs locs n k Hi Hn ltac:(lia)). symmetry. apply new_ref_comp; [|rewrite <- firstn_pass by (assumption || lia)|exact Hneg].
    - rewrite <- firstn_pass by (assumption || lia). apply asc_firstn. exact Ha.
    - apply Forall_forall. intros y Hy. apply (proj1 (Forall_forall _ _) Hok). rewrite <- (firstn_skipn (cut (slice_size locs n * Z.of_nat (Datatypes.S k)) 0 rs) rs). apply in_or_app. left. exact Hy. }
  clear E. destruct Hb as (bl & Em & E1).
  apply mapm_Forall2 in Em.
  assert (St : forall i y, nth_error bl i = Some y -> exists x, nth_error l i = Some x /\ step fn x = Ok y).
  { clear - Em. induction Em as [|x y l bl Hx Em IH]; intros [|i] z Hz; cbn [nth_error] in *; try discriminate; [injection Hz as <-; eauto|apply IH; exact Hz]. }
  assert (Bl : Forall (fun b => known_type (fst b) /\ bytes (snd b) /\ zlen (snd b) < 2^31) bl).
  { apply Forall_forall. intros y Hy. apply In_nth_error in Hy. destruct Hy as (i & Hy). destruct (St i y Hy) as ([[ty d] q] & Hx & Ey).
    pose proof (step_ready fn (envs (rp 0)) (envs (rp 0)) (Z.of_nat i) ty d q y Sn (Rd 0 i _ Hx)) as Y.
    specialize (Y ltac:(intros T; destruct (Rd 0 i _ Hx) as (_ & _ & _ & X); apply X; exact T) Ey). destruct y as [yt yd]. destruct Y as (Y1 & Y2 & Y3 & _). auto. }
  destruct (enc_file_is bl out E1 Bl) as (_ & Bo). split; [exact Bo|]. split; [exact Sz'|].
  exists bl. split; [apply enc_file_pbf; assumption|]. split.
  { unfold with_refs. rewrite map_length, <- L, <- Hl1, map_length. symmetry. exact (f2_len _ _ _ Em). }
  intros i y c Hy Hc. unfold with_refs in Hc. rewrite nth_error_map in Hc. destruct (nth_error blocks i) as [c0|] eqn:Ec; [|discriminate]. injection Hc as <-.
  destruct (St i y Hy) as ([tb q] & Hx & Ey). destruct (Hl2 i _ Hx) as (A & A'). cbn [Nat.add fst snd] in A, A'.
  assert (Hb : nth_error blobs i = Some tb) by (rewrite <- Hl1, nth_error_map, Hx; reflexivity).
  eapply (step_is (fun run => envs run (Z.of_nat i)) fn tb q); [exact Sn|exact (H i tb c0 Hb Ec)| | |exact Ey].
  - intros T. destruct (A T) as (A1 & A2 & _). auto.
  - intros p ->. apply A'. exact Ec.
Qed.

(** a range that has [x] begins before location [t] *)
Definition reached (rs : list range) (t x : Z) : Prop :=
  exists k r, nth_error rs k = Some r /\ in_range r x /\ total (firstn k rs) < t.

(** C84, exactly.  With any number of passes: if the rewriter finishes, the output is an OSM file with the same blocks in
    which only refs of ways have changed: those in a range that begins before location n * (number of locations / n),
    into what the index has for them. *)
Lemma pC84_exact : forall (R : Type) (envs : R -> Z -> zenv) (rp : Z -> R) file blocks rs locs n out,
  osm_file envs file blocks -> (forall run i, env_ok (envs run i)) ->
  index_ok rs locs -> Forall (fun loc => is_s64 loc /\ loc <= 0) locs -> 1 <= n ->
  (forall k f, Z.of_nat k <= n -> after_passes (fun pass => envs (rp pass)) (index_of rs locs) n k file = Ok f -> zlen f < 2^63) ->
  after_passes (fun pass => envs (rp pass)) (index_of rs locs) n (Z.to_nat n) file = Ok out ->
  exists f, osm_file envs out (with_refs f blocks) /\
    forall x, (reached rs (zlen locs / n * n) x -> f x = new_ref rs locs x) /\ (~ reached rs (zlen locs / n * n) x -> f x = x).
Proof.
  intros R envs rp file blocks rs locs n out F He Hi Hl Hn Sz E. pose proof Hi as (Hok & Ha & _).
  assert (Hneg : Forall (fun x => x <= 0) locs) by (revert Hl; apply Forall_impl; tauto).
  exists (new_ref (firstn (cut (zlen locs / n * n) 0 rs) rs) locs). split; [eapply rewrite_any; eassumption|]. intros x. set (t := zlen locs / n * n).
  assert (Rc : forall k r, nth_error rs k = Some r -> ((k < cut t 0 rs)%nat <-> total (firstn k rs) < t)).
  { intros k r Hk. rewrite (cut_reached locs t rs 0 k Hok) by (apply nth_error_Some; rewrite Hk; discriminate). lia. }
  split.
  - intros (k & r & Hk & Ir & Ht). apply (part_same rs locs _ x Hok Ha Hneg). intros _. exists k, r. split; [apply (Rc k r Hk); exact Ht|]. auto.
  - intros No. unfold new_ref. destruct (x <? 0); [reflexivity|].
    destruct (linear_search_spec locs x (firstn (cut t 0 rs) rs) 0) as [(k & r & Hk & Ir & _)|(_ & Es)]; [|rewrite Es; reflexivity].
    exfalso. apply No. assert (Kc : (k < List.length (firstn (cut t 0 rs) rs))%nat) by (apply nth_error_Some; rewrite Hk; discriminate). rewrite firstn_length in Kc.
    assert (Hk' : nth_error rs k = Some r) by (rewrite <- (firstn_skipn (cut t 0 rs) rs), nth_error_app1; [exact Hk|rewrite firstn_length; exact Kc]).
    exists k, r. split; [exact Hk'|]. split; [exact Ir|]. apply (Rc k r Hk'). lia.
Qed.
(** The file, index and contents of C84_ex in three passes: the last range begins at location 3 = 5 / 3 * 3, so the nodes
    9 and 10 are not looked up. *)
Lemma pC84_exact_ex : (exists out, after_passes (fun pass => ex_envs (Rewrite pass)) (index_of EeThms.ex_ranges EeThms.ex_locs) 3 3 ex_osm = Ok out) /\
  reached EeThms.ex_ranges (zlen EeThms.ex_locs / 3 * 3) 5 /\ ~ reached EeThms.ex_ranges (zlen EeThms.ex_locs / 3 * 3) 10 /\ new_ref EeThms.ex_ranges EeThms.ex_locs 10 = -15.
Proof.
  split; [eexists; vm_compute; reflexivity|]. split; [|split; [|reflexivity]].
  - exists 1%nat, (mkRange 5 1 2). split; [reflexivity|]. unfold in_range. vm_compute. split; [split; discriminate || reflexivity|reflexivity].
  - intros (k & r & Hk & Ir & Ht). change (zlen EeThms.ex_locs / 3 * 3) with 3 in Ht. unfold EeThms.ex_ranges, in_range in *. destruct k as [|[|[|k]]]; cbn in Hk; try (destruct k; discriminate); injection Hk as <-; cbn in *; lia.
Qed.
