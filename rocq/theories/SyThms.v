(** * SyThms: C107, the status lines of the writers of the two indexes. *)
From Verif Require Import Base PbModel TModel HLModel FrModel ZlModel IoModel IoSpec NiModel WiModel TrModel TmModel PgModel SlModel SlSpec SwModel SySpec NiThms.
From Verif Require Import BaseLemmas IoThms SlProofs SlThms SrThms SfThms SyProofs.

Lemma about_const : forall B (f : work -> option B) v ds n x, (forall w y, f w = Some y -> y = v) -> about f ds n x -> x = v.
Proof.
  intros B f v ds n x F A.
  assert (K : forall l, Forall (fun y => y = v) (told_of f l)).
  { induction l as [|d l IH]; cbn [told_of]; [constructor|]. destruct d as [c z|c z|w]; try exact IH. destruct (f w) as [y|] eqn:E; [|exact IH]. constructor; [exact (F w y E)|exact IH]. }
  destruct A as [A|A].
  - pose proof (Forall_rev (K (firstn n ds))) as R. destruct (rev _) as [|y r]; [discriminate A|]. injection A as <-. inversion R; assumption.
  - pose proof (K (skipn n ds)) as R. destruct (told_of f (skipn n ds)) as [|y r]; [discriminate A|]. injection A as <-. inversion R; assumption.
Qed.
Lemma ixw_word_ok : forall w, ixw_word w <> ""%string. Proof. destruct w; discriminate. Qed.
Section lines.
Context (total_ok end_ok : Z -> Z -> Prop) (t0 : Z) (total_is : forall t T, total_ok t T -> t = t0) (d : list deed) (D : ixd total_ok end_ok MWait d).
Let ds := Store CState 0 :: d.
Lemma ext0 : forall B (f : work -> option B) view on, (forall a b : status, (forall c, a c = b c) -> view a = view b /\ on a = on b) ->
  tracks f view on false status0 None d -> on status0 = false -> tracks f view on false status0 None ds.
Proof.
  intros B f view on X T O0. unfold ds. cbn [tracks]. rewrite O0. split; [discriminate|]. split; [discriminate|].
  apply (tracks_ext _ _ _ _ d _ status0); [exact X|intros c; cbn; destruct c; reflexivity|exact T].
Qed.
Lemma lines_words : tracks (f_word ixw_word) x_phase on_always false status0 None ds.
Proof.
  assert (W : exists r, d = Doing Waiting :: r) by (inversion D; eexists; reflexivity). destruct W as [r R]. unfold ds. cbn [tracks]. split; [intros _; right; rewrite R; reflexivity|].
  split; [discriminate|]. apply (words_tracked _ _ _ _ D). reflexivity.
Qed.
Lemma lines_entries : tracks entries (fun s => s CBlock) on_index false status0 None ds.
Proof.
  apply ext0; [intros a b E; unfold on_index; rewrite !E; split; reflexivity| |reflexivity].
  apply (entries_tracked _ _ _ _ D). split; [reflexivity|discriminate].
Qed.
Lemma lines_copied : tracks copied (fun s => s CCopied) on_copy false status0 None ds.
Proof.
  apply ext0; [intros a b E; unfold on_copy; rewrite !E; split; reflexivity| |reflexivity].
  apply (copied_tracked _ _ _ _ D). split; [reflexivity|split; reflexivity].
Qed.
Lemma lines_total : tracks (to_copy t0) (fun s => s CTotal) on_copy false status0 None ds.
Proof.
  apply ext0; [intros a b E; unfold on_copy; rewrite !E; split; reflexivity| |reflexivity].
  apply (total_tracked _ _ _ total_is _ _ D). split; [reflexivity|split; [reflexivity|exact I]].
Qed.
Definition after_state (v : string) (u : update) : Prop :=
  (v = index_words /\ u = Load CBlock (fun b => Show (Text (bytes_of index_words ++ d_ b)))) \/
  (v = copying_words /\ u = Load CCopied (fun a => Load CTotal (fun m => Show (copy_line a m)))) \/
  (v <> index_words /\ v <> copying_words /\ u = Show (Text (bytes_of v))).
Lemma widget_states : exists k, ix_writer_widget = Load CState k /\ forall s, x_ph s <> ""%string -> after_state (x_ph s) (k s) /\ (x_ph s = index_words -> s = 1) /\ (x_ph s = copying_words -> s = 3).
Proof.
  eexists. split; [reflexivity|]. intros s. cbv beta. unfold x_ph, iReading, iWritingIndex, iWritingLocations, iCopyingLocations, iFinalizing.
  destruct (Z.eqb_spec s 0) as [->|]; [intros _; split; [right; right; split; [discriminate|split; [discriminate|reflexivity]]|split; discriminate]|].
  destruct (Z.eqb_spec s 1) as [->|]; [intros _; split; [left; split; reflexivity|split; [reflexivity|discriminate]]|].
  destruct (Z.eqb_spec s 2) as [->|]; [intros _; split; [right; right; split; [discriminate|split; [discriminate|reflexivity]]|split; discriminate]|].
  destruct (Z.eqb_spec s 3) as [->|]; [intros _; split; [right; left; split; reflexivity|split; [discriminate|reflexivity]]|].
  destruct (Z.eqb_spec s 4) as [->|]; [intros _; split; [right; right; split; [discriminate|split; [discriminate|reflexivity]]|split; discriminate]|].
  intros X. contradiction.
Qed.
Lemma index_lines_of : index_lines ds t0.
Proof.
  destruct widget_states as (k & KW & K). split; rewrite KW; clear KW.
  - intros n w l Dw. pose proof (tracks_doing _ _ _ ds n w (ixw_word w) lines_words Dw eq_refl) as P. unfold x_phase in P.
    pose proof (doing_le _ _ _ Dw) as LE. destruct (K (status_at ds n CState)) as [KA _]; [rewrite P; apply ixw_word_ok|]. rewrite P in KA.
    assert (Q : exists u, k (status_at ds n CState) = u /\ (look ds n u n l <-> l = ixw_line t0 w)).
    { eexists. split; [reflexivity|]. destruct KA as [[V ->]|[[V ->]|(V1 & V2 & ->)]].
      - destruct w; try discriminate V. pose proof (tracks_doing _ _ _ ds n _ _ lines_entries Dw eq_refl) as PB. cbv beta in PB. split.
        + intros L. apply look_load_inv in L. destruct L as (n' & Ln & L). apply look_show_inv in L. destruct L as [-> ->]. rewrite PB. reflexivity.
        + intros ->. apply (look_load ds n n n CBlock); [lia|]. rewrite PB. apply look_show.
      - destruct w; try discriminate V. pose proof (tracks_doing _ _ _ ds n _ _ lines_copied Dw eq_refl) as PB. pose proof (tracks_doing _ _ _ ds n _ _ lines_total Dw eq_refl) as PT. cbv beta in PB, PT. split.
        + intros L. apply look_load_inv in L. destruct L as (n' & Ln & L). pose proof (look_le _ _ _ _ _ L). assert (n' = n) as -> by lia.
          apply look_load_inv in L. destruct L as (n' & Ln' & L). apply look_show_inv in L. destruct L as [-> ->]. rewrite PB, PT. reflexivity.
        + intros ->. apply (look_load ds n n n CCopied); [lia|]. apply (look_load ds n n n CTotal); [lia|]. rewrite PB, PT. apply look_show.
      - replace (ixw_line t0 w) with (Text (bytes_of (ixw_word w))) by (destruct w; try reflexivity; exfalso; [apply V1|apply V2]; reflexivity). split.
        + intros L. apply look_show_inv in L. apply L.
        + intros ->. apply look_show. }
    destruct Q as (u & U & Q). rewrite <- Q, <- U. split.
    + intros L. apply look_load_inv in L. destruct L as (n' & Ln & L). assert (n' = n) as -> by (pose proof (look_le _ _ _ _ _ L); lia). exact L.
    + intros L. apply (look_load ds n n n CState k); [lia|exact L].
  - intros m m' l L. apply look_load_inv in L. destruct L as (i & Li & L).
    assert (A : about (f_word ixw_word) ds i (x_ph (status_at ds i CState))).
    { apply (tracks_about _ _ _ ds i lines_words); [lia|]. exists i. split; [lia|reflexivity]. }
    pose proof (about_word_ok _ _ _ _ ixw_word_ok A) as N0. destruct (K _ N0) as (KA & K1 & K3).
    destruct KA as [[V U]|[[V U]|(V1 & V2 & U)]]; rewrite U in L.
    + apply look_load_inv in L. destruct L as (j & Lj & L). apply look_show_inv in L. destruct L as [-> ->]. exists i, j, (x_ph (status_at ds i CState)).
      split; [lia|]. split; [lia|]. split; [exact A|]. right. left. split; [exact V|]. exists (status_at ds j CBlock). rewrite V. split; [|reflexivity].
      apply (tracks_about _ (fun s => s CBlock) _ ds j lines_entries); [lia|]. exists i. split; [lia|]. unfold on_index. rewrite (K1 V). reflexivity.
    + apply look_load_inv in L. destruct L as (j & Lj & L). apply look_load_inv in L. destruct L as (j' & Lj' & L). apply look_show_inv in L. destruct L as [-> ->]. exists i, j, (x_ph (status_at ds i CState)).
      split; [lia|]. split; [lia|]. split; [exact A|]. right. right. split; [exact V|]. exists (status_at ds j CCopied). split.
      * apply (tracks_about _ (fun s => s CCopied) _ ds j lines_copied); [lia|]. exists i. split; [lia|]. unfold on_copy. rewrite (K3 V). reflexivity.
      * f_equal. apply (about_const _ (to_copy t0) t0 ds j'); [intros w y; destruct w; cbn; intros Y; try discriminate Y; injection Y as <-; reflexivity|].
        apply (tracks_about _ (fun s => s CTotal) _ ds j' lines_total); [lia|]. exists i. split; [lia|]. unfold on_copy. rewrite (K3 V). reflexivity.
    + apply look_show_inv in L. destruct L as [-> ->]. exists i, i, (x_ph (status_at ds i CState)). split; [lia|]. split; [lia|]. split; [exact A|]. left. auto.
Qed.
Lemma doing_nth_inv : forall l n w, doing l n w -> exists k, n = S k /\ nth_error l k = Some (Doing w).
Proof. intros l n w (b & a & -> & ->). exists (List.length b). split; [reflexivity|]. rewrite nth_error_app2, Nat.sub_diag by lia. reflexivity. Qed.
Lemma doing_d : forall n w, doing ds n w -> exists k, n = S (S k) /\ nth_error d k = Some (Doing w).
Proof. intros n w H. apply doing_nth_inv in H. destruct H as (k & -> & E). destruct k as [|k]; [discriminate E|]. exists k. split; [reflexivity|exact E]. Qed.
Lemma copying_right_of : forall whole : Prop, (forall x T, end_ok x T -> whole -> x = T) -> copying_right ds whole.
Proof.
  intros whole EO. split; [|split].
  - intros n x T H. apply doing_d in H. destruct H as (k & -> & E). destruct (copy_range _ _ _ total_is _ _ D I _ _ _ E) as [A _]. exact A.
  - intros n x T n' x' T' H L H'. apply doing_d in H. destruct H as (k & -> & E). apply doing_d in H'. destruct H' as (k' & -> & E').
    apply (copy_order _ _ _ total_is _ _ D I k x T k' x' T' E); [lia|exact E'].
  - intros W n H. apply doing_d in H. destruct H as (k & -> & E). destruct (copy_end _ _ _ total_is _ _ D _ E) as (x & T & X & [Y|(k' & L & Y)]); [discriminate Y|].
    rewrite (EO _ _ X W) in *. exists (S (S k')), T. split; [lia|]. apply doing_nth. exact Y.
Qed.
Lemma size_of : forall n x T, doing ds n (Copying x T) -> exists t, total_ok t T.
Proof. intros n x T H. apply doing_d in H. destruct H as (k & -> & E). destruct (copy_size _ _ _ _ D _ _ _ E) as [[d0 X]|X]; [discriminate X|exact X]. Qed.
End lines.

(** ** the two writers *)
Lemma start_deeds : forall o (k : tio wstate unit), let ds := fst ((_ <== act (io_call o) ;; _ <== act (io_call o) ;; _ <== act (idx_WriteSlice o [0; 0]) ;; _ <== say (SetCurrentState iReading) ;; k) w0) in
  ds <> [] -> exists w, w_loc w = mkFile [] 0 /\ ds = Store CState 0 :: fst (k w).
Proof.
  intros o k ds NE. subst ds. revert NE. rewrite !tio_fst. unfold io_call. cbn [act fst snd w_k w0 app]. destruct (os_fail o 0); [contradiction|]. cbn [fst snd app w_k].
  rewrite ?tio_fst. cbn [act fst snd w_k app w_idx w_loc]. destruct (os_fail o 1); [contradiction|]. cbn [fst snd app]. rewrite ?tio_fst. cbn [act fst snd].
  destruct (idx_WriteSlice o [0; 0] _) as [w1 r] eqn:W. cbn [fst snd app]. apply idx_keeps_loc in W. cbn [w_loc] in W. destruct r as [u|p|]; [|contradiction..]. intros _.
  rewrite ?tio_fst. cbn [say fst snd SetCurrentState app]. exists w1. split; [exact W|reflexivity].
Qed.
Lemma fin_mute : forall o l w, fst ((_ <== act (idx_rewind o) ;; _ <== act (idx_WriteSlice o l) ;; act (io_call o)) w) = [].
Proof.
  intros o l w. rewrite tio_fst. cbn [act fst app]. destruct (snd (snd _)); try reflexivity. rewrite tio_fst. cbn [act fst app]. destruct (snd (snd _)); reflexivity.
Qed.
Lemma ni_deeds : forall o msgs, let ds := fst (ni_output_told o msgs w0) in ds <> [] ->
  exists t0 d, ds = Store CState 0 :: d /\ ixd (fun t T => t = t0 /\ (ni_accounted msgs -> t = u64 T)) (end_of o) MWait d.
Proof.
  intros o msgs ds NE.
  destruct (start_deeds o (n <== ni_batches_told o msgs 0 0 ;; ix_end o (u64 (8 * fst n)) (_ <== act (idx_rewind o) ;; _ <== act (idx_WriteSlice o [Version; snd n]) ;; act (io_call o))) NE) as (w & WL & E).
  change (fst _) with ds in E at 1. rewrite tio_fst in E.
  exists (match snd (snd (ni_batches_told o msgs 0 0 w)) with Ok n => u64 (8 * fst n) | _ => 0 end). eexists. split; [exact E|]. clear E ds NE.
  apply ni_batches_ixd. destruct (ni_batches_told o msgs 0 0 w) as [d [w' [n|p|]]] eqn:R; cbn [fst snd]; [|reflexivity..].
  apply end_ixd; [apply fin_mute|]. split; [reflexivity|]. intros A.
  destruct (ni_total o msgs w 0 0 w' n A) as (L & -> & ->); [rewrite WL; reflexivity|rewrite WL; reflexivity|change (u64 0) with 0; rewrite R; reflexivity|].
  destruct (u64_cong L) as [q ->]. replace (8 * (L + q * 2 ^ 64)) with (8 * L + 8 * q * 2 ^ 64) by lia. apply u64_add_k.
Qed.
Lemma wi_deeds : forall o shift msgs, let ds := fst (wi_output_told o shift msgs w0) in ds <> [] ->
  exists t0 d, ds = Store CState 0 :: d /\ ixd (fun t T => t = t0 /\ (wi_accounted shift msgs -> t = u64 T)) (end_of o) MWait d.
Proof.
  intros o shift msgs ds NE.
  destruct (start_deeds o (n <== wi_batches_told o shift msgs 0 0 ;; _ <== give (if shift <? 0 then Panic NegativeShift else Ok tt) ;;
     ix_end o (u64 (s64 (Z.shiftl (fst n) shift))) (_ <== act (idx_rewind o) ;; _ <== act (idx_WriteSlice o [snd n; shift]) ;; act (io_call o))) NE) as (w & WL & E).
  change (fst _) with ds in E at 1. rewrite tio_fst in E.
  exists (match snd (snd (wi_batches_told o shift msgs 0 0 w)) with Ok n => u64 (s64 (Z.shiftl (fst n) shift)) | _ => 0 end). eexists. split; [exact E|]. clear E ds NE.
  apply wi_batches_ixd. destruct (wi_batches_told o shift msgs 0 0 w) as [d [w' [n|p|]]] eqn:R; cbn [fst snd]; [|reflexivity..].
  rewrite tio_fst. cbn [give fst snd app]. destruct (Z.ltb_spec shift 0) as [N|N]; [apply d_stop|].
  apply end_ixd; [apply fin_mute|]. split; [reflexivity|]. intros A.
  destruct (wi_total o shift N msgs w 0 0 w' n A) as (L & -> & ->); [rewrite WL; reflexivity|rewrite WL; reflexivity|change (s64 0) with 0; rewrite R; reflexivity|].
  rewrite u64_s64, Z.shiftl_mul_pow2 by lia. destruct (s64_cong L) as [q ->]. replace ((L + q * 2 ^ 64) * 2 ^ shift) with (L * 2 ^ shift + q * 2 ^ shift * 2 ^ 64) by lia. apply u64_add_k.
Qed.
(** C107.  The lines of the writer of the node index: if a line is made while the writer is doing something (and does not get on with it), it says what: that it waits,
    that it writes a part of the index, with the number of its entries, that it writes locations, that it copies locations, with the number of bytes copied, or that it
    is about to finish; in any case it is right for moments while the line was made.  The bytes copied grow, to at most the size of the temporary file, and are all
    of them at the end if nothing is cancelled and reads make progress.  The number shown as that of the bytes to copy is always the same; it is the size of the
    temporary file if the ranges of every message have as many ids as the message has locations.
    Missing: "writing index block n" with n the number of the block (C107_number_refuted); the total for messages that are not like that. *)
Lemma pC107_node_partial : forall o msgs, let ds := fst (ni_output_told o msgs w0) in ds <> [] ->
  copying_right ds (never_cancelled o /\ reads_progress o) /\
  exists t, index_lines ds t /\ (ni_accounted msgs -> forall n d T, doing ds n (Copying d T) -> t = u64 T).
Proof.
  intros o msgs ds NE. destruct (ni_deeds o msgs NE) as (t0 & d & E & D). change (fst _) with ds in E at 1. rewrite E.
  assert (TI : forall t T, t = t0 /\ (ni_accounted msgs -> t = u64 T) -> t = t0) by (intros t T [X _]; exact X). split; [|exists t0; split].
  - apply (copying_right_of _ _ _ TI _ D). intros x T X [W1 W2]. exact (X W1 W2).
  - apply (index_lines_of _ _ _ TI _ D).
  - intros A n x T H. destruct (size_of _ _ _ TI _ D _ _ _ H) as (t & -> & X). exact (X A).
Qed.
(** The lines of the writer of the way index, likewise; the words "writing index block" are also for writing the locations.  The total is right if the locations of
    every message are a whole number of units of 2^shift bytes. *)
Lemma pC107_way_partial : forall o shift msgs, let ds := fst (wi_output_told o shift msgs w0) in ds <> [] ->
  copying_right ds (never_cancelled o /\ reads_progress o) /\
  exists t, index_lines ds t /\ (wi_accounted shift msgs -> forall n d T, doing ds n (Copying d T) -> t = u64 T).
Proof.
  intros o shift msgs ds NE. destruct (wi_deeds o shift msgs NE) as (t0 & d & E & D). change (fst _) with ds in E at 1. rewrite E.
  assert (TI : forall t T, t = t0 /\ (wi_accounted shift msgs -> t = u64 T) -> t = t0) by (intros t T [X _]; exact X). split; [|exists t0; split].
  - apply (copying_right_of _ _ _ TI _ D). intros x T X [W1 W2]. exact (X W1 W2).
  - apply (index_lines_of _ _ _ TI _ D).
  - intros A n x T H. destruct (size_of _ _ _ TI _ D _ _ _ H) as (t & -> & X). exact (X A).
Qed.

(** ** the same programs *)
Lemma snd_tio_bind : forall (S A B : Type) (m : tio S A) (k : A -> tio S B) s,
  snd (tio_bind m k s) = match snd (m s) with (s1, Ok a) => snd (k a s1) | (s1, Panic p) => (s1, Panic p) | (s1, Diverge) => (s1, Diverge) end.
Proof. intros S A B m k s. unfold tio_bind. destruct (m s) as [d [s1 [a|p|]]]; reflexivity. Qed.
Lemma erase_bind : forall A B (m : tio wstate A) (m' : io A) (k : A -> tio wstate B) (k' : A -> io B),
  (forall w, snd (m w) = m' w) -> (forall a w, snd (k a w) = k' a w) -> forall w, snd (tio_bind m k w) = io_bind m' k' w.
Proof. intros A B m m' k k' M K w. rewrite snd_tio_bind, M. unfold io_bind. destruct (m' w) as [w1 [a|p|]]; [apply K|reflexivity..]. Qed.
Lemma erase_say : forall A ds (k : unit -> tio wstate A) (k' : io A), (forall w, snd (k tt w) = k' w) -> forall w, snd (tio_bind (say ds) k w) = k' w.
Proof. intros A ds k k' K w. rewrite snd_tio_bind. cbn [say snd]. apply K. Qed.
Lemma erase_copying : forall A (k : unit -> tio wstate A) (k' : io A), (forall w, snd (k tt w) = k' w) -> forall w, snd (tio_bind say_copying k w) = k' w.
Proof. intros A k k' K w. rewrite snd_tio_bind. cbn [say_copying snd]. apply K. Qed.
Lemma erase_act : forall A (m : io A) w, snd (@act wstate A m w) = m w. Proof. reflexivity. Qed.
Lemma erase_copy_loop : forall fuel o k fd fs size done, snd (copy_told fuel o k fd fs size done) = copy_loop fuel o k fd fs size.
Proof.
  induction fuel as [|fuel IH]; intros o k fd fs size done; cbn [copy_told copy_loop]; [reflexivity|]. destruct (os_cancelled o k); [reflexivity|].
  destruct (FCopy o (S k) fd fs size) as [[[k1 fd1] fs1] [n|p|]]; [|reflexivity..]. destruct (n =? 0); [reflexivity|]. cbn [snd]. apply IH.
Qed.
Lemma erase_copy : forall o w, snd (io_copy_told o w) = io_copy o w.
Proof.
  intros o w. unfold io_copy_told, io_copy. pose proof (erase_copy_loop (S (List.length (f_data (w_loc w)))) o (w_k w) (w_idx w) (w_loc w) copyBufferSize 0) as E. rewrite <- E.
  destruct (copy_told _ _ _ _ _ _ _) as [d [[[k fd] fs] r]]. reflexivity.
Qed.
Definition second {A B : Type} (x : wstate * res (A * B)) : wstate * res B :=
  match x with (w1, Ok n) => (w1, Ok (snd n)) | (w1, Panic p) => (w1, Panic p) | (w1, Diverge) => (w1, Diverge) end.
Lemma second_bind : forall X A B (m : tio wstate X) (m' : io X) (k : X -> tio wstate (A * B)) (k' : X -> io B),
  (forall w, snd (m w) = m' w) -> (forall a w, second (snd (k a w)) = k' a w) -> forall w, second (snd (tio_bind m k w)) = io_bind m' k' w.
Proof. intros X A B m m' k k' M K w. rewrite snd_tio_bind, M. unfold io_bind. destruct (m' w) as [w1 [a|p|]]; [apply K|reflexivity..]. Qed.
Lemma second_say : forall A B ds (k : unit -> tio wstate (A * B)) (k' : io B), (forall w, second (snd (k tt w)) = k' w) -> forall w, second (snd (tio_bind (say ds) k w)) = k' w.
Proof. intros A B ds k k' K w. rewrite snd_tio_bind. cbn [say snd]. apply K. Qed.
Lemma erase_ni_batches : forall o msgs L c w, second (snd (ni_batches_told o msgs L c w)) = ni_write_batches o msgs L c w.
Proof.
  intros o. induction msgs as [|m msgs IH]; intros L c w; cbn [ni_batches_told ni_write_batches].
  - apply second_say. reflexivity.
  - revert w. apply second_say. intros w. destruct (negb (seqb (nm_Type m) tIndexData)); [apply IH|]. destruct (nm_Batch m) as [[ranges locations]|]; [|reflexivity].
    revert w. apply second_say. apply second_bind; [reflexivity|]. intros x. apply second_bind; [reflexivity|]. intros _. apply second_say. apply second_bind; [reflexivity|]. intros _. apply second_say.
    intros w. apply IH.
Qed.
Lemma erase_wi_batches : forall o shift msgs L c w, second (snd (wi_batches_told o shift msgs L c w)) = wi_write_batches o shift msgs L c w.
Proof.
  intros o shift. induction msgs as [|m msgs IH]; intros L c w; cbn [wi_batches_told wi_write_batches].
  - apply second_say. reflexivity.
  - revert w. apply second_say. intros w. destruct (negb (seqb (wm_Type m) tWayIndexData)); [apply IH|]. destruct (wm_Batch m) as [[blocks locations]|]; [|reflexivity].
    revert w. apply second_say. apply second_bind; [reflexivity|]. intros x. apply second_bind; [reflexivity|]. intros _. apply second_bind; [reflexivity|]. intros _.
    apply second_bind; [intros w; destruct (shift <? 0); reflexivity|]. intros _. apply second_say. intros w. apply IH.
Qed.
Lemma erase_second : forall A B C (m : tio wstate (A * B)) (m' : io B) (k : A * B -> tio wstate C) (k' : B -> io C),
  (forall w, second (snd (m w)) = m' w) -> (forall n w, snd (k n w) = k' (snd n) w) -> forall w, snd (tio_bind m k w) = io_bind m' k' w.
Proof.
  intros A B C m m' k k' M K w. rewrite snd_tio_bind. unfold io_bind. rewrite <- M. destruct (snd (m w)) as [w1 [n|p|]]; cbn [second]; [apply K|reflexivity..].
Qed.
Lemma io_assoc : forall A B C (m : io A) (f : A -> io B) (g : B -> io C) w, io_bind (io_bind m f) g w = io_bind m (fun a => io_bind (f a) g) w.
Proof. intros A B C m f g w. unfold io_bind. destruct (m w) as [w1 [a|p|]]; reflexivity. Qed.
Lemma io_ext : forall A B (m : io A) (f g : A -> io B), (forall a w, f a w = g a w) -> forall w, io_bind m f w = io_bind m g w.
Proof. intros A B m f g E w. unfold io_bind. destruct (m w) as [w1 [a|p|]]; [apply E|reflexivity..]. Qed.
(** The writers with their records do to the files what the writers of NiModel.v and WiModel.v do. *)
Lemma pC107_same_programs : forall o, (forall msgs w, snd (ni_output_told o msgs w) = ni_output o msgs w) /\
  (forall shift msgs w, snd (wi_output_told o shift msgs w) = wi_output o shift msgs w).
Proof.
  intros o. split.
  - intros msgs w. unfold ni_output, ni_output_body. rewrite io_assoc. unfold ni_output_told. revert w. apply erase_bind; [reflexivity|]. intros _ w. rewrite io_assoc. revert w.
    apply erase_bind; [reflexivity|]. intros _ w. rewrite io_assoc. revert w. apply erase_bind; [reflexivity|]. intros _. apply erase_say. intros w. rewrite io_assoc. revert w.
    apply erase_second; [apply erase_ni_batches|]. intros n. apply erase_say, erase_copying. intros w. rewrite io_assoc. revert w. apply erase_bind; [reflexivity|]. intros _ w. rewrite io_assoc. revert w.
    apply erase_bind; [apply erase_copy|]. intros _ w. rewrite io_assoc. revert w. apply erase_bind; [reflexivity|]. intros _ w. rewrite io_assoc. revert w. apply erase_bind; [reflexivity|]. intros _.
    apply erase_say. intros w. rewrite io_assoc. revert w. apply erase_bind; [reflexivity|]. intros _ w.
    change (io_bind (io_lift (Ok (snd n))) (fun n0 => _ <~ idx_WriteSlice o [Version; n0];; io_call o) w) with ((_ <~ idx_WriteSlice o [Version; snd n];; io_call o) w). revert w.
    apply erase_bind; [reflexivity|]. reflexivity.
  - intros shift msgs w. unfold wi_output, wi_output_body. rewrite io_assoc. unfold wi_output_told. revert w. apply erase_bind; [reflexivity|]. intros _ w. rewrite io_assoc. revert w.
    apply erase_bind; [reflexivity|]. intros _ w. rewrite io_assoc. revert w. apply erase_bind; [reflexivity|]. intros _. apply erase_say. intros w. rewrite io_assoc. revert w.
    apply erase_second; [apply erase_wi_batches|]. intros n w. rewrite io_assoc. revert w. apply erase_bind; [intros w; destruct (shift <? 0); reflexivity|]. intros _. apply erase_say, erase_copying. intros w. rewrite io_assoc. revert w. apply erase_bind; [reflexivity|]. intros _ w. rewrite io_assoc. revert w.
    apply erase_bind; [apply erase_copy|]. intros _ w. rewrite io_assoc. revert w. apply erase_bind; [reflexivity|]. intros _ w. rewrite io_assoc. revert w. apply erase_bind; [reflexivity|]. intros _.
    apply erase_say. intros w. rewrite io_assoc. revert w. apply erase_bind; [reflexivity|]. intros _ w.
    change (io_bind (io_lift (Ok (snd n))) (fun n0 => _ <~ idx_WriteSlice o [n0; shift];; io_call o) w) with ((_ <~ idx_WriteSlice o [snd n; shift];; io_call o) w). revert w.
    apply erase_bind; [reflexivity|]. reflexivity.
Qed.

(** ** the messages of the workers *)
Definition acct (s : ni_state) : Prop :=
  let '(f, l, bl, locs) := s in f <> notAssigned /\ u64 (ids_in bl + (l - f + 1)) = u64 (zlen locs).
Definition acct_or (s : ni_state) (rest : list Z) : Prop :=
  acct s \/ s = (notAssigned, notAssigned, [], []) /\ match rest with [] => True | i :: _ => u64 i <> 0 /\ u64 i <> 1 end.
Lemma ids_app : forall a b, ids_in (a ++ b) = ids_in a + ids_in b.
Proof. induction a as [|x a IH]; intros b; [reflexivity|]. cbn [app ids_in fold_right]. change (fold_right _ 0 (a ++ b)) with (ids_in (a ++ b)). change (fold_right _ 0 a) with (ids_in a). rewrite IH. lia. Qed.
Lemma u64_same : forall a b c, u64 a = u64 b -> u64 (a + c) = u64 (b + c).
Proof. intros a b c E. rewrite <- (u64_sum a), <- (u64_sum b), E. reflexivity. Qed.
Lemma node_acct : forall pb d s idx id s' rest, ni_node pb d s idx id = Ok s' -> u64 id <> notAssigned -> acct_or s (id :: rest) -> acct s'.
Proof.
  intros pb d [[[f l] bl] locs] idx id s' rest E NN J. unfold ni_node in E. cbv zeta in E.
  set (t := if u64 id =? u64 (l + 1) then (f, u64 id, bl, locs) else if u64 id =? u64 (l + 2) then (f, u64 id, bl, locs ++ [0]) else
     (u64 id, u64 id, if negb (f =? notAssigned) then bl ++ [(f, l)] else bl, locs)) in *.
  assert (T : let '(f', l', bl', locs') := t in f' <> notAssigned /\ u64 (ids_in bl' + (l' - f' + 1)) = u64 (zlen locs' + 1)).
  { destruct J as [[F A]|[I0 [N0 N1]]].
    - subst t. destruct (Z.eqb_spec (u64 id) (u64 (l + 1))) as [X|_].
      + split; [exact F|]. rewrite X. destruct (u64_cong (l + 1)) as [q ->]. rewrite <- (u64_same _ _ 1 A).
        replace (ids_in bl + (l + 1 + q * 2 ^ 64 - f + 1)) with (ids_in bl + (l - f + 1) + 1 + q * 2 ^ 64) by lia. apply u64_add_k.
      + destruct (Z.eqb_spec (u64 id) (u64 (l + 2))) as [X|_].
        * split; [exact F|]. rewrite X. destruct (u64_cong (l + 2)) as [q ->]. rewrite zlen_app. change (zlen [0]) with 1. replace (zlen locs + 1 + 1) with (zlen locs + 2) by lia. rewrite <- (u64_same _ _ 2 A).
          replace (ids_in bl + (l + 2 + q * 2 ^ 64 - f + 1)) with (ids_in bl + (l - f + 1) + 2 + q * 2 ^ 64) by lia. apply u64_add_k.
        * split; [exact NN|]. rewrite (proj2 (Z.eqb_neq _ _) F). cbn [negb]. rewrite ids_app. replace (ids_in [(f, l)]) with (l - f + 1) by (cbn; lia). replace (ids_in bl + (l - f + 1) + (u64 id - u64 id + 1)) with (ids_in bl + (l - f + 1) + 1) by lia.
          apply u64_same, A.
    - injection I0 as -> -> -> ->. subst t. change (u64 (notAssigned + 1)) with 0. change (u64 (notAssigned + 2)) with 1.
      rewrite (proj2 (Z.eqb_neq _ _) N0), (proj2 (Z.eqb_neq _ _) N1). split; [exact NN|]. rewrite Z.eqb_refl. cbn [negb]. change (ids_in []) with 0. change (zlen (@nil Z)) with 0. f_equal. lia. }
  clearbody t. destruct t as [[[f' l'] bl'] locs'].
  destruct (lidx (dn_Lat d) idx) as [vlat|p|]; cbn [bind] in E; try discriminate E. destruct (lidx (dn_Lon d) idx) as [vlon|p|]; cbn [bind] in E; try discriminate E.
  destruct (MtModel.location _ _) as [loc|p|]; cbn [bind] in E; try discriminate E. injection E as <-. cbn [acct]. rewrite zlen_app. exact T.
Qed.
Lemma dense_acct : forall pb d ids idx s s' rest, ni_dense pb d idx ids s = Ok s' -> Forall (fun i => u64 i <> notAssigned) ids -> acct_or s (ids ++ rest) -> acct_or s' rest.
Proof.
  intros pb d. induction ids as [|i ids IH]; intros idx s s' rest E F J; cbn [ni_dense] in E.
  - injection E as <-. exact J.
  - inversion F; subst. destruct (ni_node pb d s idx i) as [s1|p|] eqn:N; cbn [bind] in E; try discriminate E. apply (IH _ _ _ _ E); [assumption|]. left. exact (node_acct _ _ _ _ _ _ _ N ltac:(assumption) J).
Qed.
Definition group_ids (gs : list PrimitiveGroup) : list Z := flat_map (fun pg => match pg_Dense pg with Some d => dn_Id d | None => [] end) gs.
Lemma groups_acct : forall pb gs s s', foldm (fun s pg => match pg_Dense pg with None => Ok s | Some d => ni_dense pb d 0 (dn_Id d) s end) gs s = Ok s' ->
  Forall (fun i => u64 i <> notAssigned) (group_ids gs) -> acct_or s (group_ids gs) -> acct_or s' [].
Proof.
  intros pb. induction gs as [|g gs IH]; intros s s' E F J; cbn [foldm] in E.
  - injection E as <-. exact J.
  - cbn [group_ids flat_map] in F, J. change (flat_map _ gs) with (group_ids gs) in F, J. apply Forall_app in F. destruct F as [F1 F2]. destruct (pg_Dense g) as [d|].
    + destruct (ni_dense pb d 0 (dn_Id d) s) as [s1|p|] eqn:N; cbn [bind] in E; try discriminate E. apply (IH _ _ E F2). exact (dense_acct _ _ _ _ _ _ _ N F1 J).
    + cbn [bind] in E. apply (IH _ _ E F2). exact J.
Qed.
Lemma batch_acct : forall pb ranges locations, ni_batch pb = Ok (ranges, locations) -> fine_ids (group_ids (pblk_PrimitiveGroup pb)) -> u64 (ids_in ranges) = u64 (zlen locations).
Proof.
  intros pb ranges locations E [F1 F2]. unfold ni_batch in E.
  match type of E with (bind ?x _ = _) => destruct x as [s'|p|] eqn:G end; cbn [bind] in E; try discriminate E.
  pose proof (groups_acct _ _ _ _ G F2) as J. specialize (J ltac:(right; split; [reflexivity|exact F1])). destruct s' as [[[f l] bl] locs]. injection E as <- <-.
  destruct J as [[F A]|[I0 _]].
  - rewrite (proj2 (Z.eqb_neq _ _) F). cbn [negb]. rewrite ids_app, <- A. f_equal. replace (ids_in [(f, l)]) with (l - f + 1) by (cbn; lia). reflexivity.
  - injection I0 as -> -> -> ->. reflexivity.
Qed.
Lemma mapm_all : forall X Y (g : X -> res Y) l ys (P : X -> Prop) (Q : Y -> Prop), mapm g l = Ok ys -> Forall P l -> (forall x y, P x -> g x = Ok y -> Q y) -> Forall Q ys.
Proof.
  intros X Y g. induction l as [|x l IH]; intros ys P Q E F K; cbn [mapm] in E.
  - injection E as <-. constructor.
  - inversion F; subst. destruct (g x) as [y|p|] eqn:G; cbn [bind] in E; try discriminate E. destruct (mapm g l) as [r|p|] eqn:M; cbn [bind] in E; try discriminate E. injection E as <-.
    constructor; [eapply K; eassumption|eapply IH; [reflexivity|eassumption|exact K]].
Qed.
(** The messages of the node index workers are as C107_node_partial asks if no block begins with node 0 or 1 and no node has the id -1. *)
Lemma pC107_node_messages : forall inBlocks msgs, mapm (fun b => ni_worker (fst b) (snd b)) inBlocks = Ok msgs ->
  Forall (fun b => fine_ids (dense_ids b)) inBlocks -> ni_accounted msgs.
Proof.
  intros inBlocks msgs E F. eapply mapm_all; [exact E|exact F|]. intros [env data] m FI W T ranges locations B. cbn [fst snd] in W. unfold ni_worker in W. unfold dense_ids in FI.
  destruct (negb (seqb (blk_Type data) tOSMData)).
  - injection W as <-. discriminate B.
  - destruct (ReadBlob (blk_Data data) Blob0) as [b|p|]; cbn [bind] in *; try discriminate W. destruct (GetRawData env b) as [raw|p|]; cbn [bind] in *; try discriminate W.
    destruct (ReadPrimitiveBlock ni_reader raw PrimitiveBlock0) as [pb|p|]; cbn [bind] in *; try discriminate W. destruct (ni_batch pb) as [batch|p|] eqn:N; cbn [bind] in *; try discriminate W.
    injection W as <-. cbn [nm_Batch] in B. injection B as ->. exact (batch_acct _ _ _ N FI).
Qed.
Lemma pad_divides : forall shift amt b out, go_shl 1 shift = Ok amt -> padToAlignment b amt = Ok out -> (2 ^ shift | zlen out).
Proof.
  intros shift amt b out G P. unfold go_shl in G. destruct (Z.ltb_spec shift 0) as [N|N]; [discriminate G|]. injection G as <-. unfold padToAlignment in P.
  destruct (Z.leb_spec 64 shift) as [L|L]; [discriminate P|]. rewrite Z.shiftl_mul_pow2, Z.mul_1_l in P by lia. pose proof (zlen_nonneg b) as LB.
  destruct (Z.eq_dec shift 63) as [-> |N63].
  - exfalso. change (s64 (2 ^ 63)) with (- 2 ^ 63) in P. cbv zeta in P. replace (- 2 ^ 63 =? 0) with false in P by reflexivity. pose proof (Z.rem_bound_pos_pos (zlen b) (2 ^ 63) ltac:(lia) LB) as RB. rewrite <- (Z.rem_opp_r _ (2 ^ 63)) in RB by lia.
    destruct (Z.ltb_spec (- 2 ^ 63 - Z.rem (zlen b) (- 2 ^ 63)) 0) as [_|X]; [discriminate P|lia].
  - assert (B : 0 < 2 ^ shift < 2 ^ 63) by (split; [apply Z.pow_pos_nonneg; lia|apply Z.pow_lt_mono_r; lia]). rewrite s64_id in P by (unfold is_s64; lia).
    destruct (Z.eqb_spec (2 ^ shift) 0) as [X|_]; [lia|]. cbv zeta in P. rewrite Z.rem_mod_nonneg in P by lia. pose proof (Z.mod_pos_bound (zlen b) (2 ^ shift) ltac:(lia)) as MB.
    destruct (Z.ltb_spec (2 ^ shift - zlen b mod 2 ^ shift) 0) as [X|_]; [lia|]. injection P as <-. rewrite zlen_app. unfold zlen at 2. rewrite repeat_length, Z2Nat.id by lia.
    exists (zlen b / 2 ^ shift + 1). pose proof (Z.div_mod (zlen b) (2 ^ shift) ltac:(lia)). lia.
Qed.
(** The messages of the way index workers always are as C107_way_partial asks. *)
Lemma pC107_way_messages : forall shift inBlocks msgs, mapm (fun b => wi_worker shift (fst b) (snd b)) inBlocks = Ok msgs -> wi_accounted shift msgs.
Proof.
  intros shift inBlocks msgs E. eapply mapm_all; [exact E|apply Forall_forall; intros x _; exact I|]. intros [env data] m _ W T blocks locations B. cbn [fst snd] in W. unfold wi_worker in W.
  destruct (negb (seqb (blk_Type data) tOSMData)).
  - injection W as <-. discriminate B.
  - destruct (ReadBlob (blk_Data data) Blob0) as [b|p|]; cbn [bind] in *; try discriminate W. destruct (GetRawData env b) as [raw|p|]; cbn [bind] in *; try discriminate W.
    destruct (ReadPrimitiveBlock wi_reader raw PrimitiveBlock0) as [pb|p|]; cbn [bind] in *; try discriminate W. destruct (wi_batch shift pb) as [batch|p|] eqn:N; cbn [bind] in *; try discriminate W.
    injection W as <-. cbn [wm_Batch] in B. injection B as ->. clear T. unfold wi_batch in N. destruct (go_shl 1 shift) as [amt|p|] eqn:G; cbn [bind] in N; try discriminate N.
    assert (KW : forall ws s s', foldm (wi_way shift amt) ws s = Ok s' -> (2 ^ shift | zlen (snd s)) -> (2 ^ shift | zlen (snd s'))).
    { induction ws as [|w ws IH]; intros s s' X H; cbn [foldm] in X; [injection X as <-; exact H|]. destruct (wi_way shift amt s w) as [s1|p|] eqn:Y; cbn [bind] in X; try discriminate X. apply (IH _ _ X).
      unfold wi_way in Y. destruct s as [ix out]. destruct (MakeIndexData _ _) as [d|p|]; cbn [bind] in Y; try discriminate Y. cbv zeta in Y. destruct (padToAlignment _ amt) as [o1|p|] eqn:Z0; cbn [bind] in Y; try discriminate Y.
      injection Y as <-. exact (pad_divides _ _ _ _ G Z0). }
    assert (KG : forall gs s s', foldm (fun s pg => match pg_Ways pg with None => Ok s | Some ws => foldm (wi_way shift amt) ws s end) gs s = Ok s' -> (2 ^ shift | zlen (snd s)) -> (2 ^ shift | zlen (snd s'))).
    { induction gs as [|g gs IH]; intros s s' X H; cbn [foldm] in X; [injection X as <-; exact H|]. destruct (pg_Ways g) as [ws|].
      - destruct (foldm (wi_way shift amt) ws s) as [s1|p|] eqn:Y; cbn [bind] in X; try discriminate X. apply (IH _ _ X), (KW _ _ _ Y), H.
      - cbn [bind] in X. apply (IH _ _ X), H. }
    apply (KG _ _ _ N). exists 0. reflexivity.
Qed.

(** ** examples *)
Definition ex_ten : os := mkOS (fun k n => (n, false)) (fun _ => (10, NoErr)) (fun _ => false) (fun _ => false).
Definition ex_batch : list ni_msg := [mkNiMsg 6 tFiller (Some ([], [])); mkNiMsg 7 tIndexData (Some ([(5, 6)], [-1; -2]))].
Lemma ex_batch_deeds : fst (ni_output_told ex_ten ex_batch w0) =
  [Store CState 0; Doing Waiting; Doing Waiting; Store CBlock 1; Store CState 1; Doing (WritingIndex 7 1); Store CState 2; Doing (WritingLocations 7); Store CState 0; Doing Waiting;
   Store CTotal 16; Store CState 3; Doing (Copying 0 16); Doing (Copying 0 16); AddTo CCopied 10; Doing (Copying 10 16); AddTo CCopied 6; Doing (Copying 16 16); Store CState 4; Doing Finalizing].
Proof. vm_compute. reflexivity. Qed.
(** "writing index block n": n is not the number of the block but the number of its entries in the index. *)
Lemma pC107_number_refuted : let ds := fst (ni_output_told ex_ten ex_batch w0) in
  doing ds 6 (WritingIndex 7 1) /\ look ds 6 ix_writer_widget 6 (Text (bytes_of "Writer: writing index block 1")).
Proof. cbv zeta. rewrite ex_batch_deeds. split; [apply doing_nth; reflexivity|]. do 2 at_load 6%nat 6%nat. apply look_show. Qed.
Definition ex_one_five : list ni_msg := [mkNiMsg 0 tIndexData (Some ([(5, 5)], [0; -9223372036854775332; -9223372036854774176]))].
Lemma ex_one_five_deeds : exists rest, fst (ni_output_told ex_ten ex_one_five w0) =
  [Store CState 0; Doing Waiting; Store CBlock 1; Store CState 1; Doing (WritingIndex 0 1); Store CState 2; Doing (WritingLocations 0); Store CState 0; Doing Waiting;
   Store CTotal 8; Store CState 3; Doing (Copying 0 24); Doing (Copying 0 24); AddTo CCopied 10; Doing (Copying 10 24)] ++ rest.
Proof. eexists. vm_compute. reflexivity. Qed.
(** The total can be wrong for the messages of a block that begins with node 1: of a temporary file of 24 bytes, 10 are said to be 125%. *)
Lemma pC107_total_refuted : let ds := fst (ni_output_told ex_ten ex_one_five w0) in
  mapm (fun b => ni_worker (fst b) (snd b)) [ni_block 0 [1; 5] [10; 20] [30; 40]] = Ok ex_one_five /\
  doing ds 15 (Copying 10 24) /\ look ds 15 ix_writer_widget 15 (Bar (bytes_of "Writer: copying locations (10/8) 125.0%") (fraction 10 8)).
Proof.
  cbv zeta. split; [vm_compute; reflexivity|]. destruct ex_one_five_deeds as [rest ->]. split; [apply doing_nth; reflexivity|].
  replace (Bar (bytes_of "Writer: copying locations (10/8) 125.0%") (fraction 10 8)) with (copy_line 10 8) by (unfold copy_line; f_equal; vm_compute; reflexivity).
  do 3 at_load 15%nat 15%nat. apply look_show.
Qed.
Lemma pC107_ex : let ds := fst (ni_output_told ex_ten ex_batch w0) in
  ni_accounted ex_batch /\ never_cancelled ex_ten /\ reads_progress ex_ten /\ fine_ids (dense_ids (ni_block 1 [2; 3; 5; 9] [10; -20; 30; 40] [1; 2; 3; 4])) /\
  doing ds 16 (Copying 10 16) /\ look ds 16 ix_writer_widget 16 (Bar (bytes_of "Writer: copying locations (10/16) 62.5%") (fraction 10 16)) /\ doing ds 20 Finalizing.
Proof.
  cbv zeta. split; [|split; [|split; [|split]]].
  - repeat (apply Forall_cons; [|]); [intros X; discriminate X|intros _ ranges locations B; injection B as <- <-; reflexivity|apply Forall_nil].
  - intros k. reflexivity.
  - intros k. split; [reflexivity|discriminate].
  - replace (dense_ids _) with [2; 3; 5; 9] by (vm_compute; reflexivity). split; [split; discriminate|]. repeat (apply Forall_cons; [discriminate|]). apply Forall_nil.
  - rewrite ex_batch_deeds. split; [apply doing_nth; reflexivity|]. split; [|apply doing_nth; reflexivity].
    replace (Bar (bytes_of "Writer: copying locations (10/16) 62.5%") (fraction 10 16)) with (copy_line 10 16) by (unfold copy_line; f_equal; vm_compute; reflexivity).
    do 3 at_load 16%nat 16%nat. apply look_show.
Qed.
