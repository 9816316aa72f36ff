(** * PbProofs: lemmas about the model of internal/pb. *)
From Verif Require Import Base BaseLemmas PbModel PbSpec.

(** ** Varint decoding *)

Inductive scan_res : Type := Got (bs : list Z) | Trunc | Over.

Fixpoint scan (n : nat) (l : list Z) : scan_res :=
  match l with
  | [] => Trunc
  | y :: r =>
      match n with
      | O => if y <? 2 then Got [y] else Over
      | S n' =>
          if y <? 128 then Got [y]
          else match scan n' r with
               | Got bs => Got (y :: bs)
               | Trunc => Trunc
               | Over => Over
               end
      end
  end.

Lemma scan_S n y r :
  scan (S n) (y :: r) =
  if y <? 128 then Got [y]
  else match scan n r with Got bs => Got (y :: bs) | Trunc => Trunc | Over => Over end.
Proof. reflexivity. Qed.

Fixpoint dv (n : nat) (j v : Z) (b : slice) (s : Z) : res (Z * Z) :=
  y <- sidx b (s64 (s + j)) ;;
  let v := u64 (v + u64 (Z.shiftl y (7 * j))) in
  match n with
  | O => if y <? 2 then Ok (v, s64 (s + (j + 1))) else Panic (PanicMsg "overflow")
  | S n' => if y <? 0x80 then Ok (v, s64 (s + (j + 1)))
            else dv n' (j + 1) (u64 (v - Z.shiftl 0x80 (7 * j))) b s
  end.

Lemma DecodeVarInt_dv b s :
  DecodeVarInt b s =
  (v <- sidx b s ;;
   if v <? 0x80 then Ok (v, s64 (s + 1)) else dv 8 1 (u64 (v - 0x80)) b s).
Proof. reflexivity. Qed.

Lemma bytes_skipn n l : bytes l -> bytes (skipn n l).
Proof.
  unfold bytes. revert l; induction n; intros l H; simpl; [assumption|].
  destruct l; [constructor|]. inversion H; auto.
Qed.
Lemma bytes_app l1 l2 : bytes (l1 ++ l2) <-> bytes l1 /\ bytes l2.
Proof. apply Forall_app. Qed.
Lemma bytes_cons x l : bytes (x :: l) <-> is_u8 x /\ bytes l.
Proof. split; [intros H; inversion H; auto|intros []; constructor; auto]. Qed.
Lemma bytes_nil : bytes [].
Proof. constructor. Qed.
#[global] Hint Resolve bytes_nil : core.

Lemma skipn_cons_nth {A} n (l : list A) x r :
  skipn n l = x :: r -> nth_error l n = Some x /\ skipn (S n) l = r.
Proof.
  revert l; induction n; intros l H.
  - destruct l; simpl in *; [discriminate|]. injection H as -> ->. auto.
  - destruct l; [discriminate|]. simpl in H. apply IHn in H as [H1 H2].
    split; [exact H1|]. destruct l; [destruct n; discriminate|exact H2].
Qed.

Lemma sidx_skipn b i x r :
  0 <= i -> skipn (Z.to_nat i) (vis b) = x :: r ->
  sidx b i = Ok x /\ skipn (Z.to_nat (i + 1)) (vis b) = r /\ i < slen b.
Proof.
  intros Hi H. apply skipn_cons_nth in H as [H1 H2].
  assert (Z.to_nat i < List.length (vis b))%nat by (apply nth_error_Some; congruence).
  split; [|split].
  - unfold sidx, slen. destruct (0 <=? i) eqn:E1; [|lia].
    destruct (i <? _) eqn:E2; [|lia]. simpl. f_equal. apply nth_error_nth; assumption.
  - replace (Z.to_nat (i + 1)) with (S (Z.to_nat i)) by lia. assumption.
  - unfold slen; lia.
Qed.

Lemma sidx_skipn_nil b i :
  skipn (Z.to_nat i) (vis b) = [] -> sidx b i = Panic IndexOutOfRange.
Proof.
  intros H. apply sidx_oob. intros [H1 H2].
  assert (List.length (skipn (Z.to_nat i) (vis b)) = 0)%nat by (rewrite H; reflexivity).
  rewrite skipn_length in H0. unfold slen in H2. lia.
Qed.

Lemma pow2_pos k : 0 <= k -> 0 < 2 ^ k.
Proof. intros; apply Z.pow_pos_nonneg; lia. Qed.

Lemma leb_value_nonneg bs : 0 <= leb_value bs.
Proof.
  induction bs as [|b r IH]; simpl; [lia|].
  pose proof (Z.mod_pos_bound b 128). lia.
Qed.

Definition wrap_scan (s0 v0 w : Z) (r : scan_res) : res (Z * Z) :=
  match r with
  | Got bs => Ok (v0 + leb_value bs * w, s0 + zlen bs)
  | Trunc => Panic IndexOutOfRange
  | Over => Panic (PanicMsg "overflow")
  end.

Lemma dv_scan n j v b s :
  bytes (vis b) -> slen b < 2^63 -> 0 <= s -> s + j <= slen b ->
  j + Z.of_nat n = 9 -> 1 <= j -> 0 <= v < 2 ^ (7 * j) ->
  dv n j v b s = wrap_scan (s + j) v (2 ^ (7 * j)) (scan n (skipn (Z.to_nat (s + j)) (vis b))).
Proof.
  intros Hb Hlen Hs. revert j v.
  induction n as [|n IH]; intros j v Hsj Hj Hj1 Hv;
    cbn [dv]; rewrite (s64_id (s + j)) by (unfold is_s64; lia);
    pose proof (pow2_pos (7 * j) ltac:(lia)) as Hp;
    destruct (skipn (Z.to_nat (s + j)) (vis b)) as [|y r] eqn:Esk;
    cbn [scan].
  1,3: rewrite (sidx_skipn_nil _ _ Esk); reflexivity.
  - destruct (sidx_skipn b (s + j) y r ltac:(lia) Esk) as (Hi & Hr & Hlt).
    rewrite Hi. cbn [bind].
    assert (Hy : is_u8 y).
    { assert (bytes (y :: r)) by (rewrite <- Esk; apply bytes_skipn; assumption).
      inversion H; assumption. }
    destruct (Z.ltb_spec y 2); [|reflexivity].
    cbn [wrap_scan leb_value]. rewrite zlen_cons, (@zlen_nil Z).
    rewrite (s64_id (s + (j + 1))) by (unfold is_s64; lia).
    rewrite Z.shiftl_mul_pow2 by lia. unfold is_u8 in Hy.
    assert (j = 9) by lia. subst j. change (2 ^ (7 * 9)) with (2^63) in *.
    rewrite (Z.mod_small y 128) by lia.
    rewrite (u64_id (y * 2^63)) by (unfold is_u64; lia).
    rewrite u64_id by (unfold is_u64; lia). f_equal. f_equal; lia.
  - destruct (sidx_skipn b (s + j) y r ltac:(lia) Esk) as (Hi & Hr & Hlt).
    rewrite Hi. cbn [bind].
    assert (Hy : is_u8 y).
    { assert (bytes (y :: r)) by (rewrite <- Esk; apply bytes_skipn; assumption).
      inversion H; assumption. }
    unfold is_u8 in Hy.
    assert (Hpj : 2 ^ (7 * (j + 1)) = 128 * 2 ^ (7 * j)).
    { replace (7 * (j + 1)) with (7 + 7 * j) by lia. rewrite Z.pow_add_r by lia. reflexivity. }
    assert (Hp56 : 2 ^ (7 * j) <= 2 ^ 56) by (apply Z.pow_le_mono_r; lia).
    rewrite !Z.shiftl_mul_pow2 by lia.
    rewrite (u64_id (y * 2 ^ (7*j))) by (unfold is_u64; nia).
    rewrite (u64_id (v + y * 2 ^ (7*j))) by (unfold is_u64; nia).
    destruct (Z.ltb_spec y 128).
    + cbn [wrap_scan leb_value]. rewrite zlen_cons, (@zlen_nil Z).
      rewrite (s64_id (s + (j + 1))) by (unfold is_s64; lia).
      rewrite (Z.mod_small y 128) by lia. f_equal. f_equal; lia.
    + rewrite u64_id by (unfold is_u64; nia).
      rewrite IH; [|lia|lia|lia|nia].
      replace (s + (j + 1)) with (s + j + 1) by lia. rewrite Hr.
      destruct (scan n r) as [bs| |]; cbn [wrap_scan]; try reflexivity.
      cbn [leb_value]. rewrite zlen_cons.
      assert (y mod 128 = y - 128)
        by (replace y with (y - 128 + 1 * 128) at 1 by lia; rewrite Z.mod_add by lia;
            apply Z.mod_small; lia).
      rewrite Hpj. f_equal. f_equal; nia.
Qed.

(** The complete behaviour of the decoder. *)
Lemma DecodeVarInt_scan b s :
  bytes (vis b) -> slen b < 2^63 -> 0 <= s ->
  DecodeVarInt b s = wrap_scan s 0 1 (scan 9 (skipn (Z.to_nat s) (vis b))).
Proof.
  intros Hb Hlen Hs. rewrite DecodeVarInt_dv.
  destruct (skipn (Z.to_nat s) (vis b)) as [|y r] eqn:Esk; [|rewrite scan_S].
  { rewrite (sidx_skipn_nil _ _ Esk). reflexivity. }
  destruct (sidx_skipn b s y r Hs Esk) as (Hi & Hr & Hlt).
  rewrite Hi. cbn [bind].
  assert (Hy : is_u8 y).
  { assert (bytes (y :: r)) by (rewrite <- Esk; apply bytes_skipn; assumption).
    inversion H; assumption. }
  unfold is_u8 in Hy. destruct (Z.ltb_spec y 128).
  - cbn [wrap_scan leb_value]. rewrite zlen_cons, (@zlen_nil Z).
    rewrite s64_id by (unfold is_s64; lia). rewrite (Z.mod_small y 128) by lia.
    f_equal. f_equal; lia.
  - rewrite u64_id by (unfold is_u64; lia).
    rewrite dv_scan; [|assumption|assumption|lia|lia|lia|lia|lia].
    rewrite Hr. change (2 ^ (7 * 1)) with 128.
    destruct (scan 8 r) as [bs| |]; cbn [wrap_scan]; try reflexivity.
    cbn [leb_value]. rewrite zlen_cons.
    assert (y mod 128 = y - 128)
      by (replace y with (y - 128 + 1 * 128) at 1 by lia; rewrite Z.mod_add by lia;
          apply Z.mod_small; lia).
    f_equal. f_equal; lia.
Qed.

Lemma DecodeVarInt_neg b s : s < 0 -> DecodeVarInt b s = Panic IndexOutOfRange.
Proof. intros H. rewrite DecodeVarInt_dv, sidx_oob by (unfold slen; lia). reflexivity. Qed.

(** *** Facts about [scan] *)
Lemma scan_got n l bs :
  bytes l -> scan n l = Got bs ->
  exists post, l = bs ++ post /\ is_varint bs /\ (1 <= List.length bs <= S n)%nat /\
               (List.length bs = S n -> last bs 0 < 2).
Proof.
  revert l bs. induction n as [|n IH]; intros l bs Hb H; destruct l as [|y r];
    cbn [scan] in H; try discriminate; inversion Hb as [|? ? Hy Hr]; subst;
    unfold is_u8 in Hy.
  - destruct (Z.ltb_spec y 2); [|discriminate]. injection H as <-.
    exists r. simpl. repeat split; try lia.
  - destruct (Z.ltb_spec y 128).
    + injection H as <-. exists r. simpl. repeat split; try lia.
    + destruct (scan n r) as [bs'| |] eqn:E; try discriminate. injection H as <-.
      destruct (IH r bs' Hr E) as (post & -> & Hv & Hl & Hlast).
      exists post. split; [reflexivity|]. split.
      { destruct bs'; [simpl in Hv; contradiction|]. simpl in *. split; [lia|assumption]. }
      split; [simpl; lia|]. intros Hlen. simpl in Hlen.
      destruct bs'; [simpl in Hl; lia|]. simpl. apply Hlast. simpl in *; lia.
Qed.

Lemma scan_app n bs post :
  is_varint bs -> (List.length bs <= S n)%nat ->
  (List.length bs = S n -> last bs 0 < 2) -> scan n (bs ++ post) = Got bs.
Proof.
  revert n. induction bs as [|b r IH]; intros n Hv Hl Hlast; [contradiction|].
  destruct r as [|b2 r].
  - simpl in Hv. destruct n; simpl in *.
    + destruct (Z.ltb_spec b 2); [reflexivity|]. specialize (Hlast eq_refl). lia.
    + destruct (Z.ltb_spec b 128); [reflexivity|lia].
  - destruct Hv as [Hb Hv]. destruct n as [|n]; [simpl in Hl; lia|].
    cbn [scan app]. destruct (Z.ltb_spec b 128); [lia|].
    change (b2 :: r ++ post) with ((b2 :: r) ++ post).
    rewrite IH; [reflexivity|assumption|simpl in *; lia|].
    intros Hle. simpl in Hlast, Hle. simpl. apply Hlast. lia.
Qed.

Lemma scan_trunc n l :
  bytes l -> scan n l = Trunc <-> (List.length l <= n)%nat /\ Forall (fun y => 128 <= y) l.
Proof.
  revert l. induction n as [|n IH]; intros l Hb; destruct l as [|y r]; cbn [scan].
  - split; intros; [split; [simpl; lia|constructor]|reflexivity].
  - split; [destruct (y <? 2); discriminate|]. intros [H _]; simpl in H; lia.
  - split; intros; [split; [simpl; lia|constructor]|reflexivity].
  - inversion Hb as [|? ? Hy Hr]; subst. destruct (Z.ltb_spec y 128).
    + split; [discriminate|]. intros [_ H']. inversion H'; lia.
    + specialize (IH r Hr). destruct (scan n r) eqn:E.
      * split; [discriminate|]. intros [H1 H2]. inversion H2; subst.
        assert (Got bs = Trunc) by (apply IH; split; [simpl in *; lia|assumption]).
        discriminate.
      * split; [|reflexivity]. intros _. destruct IH as [IH _].
        specialize (IH eq_refl) as [H1 H2]. split; [simpl; lia|constructor; [lia|assumption]].
      * split; [discriminate|]. intros [H1 H2]. inversion H2; subst.
        assert (Over = Trunc) by (apply IH; split; [simpl in *; lia|assumption]).
        discriminate.
Qed.

Lemma scan_over n l :
  bytes l -> scan n l = Over <->
  exists cs y post, l = cs ++ y :: post /\ List.length cs = n /\
                    Forall (fun y => 128 <= y) cs /\ 2 <= y.
Proof.
  revert l. induction n as [|n IH]; intros l Hb; destruct l as [|y r]; cbn [scan].
  - split; [discriminate|]. intros (cs & y & post & H & _). destruct cs; discriminate.
  - destruct (Z.ltb_spec y 2); split; try discriminate; intros H0.
    + destruct H0 as (cs & y' & post & H1 & H2 & _ & H4).
      destruct cs; [|discriminate]. injection H1 as -> ->. lia.
    + exists [], y, r. repeat split; [constructor|lia].
    + reflexivity.
  - split; [discriminate|]. intros (cs & y & post & H & _). destruct cs; discriminate.
  - inversion Hb as [|? ? Hy Hr]; subst. destruct (Z.ltb_spec y 128).
    + split; [discriminate|]. intros (cs & y' & post & H1 & H2 & H3 & _).
      destruct cs; [discriminate|]. injection H1 as -> _. inversion H3; lia.
    + assert (Hsh : (exists cs y' post, y :: r = cs ++ y' :: post /\ List.length cs = S n /\
                    Forall (fun y => 128 <= y) cs /\ 2 <= y') <-> scan n r = Over).
      { rewrite IH by assumption. split.
        - intros (cs & y' & post & H1 & H2 & H3 & H4). destruct cs; [discriminate|].
          injection H1 as -> H1. inversion H3; subst. exists cs, y', post. auto.
        - intros (cs & y' & post & H1 & H2 & H3 & H4). exists (y :: cs), y', post.
          subst. repeat split; simpl; auto. }
      rewrite Hsh. destruct (scan n r); split; intros; congruence.
Qed.

Lemma is_varint_bytes bs : is_varint bs -> bytes bs.
Proof.
  induction bs as [|b r IH]; [contradiction|]. destruct r as [|b2 r].
  - simpl. intros. constructor; [unfold is_u8; lia|constructor].
  - intros [H1 H2]. constructor; [unfold is_u8; lia|apply IH; assumption].
Qed.

Lemma leb_value_lt bs : leb_value bs < 2 ^ (7 * zlen bs).
Proof.
  induction bs as [|b r IH]; [simpl; rewrite (@zlen_nil Z); lia|].
  cbn [leb_value]. rewrite zlen_cons. pose proof (zlen_nonneg r).
  replace (7 * (1 + zlen r)) with (7 + 7 * zlen r) by lia.
  rewrite Z.pow_add_r by lia. pose proof (Z.mod_pos_bound b 128). lia.
Qed.

(** Last-byte bound: a value below 2^64 in ten bytes ends in 0 or 1. *)
Lemma leb_value_last bs :
  is_varint bs -> last bs 0 * 2 ^ (7 * (zlen bs - 1)) <= leb_value bs.
Proof.
  induction bs as [|b r IH]; [contradiction|]. destruct r as [|b2 r].
  - simpl. intros H. rewrite zlen_cons, (@zlen_nil Z). change (2 ^ _) with 1.
    rewrite Z.mod_small by lia. lia.
  - intros [H1 H2]. specialize (IH H2).
    change (last (b :: b2 :: r) 0) with (last (b2 :: r) 0).
    change (leb_value (b :: b2 :: r)) with (b mod 128 + 128 * leb_value (b2 :: r)).
    rewrite (zlen_cons b). pose proof (Z.mod_pos_bound b 128).
    rewrite (zlen_cons b2) in *. pose proof (zlen_nonneg r).
    replace (7 * (1 + (1 + zlen r) - 1)) with (7 + 7 * (1 + zlen r - 1)) by lia.
    rewrite Z.pow_add_r by lia. nia.
Qed.

Lemma scan_varint bs post :
  is_varint bs -> leb_value bs < 2^64 -> (List.length bs <= 10)%nat ->
  scan 9 (bs ++ post) = Got bs.
Proof.
  intros Hv Hlt Hlen. apply scan_app; [assumption|assumption|].
  intros H10. pose proof (leb_value_last bs Hv) as H.
  unfold zlen in H. rewrite H10 in H. change (2 ^ _) with (2^63) in H. lia.
Qed.

(** Decoding a well-formed varint anywhere in a buffer. *)
Lemma decode_at b pre bs post :
  vis b = pre ++ bs ++ post -> bytes (pre ++ bs ++ post) -> slen b < 2^63 ->
  is_varint bs -> (List.length bs <= 10)%nat -> leb_value bs < 2^64 ->
  DecodeVarInt b (zlen pre) = Ok (leb_value bs, zlen pre + zlen bs).
Proof.
  intros Hv Hb Hlen Hvi H10 Hlt.
  rewrite DecodeVarInt_scan; [|rewrite Hv; assumption|assumption|apply zlen_nonneg].
  replace (Z.to_nat (zlen pre)) with (List.length pre) by (unfold zlen; lia).
  rewrite Hv, skipn_app, skipn_all, Nat.sub_diag.
  cbn [app skipn]. rewrite scan_varint by assumption. cbn [wrap_scan]. f_equal. f_equal; lia.
Qed.

(** ** Varint encoding *)
Fixpoint leb_enc (n : nat) (v : Z) : list Z :=
  match n with
  | O => [v]
  | S n' => if v <? 128 then [v] else (v mod 128 + 128) :: leb_enc n' (v / 128)
  end.

Definition venc (v : Z) : list Z := EncodeVarInt [] v.

Lemma EncodeVarInt_app b v : EncodeVarInt b v = b ++ venc v.
Proof.
  unfold venc, EncodeVarInt.
  repeat match goal with |- context [if ?c then _ else _] => destruct c end; reflexivity.
Qed.

Lemma bits_small x n i : 0 <= n -> 0 <= x < 2 ^ n -> n <= i -> Z.testbit x i = false.
Proof.
  intros Hn Hx Hi. destruct (Z.eq_dec x 0) as [->|H0]; [apply Z.bits_0|].
  apply Z.bits_above_log2; [lia|].
  apply Z.lt_le_trans with n; [apply Z.log2_lt_pow2; lia|lia].
Qed.

(** or-ing disjoint bit fields is addition *)
Lemma lor_low_add x y n :
  0 <= n -> 0 <= x < 2 ^ n -> Z.lor x (y * 2 ^ n) = x + y * 2 ^ n.
Proof.
  intros Hn Hx.
  assert (Hl : Z.land x (y * 2 ^ n) = 0).
  { apply Z.bits_inj'; intros i Hi. rewrite Z.land_spec, Z.bits_0.
    rewrite <- Z.shiftl_mul_pow2 by lia.
    destruct (Z.ltb_spec i n).
    - rewrite Z.shiftl_spec_low by lia. apply andb_false_r.
    - rewrite (bits_small x n i) by lia. reflexivity. }
  rewrite Z.add_nocarry_lxor by assumption. symmetry. apply Z.lxor_lor. assumption.
Qed.

Lemma cont_spec v k : 0 <= v -> 0 <= k -> cont v k = (v / 2 ^ k) mod 128 + 128.
Proof.
  intros Hv Hk. unfold cont. rewrite Z.shiftr_div_pow2 by lia.
  change 0x7f with (Z.ones 7). rewrite Z.land_ones by lia. change (2 ^ 7) with 128.
  set (x := (v / 2 ^ k) mod 128). assert (Hx : 0 <= x < 128) by (apply Z.mod_pos_bound; lia).
  assert (Hlor : Z.lor x 128 = x + 128).
  { clearbody x. apply (lor_low_add x 1 7); lia. }
  rewrite Hlor. apply u8_id. unfold is_u8; lia.
Qed.

Lemma fin_spec v k : 0 <= v -> 0 <= k -> v < 2 ^ (k + 8) -> fin v k = v / 2 ^ k.
Proof.
  intros Hv Hk H. unfold fin. rewrite Z.shiftr_div_pow2 by lia. apply u8_id.
  unfold is_u8. split; [apply Z.div_pos; [lia|apply pow2_pos; lia]|].
  apply Z.div_lt_upper_bound; [apply pow2_pos; lia|].
  rewrite <- Z.pow_add_r by lia. assumption.
Qed.

Lemma div128 v k : 0 <= k -> v / 2 ^ k / 128 = v / 2 ^ (k + 7).
Proof.
  intros Hk. rewrite Z.div_div; [|apply Z.pow_nonzero; lia|lia].
  rewrite Z.pow_add_r by lia. reflexivity.
Qed.

Lemma div_ltb128 v k : 0 <= k -> (v / 2 ^ k <? 128) = (v <? Z.shiftl 1 (k + 7)).
Proof.
  intros Hk. rewrite Z.shiftl_1_l.
  destruct (Z.ltb_spec v (2 ^ (k + 7))) as [H|H]; apply Z.ltb_lt || apply Z.ltb_ge.
  - apply Z.div_lt_upper_bound; [apply pow2_pos; lia|].
    rewrite Z.pow_add_r in H by lia. exact H.
  - apply Z.div_le_lower_bound; [apply pow2_pos; lia|].
    rewrite Z.pow_add_r in H by lia. exact H.
Qed.

Lemma leb_step n v k : 0 <= k ->
  leb_enc (S n) (v / 2 ^ k) =
  if v <? Z.shiftl 1 (k + 7) then [v / 2 ^ k]
  else ((v / 2 ^ k) mod 128 + 128) :: leb_enc n (v / 2 ^ (k + 7)).
Proof. intros Hk. cbn [leb_enc]. rewrite div_ltb128, div128 by lia. reflexivity. Qed.

Lemma venc_leb v : is_u64 v -> venc v = leb_enc 9 v.
Proof.
  unfold is_u64. intros Hv. unfold venc, EncodeVarInt.
  rewrite !cont_spec by lia.
  replace (leb_enc 9 v) with (leb_enc 9 (v / 2 ^ 0)) by (f_equal; apply Z.div_1_r).
  rewrite leb_step by lia. change (0 + 7) with 7.
  destruct (Z.ltb_spec v (Z.shiftl 1 7)) as [H|_].
  { simpl. rewrite Z.div_1_r. f_equal. apply u8_id. unfold is_u8.
    change (Z.shiftl 1 7) with 128 in H. lia. }
  assert (Hf : forall k, 0 <= k -> v < Z.shiftl 1 (k + 7) -> fin v k = v / 2 ^ k).
  { intros k Hk H. apply fin_spec; [lia|lia|]. rewrite Z.shiftl_1_l in H.
    apply Z.lt_le_trans with (1 := H). apply Z.pow_le_mono_r; lia. }
  rewrite leb_step by lia. change (7 + 7) with 14.
  destruct (Z.ltb_spec v (Z.shiftl 1 14)) as [H|_].
  { rewrite Hf by (exact H || lia). reflexivity. }
  rewrite leb_step by lia. change (14 + 7) with 21.
  destruct (Z.ltb_spec v (Z.shiftl 1 21)) as [H|_].
  { rewrite Hf by (exact H || lia). reflexivity. }
  rewrite leb_step by lia. change (21 + 7) with 28.
  destruct (Z.ltb_spec v (Z.shiftl 1 28)) as [H|_].
  { rewrite Hf by (exact H || lia). reflexivity. }
  rewrite leb_step by lia. change (28 + 7) with 35.
  destruct (Z.ltb_spec v (Z.shiftl 1 35)) as [H|_].
  { rewrite Hf by (exact H || lia). reflexivity. }
  rewrite leb_step by lia. change (35 + 7) with 42.
  destruct (Z.ltb_spec v (Z.shiftl 1 42)) as [H|_].
  { rewrite Hf by (exact H || lia). reflexivity. }
  rewrite leb_step by lia. change (42 + 7) with 49.
  destruct (Z.ltb_spec v (Z.shiftl 1 49)) as [H|_].
  { rewrite Hf by (exact H || lia). reflexivity. }
  rewrite leb_step by lia. change (49 + 7) with 56.
  destruct (Z.ltb_spec v (Z.shiftl 1 56)) as [H|_].
  { rewrite Hf by (exact H || lia). reflexivity. }
  rewrite leb_step by lia. change (56 + 7) with 63.
  destruct (Z.ltb_spec v (Z.shiftl 1 63)) as [H|H63].
  { rewrite Hf by (exact H || lia). reflexivity. }
  cbn [leb_enc app]. repeat f_equal.
  change (Z.shiftl 1 63) with (2^63) in H63.
  apply (Z.div_unique v (2^63) 1 (v - 2^63)); lia.
Qed.

Lemma leb_enc_value n v : 0 <= v -> (v < 128 ^ Z.of_nat (S n)) -> leb_value (leb_enc n v) = v.
Proof.
  revert v. induction n as [|n IH]; intros v Hv Hlt; cbn [leb_enc].
  - cbn [leb_value]. change (128 ^ Z.of_nat 1) with 128 in Hlt.
    rewrite Z.mod_small by lia. lia.
  - destruct (Z.ltb_spec v 128).
    + cbn [leb_value]. rewrite Z.mod_small by lia. lia.
    + cbn [leb_value]. rewrite IH.
      * replace (v mod 128 + 128) with (v mod 128 + 1 * 128) by lia.
        rewrite Z.mod_add by lia. rewrite Z.mod_mod by lia.
        pose proof (Z.div_mod v 128). lia.
      * apply Z.div_pos; lia.
      * apply Z.div_lt_upper_bound; [lia|].
        replace (Z.of_nat (S (S n))) with (1 + Z.of_nat (S n)) in Hlt by lia.
        rewrite Z.pow_add_r in Hlt by lia. exact Hlt.
Qed.

Lemma leb_enc_varint n v : 0 <= v -> (v < 128 ^ Z.of_nat (S n)) -> is_varint (leb_enc n v).
Proof.
  revert v. induction n as [|n IH]; intros v Hv Hlt; cbn [leb_enc].
  - cbn [is_varint]. change (128 ^ Z.of_nat 1) with 128 in Hlt. lia.
  - destruct (Z.ltb_spec v 128).
    + cbn [is_varint]. lia.
    + assert (Hi : is_varint (leb_enc n (v / 128))).
      { apply IH.
        - apply Z.div_pos; lia.
        - apply Z.div_lt_upper_bound; [lia|].
          replace (Z.of_nat (S (S n))) with (1 + Z.of_nat (S n)) in Hlt by lia.
          rewrite Z.pow_add_r in Hlt by lia. exact Hlt. }
      pose proof (Z.mod_pos_bound v 128).
      destruct (leb_enc n (v / 128)); [contradiction|]. cbn [is_varint].
      split; [lia|exact Hi].
Qed.

Lemma leb_enc_length n v : (1 <= List.length (leb_enc n v) <= S n)%nat.
Proof.
  revert v; induction n; intros v; cbn [leb_enc]; [simpl; lia|].
  destruct (v <? 128); simpl; [lia|]. specialize (IHn (v / 128)). lia.
Qed.

(** Any varint with the same value is at least as long. *)
Lemma leb_enc_minimal n v bs :
  0 <= v -> is_varint bs -> leb_value bs = v -> (List.length (leb_enc n v) <= List.length bs)%nat.
Proof.
  revert v bs. induction n as [|n IH]; intros v bs Hv Hvi He; cbn [leb_enc].
  - destruct bs; [contradiction|simpl; lia].
  - destruct (Z.ltb_spec v 128).
    + destruct bs; [contradiction|simpl; lia].
    + destruct bs as [|b r]; [contradiction|]. destruct r as [|b2 r].
      * cbn [leb_value] in He. pose proof (Z.mod_pos_bound b 128). lia.
      * destruct Hvi as [_ Hvi]. cbn [List.length]. apply le_n_S.
        change (S (List.length r)) with (List.length (b2 :: r)).
        apply IH; [apply Z.div_pos; lia|exact Hvi|].
        cbn [leb_value] in He |- *. pose proof (Z.mod_pos_bound b 128).
        apply (Z.div_unique v 128 _ (b mod 128)); lia.
Qed.

Lemma u64_lt_pow v : is_u64 v -> v < 128 ^ Z.of_nat 10.
Proof. unfold is_u64. intros. change (128 ^ Z.of_nat 10) with (2^70). lia. Qed.

Lemma venc_value v : is_u64 v -> leb_value (venc v) = v.
Proof.
  intros H. rewrite venc_leb by assumption. apply leb_enc_value;
    [unfold is_u64 in H; lia|apply u64_lt_pow; assumption].
Qed.
Lemma venc_varint v : is_u64 v -> is_varint (venc v).
Proof.
  intros H. rewrite venc_leb by assumption. apply leb_enc_varint;
    [unfold is_u64 in H; lia|apply u64_lt_pow; assumption].
Qed.
Lemma venc_length v : is_u64 v -> (1 <= List.length (venc v) <= 10)%nat.
Proof. intros H. rewrite venc_leb by assumption. apply leb_enc_length. Qed.
Lemma venc_zlen v : is_u64 v -> 1 <= zlen (venc v) <= 10.
Proof. intros H. pose proof (venc_length v H). unfold zlen; lia. Qed.
Lemma venc_bytes v : is_u64 v -> bytes (venc v).
Proof. intros; apply is_varint_bytes, venc_varint; assumption. Qed.
Lemma venc_minimal v bs :
  is_u64 v -> is_varint bs -> leb_value bs = v -> (List.length (venc v) <= List.length bs)%nat.
Proof.
  intros H ? ?. rewrite venc_leb by assumption. apply leb_enc_minimal; try assumption.
  unfold is_u64 in H; lia.
Qed.

(** Main cursor lemma. *)
Lemma decode_venc b pre v post :
  vis b = pre ++ venc v ++ post -> bytes pre -> bytes post -> slen b < 2^63 -> is_u64 v ->
  DecodeVarInt b (zlen pre) = Ok (v, zlen pre + zlen (venc v)).
Proof.
  intros Hv Hb1 Hb2 Hl Hu.
  rewrite (decode_at b pre (venc v) post); try assumption.
  - rewrite venc_value by assumption. reflexivity.
  - rewrite !bytes_app. auto using venc_bytes.
  - apply venc_varint; assumption.
  - apply venc_length; assumption.
  - rewrite venc_value by assumption. unfold is_u64 in Hu; lia.
Qed.
