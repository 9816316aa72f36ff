(** * XsThms: C85 for every number of passes of the rewriter. *)
From Verif Require Import NiThms Base PbSpec TModel HLModel FrModel FrSpec ZlModel ZlSpec TfSpec MtModel IoModel IoSpec NiModel NiSpec RwModel RwSpec WiModel WiSpec RiModel RiSpec WsSpec PlThms EeSpec NiSpec EeThms.
From Verif Require Import BaseLemmas PbModel PbProofs PbProofs2 TSpec TProofs TMsg TMsg2 TThms TTyped HLProofs FrProofs FrThms ZlThms TfThms NiProofs NiProofs2 NiProofs4 NiThms RwThms WiThms RiThms WsProofs WsRead WsWrite WsThms EeProofs EeFin IoThms MtThms NiProofs3 NiProofs4 XwThms XeThms.
From Verif Require Import NiSpec RwSpec TfSpec.

Definition ids (r : range) : list Z := map (fun i => r_first r + Z.of_nat i) (seq 0 (Z.to_nat (r_count r))).
Lemma ids_in r x : in_range r x -> In x (ids r).
Proof.
  intros (A & B). unfold ids. apply in_map_iff. exists (Z.to_nat (x - r_first r)). split; [lia|]. apply in_seq. lia.
Qed.
Lemma ids_len locs rs : Forall (range_ok locs) rs -> zlen (flat_map ids rs) = total rs.
Proof.
  induction 1 as [|r rs H _ IH]; [reflexivity|]. cbn [flat_map total]. rewrite zlen_app, IH. unfold ids, zlen. rewrite map_length, seq_length. destruct H as (_ & ? & _). lia.
Qed.
Lemma asc_head a l : ascending (a :: l) -> Forall (fun x => a < x) l /\ ascending l.
Proof.
  revert a. induction l as [|b l IH]; intros a H; [split; [constructor|exact I]|]. destruct H as (H1 & H2). destruct (IH b H2) as (F & _).
  split; [|exact H2]. constructor; [exact H1|]. revert F. apply Forall_impl. intros. lia.
Qed.
Lemma asc_nodup l : ascending l -> NoDup l.
Proof.
  induction l as [|a l IH]; intros H; [constructor|]. destruct (asc_head _ _ H) as (F & H'). constructor; [|apply IH; exact H'].
  intros X. pose proof (proj1 (Forall_forall _ _) F a X). cbn beta in *. lia.
Qed.
(** the ids below a bound come first *)
Lemma asc_split (b : Z) (ns : list input_node) : ascending (map in_id ns) ->
  exists k, (k <= List.length ns)%nat /\ Forall (fun n => in_id n < b) (firstn k ns) /\ Forall (fun n => b <= in_id n) (skipn k ns).
Proof.
  induction ns as [|n ns IH]; intros H; [exists 0%nat; repeat split; constructor|]. cbn [map] in H. destruct (asc_head _ _ H) as (F & H').
  destruct (Z.lt_ge_cases (in_id n) b) as [L|L].
  - destruct (IH H') as (k & K & A & B). exists (S k). cbn [List.length firstn skipn]. split; [lia|]. split; [constructor; assumption|exact B].
  - exists 0%nat. cbn [firstn skipn]. split; [lia|]. split; [constructor|]. constructor; [exact L|]. apply Forall_forall. intros m Hm.
    pose proof (proj1 (Forall_forall _ _) F (in_id m) (in_map in_id _ _ Hm)). cbn beta in *. lia.
Qed.
Lemma find_app {A} (f : A -> bool) l m : find f (l ++ m) = match find f l with Some x => Some x | None => find f m end.
Proof. induction l as [|a l IH]; [reflexivity|]. cbn [app find]. destruct (f a); [reflexivity|exact IH]. Qed.
Lemma located_none ns x : (forall n, In n ns -> in_id n <> x) -> located ns x = x.
Proof.
  intros H. unfold located. destruct (find _ ns) as [n|] eqn:E; [|reflexivity]. apply find_some in E as (Hn & E). exfalso. apply (H n Hn). lia.
Qed.
(** a node's location is not its id *)
Lemma located_ne ns x : (exists n, In n ns /\ in_id n = x) -> 0 <= x -> located ns x <> x.
Proof.
  intros (n & Hn & E) L. unfold located. destruct (find _ ns) as [m|] eqn:Ef.
  - destruct (loc_of_ok m) as (-> & N). lia.
  - exfalso. pose proof (find_none _ _ Ef n Hn) as X. cbn beta in X. lia.
Qed.

Lemma cut_nodes rs locs ns n : index_ok rs locs -> Forall (fun loc => loc <= 0) locs -> (forall x, new_ref rs locs x = located ns x) ->
  ascending (map in_id ns) -> Forall (fun n => 2 <= in_id n < 2^63) ns -> 1 <= n ->
  exists k, zlen ns - n < k <= zlen ns /\ 0 <= k /\
    forall x, new_ref (firstn (cut (zlen locs / n * n) 0 rs) rs) locs x = located (firstn (Z.to_nat k) ns) x.
Proof.
  intros (Hok & Ha & Ht & _) Hl Hf An In Hn. set (t := zlen locs / n * n). set (c := cut t 0 rs).
  assert (Rt : zlen locs - n < t <= zlen locs) by (unfold t; pose proof (Z.div_mod (zlen locs) n ltac:(lia)); pose proof (Z.mod_pos_bound (zlen locs) n ltac:(lia)); lia).
  (* every node is in a range *)
  assert (Cov : forall m, List.In m ns -> exists k r, nth_error rs k = Some r /\ in_range r (in_id m)).
  { intros m Hm. pose proof (proj1 (Forall_forall _ _) In m Hm) as Hr. cbn beta in Hr. destruct (linear_search_spec locs (in_id m) rs 0) as [(k & r & Hk & Ir & _)|(_ & Es)]; [eauto|].
    exfalso. apply (located_ne ns (in_id m)); [eauto|lia|]. rewrite <- Hf. unfold new_ref. rewrite Es. destruct (_ <? 0); reflexivity. }
  (* the first id beyond *)
  assert (Bd : exists b, (forall k r x, nth_error rs k = Some r -> in_range r x -> (k < c)%nat -> x < b) /\ (forall k r x, nth_error rs k = Some r -> in_range r x -> (c <= k)%nat -> b <= x)).
  { destruct (nth_error rs c) as [rc|] eqn:Ec.
    - exists (r_first rc). split; intros k r x Hk (I1 & I2) L.
      + pose proof (Ha k c r rc L Hk Ec). lia.
      + destruct (Nat.eq_dec k c) as [->|Nk]; [rewrite Ec in Hk; injection Hk as <-; lia|]. pose proof (Ha c k rc r ltac:(lia) Ec Hk).
        pose proof (proj1 (Forall_forall _ _) Hok rc (nth_error_In _ _ Ec)) as (_ & ? & _). lia.
    - apply nth_error_None in Ec. exists (2^64 + 1). split; intros k r x Hk (I1 & I2) L.
      + pose proof (proj1 (Forall_forall _ _) Hok r (nth_error_In _ _ Hk)) as (_ & _ & ? & _). lia.
      + assert (k < List.length rs)%nat by (apply nth_error_Some; rewrite Hk; discriminate). lia. }
  destruct Bd as (b & B1 & B2). destruct (asc_split b ns An) as (k & K & F1 & F2). exists (Z.of_nat k). rewrite Nat2Z.id.
  assert (Back : zlen (skipn k ns) <= total (skipn c rs)).
  { rewrite <- (ids_len locs) by (apply Forall_forall; intros y Hy; apply (proj1 (Forall_forall _ _) Hok); rewrite <- (firstn_skipn c rs); apply in_or_app; right; exact Hy).
    unfold zlen. rewrite <- (map_length in_id). apply inj_le. apply NoDup_incl_length.
    - apply asc_nodup. rewrite <- (firstn_skipn k ns), map_app in An. clear - An. induction (map in_id (firstn k ns)) as [|a l IH]; [exact An|]. apply IH. exact (proj2 (asc_head _ _ An)).
    - intros x Hx. apply in_map_iff in Hx as (m & <- & Hm). pose proof (proj1 (Forall_forall _ _) F2 m Hm) as Lm. cbn beta in Lm.
      destruct (Cov m) as (j & r & Hj & Ir); [rewrite <- (firstn_skipn k ns); apply in_or_app; right; exact Hm|].
      destruct (le_lt_dec c j) as [L|L]; [|pose proof (B1 j r _ Hj Ir L); lia].
      apply in_flat_map. exists r. split; [|apply ids_in; exact Ir]. rewrite <- (firstn_skipn c rs) in Hj.
      assert (Fl : List.length (firstn c rs) = c \/ (List.length rs < c)%nat) by (rewrite firstn_length; lia). destruct Fl as [Fl|Fl].
      + rewrite nth_error_app2 in Hj by (rewrite Fl; exact L). exact (nth_error_In _ _ Hj).
      + rewrite firstn_skipn in Hj. assert (j < List.length rs)%nat by (apply nth_error_Some; rewrite Hj; discriminate). lia. }
  assert (Tail : total (skipn c rs) <= zlen locs - t).
  { rewrite <- Ht. rewrite <- (firstn_skipn c rs) at 2. rewrite NiProofs2.total_app. assert (t <= total (firstn c rs)); [|lia].
    destruct (nth_error rs c) as [rc|] eqn:Ec.
    - assert (Lc : (c < List.length rs)%nat) by (apply nth_error_Some; rewrite Ec; discriminate). pose proof (cut_reached locs t rs 0 c Hok Lc) as R. fold c in R. lia.
    - apply nth_error_None in Ec. rewrite firstn_all2 by exact Ec. lia. }
  assert (Ln : zlen ns = Z.of_nat k + zlen (skipn k ns)) by (rewrite <- (firstn_skipn k ns) at 1; rewrite zlen_app; unfold zlen at 1; rewrite firstn_length; lia).
  split; [pose proof (zlen_nonneg (skipn k ns)); lia|]. split; [lia|].
  intros x. unfold c in *. destruct (linear_search_spec locs x (firstn (cut t 0 rs) rs) 0) as [(j & r & Hj & Ir & _)|(No & Es)].
  - assert (Jc : (j < List.length (firstn (cut t 0 rs) rs))%nat) by (apply nth_error_Some; rewrite Hj; discriminate). rewrite firstn_length in Jc.
    assert (Hj' : nth_error rs j = Some r) by (rewrite <- (firstn_skipn (cut t 0 rs) rs), nth_error_app1; [exact Hj|rewrite firstn_length; exact Jc]).
    pose proof (B1 j r x Hj' Ir ltac:(lia)) as Lx. rewrite (proj2 (part_same rs locs _ x Hok Ha Hl)) by (intros _; exists j, r; split; [lia|auto]). rewrite Hf.
    unfold located. rewrite <- (firstn_skipn k ns) at 1. rewrite find_app. destruct (find _ (firstn k ns)) as [m|]; [reflexivity|].
    destruct (find _ (skipn k ns)) as [m|] eqn:Ef; [|reflexivity]. apply find_some in Ef as (Hm & Em). pose proof (proj1 (Forall_forall _ _) F2 m Hm). cbn beta in *. lia.
  - transitivity x; [unfold new_ref; rewrite Es; destruct (x <? 0); reflexivity|]. symmetry. apply located_none. intros m Hm <-.
    pose proof (proj1 (Forall_forall _ _) F1 m Hm) as Lm. cbn beta in Lm. destruct (Cov m) as (j & r & Hj & Ir); [rewrite <- (firstn_skipn k ns); apply in_or_app; left; exact Hm|].
    destruct (le_lt_dec (cut t 0 rs) j) as [L|L]; [pose proof (B2 j r _ Hj Ir L); lia|]. apply (No r); [|exact Ir].
    rewrite <- (firstn_skipn (cut t 0 rs) rs) in Hj. rewrite nth_error_app1 in Hj; [exact (nth_error_In _ _ Hj)|]. rewrite firstn_length.
    assert (j < List.length rs)%nat; [|lia]. rewrite firstn_skipn in Hj. apply nth_error_Some. rewrite Hj. discriminate.
Qed.

(** C85, for every number of passes of the rewriter.  Index the nodes of an OSM file; rewrite it with that index in [n]
    passes; index the ways of the result; index the relations.  If the rewriter finishes, the relation index lists every
    relation with its ways and what is kept of the locations of their nodes, for the first [k] nodes of the file: all but
    fewer than [n], which are listed by their ids as if they were not in the file. *)
Lemma pC85_exact : forall o (envs : run -> Z -> zenv) file blocks a,
  all_well o -> (forall r i, env_ok (envs r i)) -> osm_file envs file blocks -> 0 <= a <= 61 ->
  let ns := file_nodes blocks in let ws := file_ways blocks in let rels := file_relations blocks in
  (forall p, In (Some p) blocks -> block_sane p /\ zlen (block_nodes p) < 2^23) ->
  ascending (map in_id ns) -> Forall (fun n => 2 <= in_id n < 2^63) ns -> 0 < zlen ns < 2^39 ->
  ascending_by fst ws -> Forall (fun w => 0 <= fst w < 2^31) ws -> ws <> [] -> size_bound a ws <= 2^(33 + a) -> size_bound a ws < 2^62 ->
  Forall relation_ok rels -> rels <> [] ->
  exists bs w1 idx, read_file file = Ok bs /\ ni_index o (with_env (envs IndexNodes) bs) = (w1, Ok tt) /\ NewNodeIndex (f_data (w_idx w1)) = Ok idx /\
  forall n file2, 1 <= n ->
    (forall k f, Z.of_nat k <= n -> after_passes (fun pass => envs (Rewrite pass)) idx n k file = Ok f -> zlen f < 2^63) ->
    after_passes (fun pass => envs (Rewrite pass)) idx n (Z.to_nat n) file = Ok file2 ->
  exists k bs2 w2, zlen ns - n < k <= zlen ns /\ 0 <= k /\ read_file file2 = Ok bs2 /\ wi_index o a (with_env (envs IndexWays) bs2) = (w2, Ok tt) /\
  forall rbs m wayIndex output fs, In (Ok rbs) [read_file file; read_file file2] ->
    1 <= m <= 2^a -> wayIndex <> makePassFilename output 0 m -> fs wayIndex = Some (f_data (w_idx w2)) ->
  exists fs', ri_main (with_env (envs IndexRelations) rbs) wayIndex output m fs = Ok fs' /\
    fs' output = Some (SliceAsByteSlice (listing (way_locs (map (located_way (firstn (Z.to_nat k) ns)) ws)) (map summary rels))).
Proof.
  intros o envs file blocks a Wo He F Ha ns ws rels Hs An In1 In2 Aw Iw Nw S1 S2 Rok Nrel.
  destruct (osm_read envs file blocks F) as (bs & Eb & Rb).
  destruct (index_chain o (with_env (envs IndexNodes) bs) (per_block block_nodes blocks) Wo) as (w1 & rs & locs & E1 & E2 & Hi & Nr & Hl & Hf).
  { apply read_nodes; [apply Rb|]. intros p Hp. apply Hs. exact Hp. }
  { rewrite per_block_concat. exact An. }
  { rewrite per_block_concat. exact In1. }
  { unfold per_block. apply Forall_forall. intros l Hin. apply in_map_iff in Hin. destruct Hin as (c & <- & Hc). destruct c as [p|]; [apply Hs; exact Hc|]. reflexivity. }
  { rewrite per_block_concat. exact In2. }
  rewrite per_block_concat in Hf. change (of_blocks block_nodes blocks) with ns in Hf.
  exists bs, w1, (index_of rs locs). split; [exact Eb|]. split; [exact E1|]. split; [exact E2|].
  intros n file2 Hn Sz E3. destruct (cut_nodes rs locs ns n Hi ltac:(revert Hl; apply Forall_impl; tauto) Hf An In1 Hn) as (kn & K1 & K2 & Hf').
  set (some := firstn (Z.to_nat kn) ns) in *. set (rs' := firstn (cut (zlen locs / n * n) 0 rs) rs) in *.
  pose proof (rewrite_any envs Rewrite file blocks rs locs n file2 F He Hi Hl Hn Sz E3 : osm_file envs file2 (with_refs (new_ref rs' locs) blocks)) as F2.
  destruct (osm_read envs file2 _ F2) as (bs2 & Eb2 & Rb2). exists kn, bs2.
  assert (Ew : concat (per_block block_ways (with_refs (new_ref rs' locs) blocks)) = map (located_way some) ws).
  { rewrite per_block_concat. change (of_blocks block_ways) with file_ways. rewrite file_ways_with. apply map_ext. intros w. unfold located_way. f_equal. apply map_ext. exact Hf'. }
  pose proof (read_ways _ _ (Rb2 IndexWays)) as FW. pose proof (osm_refs envs file2 _ F2) as S64. unfold file_ways in S64. rewrite <- per_block_concat, Ew in S64.
  assert (W1 : concat (per_block block_ways (with_refs (new_ref rs' locs) blocks)) <> []) by (rewrite Ew; destruct ws; [contradiction|discriminate]).
  assert (W2 : Forall (fun w => 0 <= fst w < 2^31 /\ Forall is_s64 (snd w)) (concat (per_block block_ways (with_refs (new_ref rs' locs) blocks)))).
  { rewrite Ew. apply Forall_forall. intros w Hw. split; [|exact (proj1 (Forall_forall _ _) S64 w Hw)]. apply in_map_iff in Hw. destruct Hw as (y & <- & Hy). exact (proj1 (Forall_forall _ _) Iw y Hy). }
  assert (W3 : ascending_by fst (concat (per_block block_ways (with_refs (new_ref rs' locs) blocks)))) by (rewrite Ew; apply ascending_with; exact Aw).
  assert (W4 : size_bound a (concat (per_block block_ways (with_refs (new_ref rs' locs) blocks))) = size_bound a ws) by (rewrite Ew; apply size_bound_with).
  assert (RF : forall rbs, In (Ok rbs) [read_file file; read_file file2] -> exists rss, Forall2 relations_block (with_env (envs IndexRelations) rbs) rss /\ concat rss = rels).
  { intros rbs [X|[X|[]]]; rewrite X in *.
    - injection Eb as ->. exists (per_block block_relations blocks). split; [apply read_relations, Rb|apply per_block_concat].
    - injection Eb2 as ->. exists (per_block block_relations (with_refs (new_ref rs' locs) blocks)). split; [apply read_relations, Rb2|]. rewrite per_block_concat. apply file_relations_with. }
  assert (Two : 1 <= 2^a) by (pose proof (Z.pow_pos_nonneg 2 a); lia).
  (* the way index is the same whatever comes after it *)
  destruct (RF bs) as (rss0 & FR0 & CR0); [left; exact Eb|].
  destruct (pC61_from_files o a (with_env (envs IndexWays) bs2) _ (with_env (envs IndexRelations) bs) rss0 (makePassFilename [] 0 1 ++ [0]) [] 1 Wo Ha FW W1 W2 W3 ltac:(rewrite W4; exact S1) ltac:(rewrite W4; exact S2) FR0) as (w2 & Ew2 & _).
  { rewrite CR0. exact Rok. } { rewrite CR0. exact Nrel. } { lia. } { intros X. apply (f_equal (@List.length Z)) in X. rewrite app_length in X. cbn [List.length] in X. lia. }
  exists w2. split; [exact K1|]. split; [exact K2|]. split; [exact Eb2|]. split; [exact Ew2|].
  intros rbs m wayIndex output fs Hr Hm Hne Hfs. destruct (RF rbs Hr) as (rss & FR & CR).
  destruct (pC61_from_files o a (with_env (envs IndexWays) bs2) _ (with_env (envs IndexRelations) rbs) rss wayIndex output m Wo Ha FW W1 W2 W3 ltac:(rewrite W4; exact S1) ltac:(rewrite W4; exact S2) FR) as (w2' & Ew2' & K).
  { rewrite CR. exact Rok. } { rewrite CR. exact Nrel. } { lia. } { exact Hne. }
  rewrite Ew2 in Ew2'. injection Ew2' as <-. destruct (K fs Hfs) as (fs' & Er & Eo & _). exists fs'. split; [exact Er|]. rewrite Eo, Ew, CR. reflexivity.
Qed.
(** C85_ex's file in four passes: the index has the ranges 2-5 and 9-10, six locations with the gap at 4.  Six / 4 * 4 = 4
    of them are looked up: nodes 9 and 10 are not. *)
Lemma pC85_exact_ex : exists bs w1 idx file2, read_file ex_osm = Ok bs /\ ni_index os_well (with_env (ex_envs IndexNodes) bs) = (w1, Ok tt) /\
  NewNodeIndex (f_data (w_idx w1)) = Ok idx /\ zlen (ni_locations idx) = 6 /\
  after_passes (fun pass => ex_envs (Rewrite pass)) idx 4 4 ex_osm = Ok file2 /\ zlen file2 < 2^63 /\
  after_passes (fun pass => ex_envs (Rewrite pass)) idx 1 1 ex_osm <> Ok file2.
Proof.
  do 4 eexists. split; [vm_compute; reflexivity|]. split; [vm_compute; reflexivity|]. split; [vm_compute; reflexivity|]. split; [vm_compute; reflexivity|].
  split; [vm_compute; reflexivity|]. split; [vm_compute; reflexivity|]. vm_compute. discriminate.
Qed.

(** C48, exactly: the index can be divided into [n] sub-indexes if and only if there are at least as many locations as
    passes and the last range begins at or after the start of the last pass. *)
Lemma pC48_divides_exact : forall rs l locs n, index_ok (rs ++ [l]) locs -> 1 <= n ->
  ((exists subs, passes (index_of (rs ++ [l]) locs) n = Ok subs) <-> n <= zlen locs /\ zlen locs / n * (n - 1) <= total rs).
Proof.
  intros rs l locs n Hi Hn. pose proof Hi as (Hok & _ & Ht & Hb). fold (slice_size locs n).
  assert (Hs : 0 <= slice_size locs n) by (apply (size_bounds locs n 0); lia).
  assert (Hr : 0 <= total rs) by (apply Forall_app in Hok; apply (NiProofs2.total_nonneg locs), Hok).
  assert (Cin : forall t, (cut t 0 (rs ++ [l]) < List.length (rs ++ [l]))%nat <-> t <= total rs) by (intros t; rewrite (cut_inside locs t l rs 0 Hok); lia).
  assert (Cpos : forall t, (0 < cut t 0 (rs ++ [l]))%nat <-> 0 < t).
  { intros t. destruct (rs ++ [l]) as [|r q] eqn:E; [destruct rs; discriminate|]. cbn [cut]. destruct (Z.leb_spec t 0); lia. }
  assert (Sp : 0 < slice_size locs n <-> n <= zlen locs).
  { unfold slice_size in *. split; intros H; [destruct (Z.lt_ge_cases (zlen locs) n) as [L|L]; [rewrite Z.div_small in H by (pose proof (zlen_nonneg locs); lia); lia|exact L]|apply Z.div_str_pos; lia]. }
  split.
  - intros (subs & E). pose proof (passes_sub _ locs n subs Hi Hn E) as (_ & P). split.
    + destruct (P 0%nat ltac:(lia)) as (_ & P2). apply Cpos in P2. apply Sp. lia.
    + destruct (P (Z.to_nat (n - 1)) ltac:(lia)) as (P1 & _). apply Cin in P1. rewrite Z2Nat.id in P1 by lia. exact P1.
  - intros (B1 & B2). apply Sp in B1.
    assert (Y : forall i, (i < Z.to_nat n)%nat -> exists sub, SubIndex (index_of (rs ++ [l]) locs) (Z.of_nat i) n = Ok sub).
    { intros i H1. destruct (SubIndex_spec (rs ++ [l]) locs (Z.of_nat i) n Hi Hn ltac:(lia)) as (Y & _). cbn zeta in Y.
      destruct Y as (l' & top & _ & _ & Es); [|eexists; exact Es]. split; [apply Cin; nia|apply Cpos; nia]. }
    assert (G : forall k, (forall i, In i k -> (i < Z.to_nat n)%nat) -> exists subs, Forall2 (fun i s => SubIndex (index_of (rs ++ [l]) locs) (Z.of_nat i) n = Ok s) k subs).
    { induction k as [|i k IH]; intros Hk; [exists []; constructor|]. destruct IH as (subs & F); [intros j Hj; apply Hk; right; exact Hj|].
      destruct (Y i (Hk i (or_introl eq_refl))) as (sub & Es). eexists. constructor; [exact Es|exact F]. }
    destruct (G (seq 0 (Z.to_nat n)) ltac:(intros i Hin; apply in_seq in Hin; lia)) as (subs & F). exists subs. unfold passes. apply mapm_map_ok. exact F.
Qed.
(** Ten ranges of one location each can be divided into nine or six (10 / 6 = 1: six of the ten ranges), but not into eleven. *)
Lemma pC48_divides_exact_ex : index_ok ex_ten (repeat (-1) 10) /\ (exists subs, passes (index_of ex_ten (repeat (-1) 10)) 9 = Ok subs) /\
  (exists subs, passes (index_of ex_ten (repeat (-1) 10)) 6 = Ok subs) /\ passes (index_of ex_ten (repeat (-1) 10)) 11 = Panic IndexOutOfRange.
Proof. split; [exact ex_ten_ok|]. split; [eexists; vm_compute; reflexivity|]. split; [eexists; vm_compute; reflexivity|]. vm_compute. reflexivity. Qed.

(** *** C54, exactly when the rewriter ends normally *)
Lemma after_passes_first envs idx n : forall k j file f, (j <= k)%nat -> after_passes envs idx n k file = Ok f -> exists g, after_passes envs idx n j file = Ok g.
Proof.
  induction k as [|k IH]; intros j file f Hj E.
  - replace j with 0%nat by lia. eauto.
  - destruct (Nat.eq_dec j (S k)) as [->|Ne]; [eauto|]. cbn [after_passes] in E. destruct (after_passes envs idx n k file) as [g|p|] eqn:Eg; cbn [bind] in E; try discriminate.
    apply (IH j file g); [lia|exact Eg].
Qed.
Lemma rw_loop_ends envs idx input output passes file : 1 <= passes < 2^63 -> input <> output -> ~ is_pass output passes input ->
  (exists f, after_passes envs idx passes (Z.to_nat passes) file = Ok f) ->
  forall n i fs, 0 <= i -> i + Z.of_nat n = passes ->
  (i = 0 -> fs input = Some file) ->
  (0 < i < passes -> exists f, fs (makePassFilename output i passes) = Some f /\ after_passes envs idx passes (Z.to_nat i) file = Ok f) ->
  (i = passes -> 1 < passes -> fs (makePassFilename output (passes - 1) passes) <> None) ->
  exists fs', rw_loop envs idx input output passes n i fs = Ok fs' /\ (1 < passes -> fs' (makePassFilename output (passes - 1) passes) <> None).
Proof.
  intros Hp Hio Hip (last & El). induction n as [|n IH]; intros i fs Hi En H0 H1 H2; cbn [rw_loop].
  - exists fs. split; [reflexivity|]. apply H2. lia.
  - set (fs1 := if 1 <? i then fs_remove_try fs (makePassFilename output (i - 1) passes) else fs).
    assert (F1 : forall name, name <> makePassFilename output (i - 1) passes -> fs1 name = fs name).
    { intros name Hn. unfold fs1. destruct (1 <? i); [apply fs_set_other; exact Hn|reflexivity]. }
    destruct (after_passes_first envs idx passes (Z.to_nat passes) (S (Z.to_nat i)) file last ltac:(lia) El) as (out & Eo). pose proof Eo as Eo'. cbn [after_passes] in Eo.
    destruct (after_passes envs idx passes (Z.to_nat i) file) as [f|p|] eqn:Ef; cbn [bind] in Eo; try discriminate. rewrite Z2Nat.id in Eo by lia.
    destruct (SubIndex idx i passes) as [ix|p|] eqn:Es; cbn [bind] in *; try discriminate.
    assert (A : fs1 (if 0 <? i then makePassFilename output i passes else input) = Some f).
    { destruct (Z.ltb_spec 0 i) as [L|L].
      - destruct (H1 ltac:(lia)) as (f' & A & B). injection B as <-. rewrite F1; [exact A|]. intros X. apply pass_inj in X; lia.
      - assert (i = 0) by lia. subst i. cbn in Ef. injection Ef as <-. unfold fs1. cbn. apply H0. reflexivity. }
    rewrite A, Eo. cbn [bind]. set (o := if i + 1 <? passes then makePassFilename output (i + 1) passes else output).
    apply IH; [lia|lia|lia| |].
    + intros L. exists out. split.
      * unfold o. replace (i + 1 <? passes) with true by lia. apply fs_set_same.
      * replace (Z.to_nat (i + 1)) with (S (Z.to_nat i)) by lia. exact Eo'.
    + intros L L'. rewrite fs_set_other.
      2:{ unfold o. replace (i + 1 <? passes) with false by lia. apply pass_output. }
      replace (0 <? i) with true in A by lia. replace (passes - 1) with i by lia. rewrite A. discriminate.
Qed.
(** C54, exactly.  The rewriter ends normally if and only if the memory limit gives a number of passes, the input exists
    and each of that many passes over it does. *)
Lemma pC54_ends_exact : forall envs idx input output memory fs, input <> output ->
  (forall pass count, input <> makePassFilename output pass count) ->
  ((exists fs', rw_main envs idx input output memory fs = Ok fs') <->
   exists n file out, rw_count (LocationCount idx) memory = Ok n /\ fs input = Some file /\ after_passes envs idx n (Z.to_nat n) file = Ok out).
Proof.
  intros envs idx input output memory fs Hio Hip. split.
  - intros (fs' & E). unfold rw_main in E. destruct (rw_count (LocationCount idx) memory) as [passes|p|] eqn:Ec; cbn [bind] in E; try discriminate.
    assert (Hp : 1 <= passes < 2^63) by (eapply rw_count_range; [|exact Ec]; unfold LocationCount; apply u64_range || (apply zlen_nonneg)).
    assert (Hi : ~ is_pass output passes input) by (intros (j & _ & X); exact (Hip _ _ X)).
    destruct (rw_loop envs idx input output passes (Z.to_nat passes) 0 fs) as [fs1|p|] eqn:El; cbn [bind] in E; try discriminate.
    destruct (fs input) as [file|] eqn:Ef.
    2:{ exfalso. destruct (Z.to_nat passes) as [|m] eqn:Em; [lia|]. cbn [rw_loop] in El. change (1 <? 0) with false in El. change (0 <? 0) with false in El. cbn iota in El.
        destruct (SubIndex idx 0 passes); cbn [bind] in El; try discriminate. rewrite Ef in El. discriminate. }
    destruct (rw_loop_spec envs idx input output passes file Hp Hio Hi (Z.to_nat passes) 0 fs fs1) as ((out & O1 & O2) & P & F); [lia|lia|intros _; exact Ef|intros; lia|intros; lia|intros; lia|exact El|].
    exists passes, file, out. auto.
  - intros (n & file & out & Ec & Ef & Eo). assert (Hp : 1 <= n < 2^63) by (eapply rw_count_range; [|exact Ec]; unfold LocationCount; apply u64_range || (apply zlen_nonneg)).
    assert (Hi : ~ is_pass output n input) by (intros (j & _ & X); exact (Hip _ _ X)).
    destruct (rw_loop_ends envs idx input output n file Hp Hio Hi (ex_intro _ out Eo) (Z.to_nat n) 0 fs) as (fs1 & El & Nn); [lia|lia|intros _; exact Ef|intros; lia|intros; lia|].
    unfold rw_main. rewrite Ec. cbn [bind]. rewrite El. cbn [bind]. destruct (Z.ltb_spec 1 n) as [L|L]; [|eauto].
    unfold fs_remove. specialize (Nn L). destruct (fs1 _); [eauto|contradiction].
Qed.

(** C86, the whole chain with any memory limit for which the index can be divided (C48_divides_exact): every step
    completes, and the relation index lists what C85_exact says. *)
Lemma pC86_chain_exact : forall o (envs : run -> Z -> zenv) file blocks a input rewritten wayIndex output m fs,
  all_well o -> (forall r i, env_ok (envs r i)) -> osm_file envs file blocks -> small_file envs file blocks -> 0 <= a <= 61 ->
  let ns := file_nodes blocks in let ws := file_ways blocks in let rels := file_relations blocks in
  (forall p, In (Some p) blocks -> block_sane p /\ zlen (block_nodes p) < 2^23) ->
  ascending (map in_id ns) -> Forall (fun n => 2 <= in_id n < 2^63) ns -> 0 < zlen ns < 2^39 ->
  ascending_by fst ws -> Forall (fun w => 0 <= fst w < 2^31) ws -> ws <> [] -> size_bound a ws <= 2^(33 + a) -> size_bound a ws < 2^62 ->
  Forall relation_ok rels -> rels <> [] -> 1 <= m <= 2^a -> wayIndex <> makePassFilename output 0 m ->
  input <> rewritten -> (forall pass count, input <> makePassFilename rewritten pass count) -> fs input = Some file ->
  exists bs w1 idx, read_file file = Ok bs /\ ni_index o (with_env (envs IndexNodes) bs) = (w1, Ok tt) /\ NewNodeIndex (f_data (w_idx w1)) = Ok idx /\
  forall memory n, rw_count (LocationCount idx) memory = Ok n -> (exists subs, passes idx n = Ok subs) ->
  exists k fs2 file2 bs2 w2 fs3, zlen ns - n < k <= zlen ns /\ 0 <= k /\
    rw_main (fun pass => envs (Rewrite pass)) idx input rewritten memory fs = Ok fs2 /\ fs2 rewritten = Some file2 /\
    read_file file2 = Ok bs2 /\ wi_index o a (with_env (envs IndexWays) bs2) = (w2, Ok tt) /\
    ri_main (with_env (envs IndexRelations) bs2) wayIndex output m (fs_set fs2 wayIndex (Some (f_data (w_idx w2)))) = Ok fs3 /\
    fs3 output = Some (SliceAsByteSlice (listing (way_locs (map (located_way (firstn (Z.to_nat k) ns)) ws)) (map summary rels))).
Proof.
  intros o envs file blocks a input rewritten wayIndex output m fs Wo He F Sm Ha ns ws rels Hs An In1 In2 Aw Iw Nw S1 S2 Rok Nrel Hm Hne Hne2 Hip Hfs.
  destruct (pC85_exact o envs file blocks a Wo He F Ha Hs An In1 In2 Aw Iw Nw S1 S2 Rok Nrel) as (bs & w1 & idx & E1 & E2 & E3 & K).
  destruct (osm_read envs file blocks F) as (bs' & Eb' & Rb). rewrite E1 in Eb'. injection Eb' as <-.
  destruct (index_chain o (with_env (envs IndexNodes) bs) (per_block block_nodes blocks) Wo) as (w1' & rs & locs & E1' & E2' & Hi & Nr & Hl & _).
  { apply read_nodes; [apply Rb|]. intros p Hp. apply Hs. exact Hp. }
  { rewrite per_block_concat. exact An. }
  { rewrite per_block_concat. exact In1. }
  { unfold per_block. apply Forall_forall. intros l Hin. apply in_map_iff in Hin. destruct Hin as (c & <- & Hc). destruct c as [p|]; [apply Hs; exact Hc|]. reflexivity. }
  { rewrite per_block_concat. exact In2. }
  rewrite E2 in E1'. injection E1' as <-. rewrite E3 in E2'. injection E2' as ->.
  assert (Nb : blocks <> []) by (intros ->; contradiction Nw; reflexivity).
  exists bs, w1, (index_of rs locs). split; [exact E1|]. split; [exact E2|]. split; [exact E3|]. intros memory n Ec (subs & Ep).
  assert (Hn : 1 <= n < 2^63) by (eapply rw_count_range; [|exact Ec]; unfold LocationCount; apply u64_range || (apply zlen_nonneg)).
  assert (Fin : forall k, Z.of_nat k <= n -> exists f, after_passes (fun pass => envs (Rewrite pass)) (index_of rs locs) n k file = Ok f /\ zlen f < 2^63).
  { apply (pC86_rewriter_finishes run envs Rewrite file blocks rs locs n subs); try assumption; [|lia]. revert Hl. apply Forall_impl. tauto. }
  destruct (Fin (Z.to_nat n) ltac:(lia)) as (file2 & Ef & _).
  destruct (K n file2 ltac:(lia)) as (k & bs2 & w2 & K1 & K2 & E4 & E5 & KR).
  { intros j f Hk E. destruct (Fin j Hk) as (f' & E' & L). rewrite E in E'. injection E' as <-. exact L. }
  { exact Ef. }
  destruct (proj2 (pC54_ends_exact (fun pass => envs (Rewrite pass)) (index_of rs locs) input rewritten memory fs Hne2 Hip)) as (fs2 & Er); [exists n, file, file2; auto|].
  assert (Eo : fs2 rewritten = Some file2).
  { pose proof Er as E. unfold rw_main in E. rewrite Ec in E. cbn [bind] in E.
    assert (Hi' : ~ is_pass rewritten n input) by (intros (j & _ & X); exact (Hip _ _ X)).
    destruct (rw_loop (fun pass => envs (Rewrite pass)) (index_of rs locs) input rewritten n (Z.to_nat n) 0 fs) as [fs1|p|] eqn:El; cbn [bind] in E; try discriminate.
    destruct (rw_loop_spec (fun pass => envs (Rewrite pass)) (index_of rs locs) input rewritten n file Hn Hne2 Hi' (Z.to_nat n) 0 fs fs1) as ((out & O1 & O2) & _); [lia|lia|intros _; exact Hfs|intros; lia|intros; lia|intros; lia|exact El|].
    rewrite Ef in O2. injection O2 as <-. destruct (1 <? n); [|injection E as <-; exact O1]. unfold fs_remove in E. destruct (fs1 _); [|discriminate]. injection E as <-.
    rewrite fs_set_other; [exact O1|]. intros X. exact (pass_output _ _ _ (eq_sym X)). }
  destruct (KR bs2 m wayIndex output (fs_set fs2 wayIndex (Some (f_data (w_idx w2)))) (or_intror (or_introl E4)) Hm Hne) as (fs3 & E6 & E7); [apply fs_set_same|].
  exists k, fs2, file2, bs2, w2, fs3. repeat (split; [assumption|]). exact E7.
Qed.
