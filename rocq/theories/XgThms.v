(** * XgThms: what a cancelled or killed decompression leaves behind (C80, C91), exactly. *)
From Verif Require Import Base HLThms ZlThms TfThms NiThms RwThms PbSpec TModel TSpec HLModel FrModel FrSpec ZlModel ZlSpec IoModel IoSpec TfModel TfSpec NiModel NiSpec NiThms RwModel RwSpec WiModel WiSpec RiModel RiSpec PlModel PlSpec PlThms CxModel CxSpec CxThms.
From Verif Require Import BaseLemmas PbModel PbProofs TProofs TMsg TMsg2 TThms TTyped HLProofs HLThms FrProofs FrThms ZlThms TfThms NiProofs NiProofs2 NiThms RwThms PlProofs2 PlThms XdThms.
From Verif Require Import NiSpec RwSpec PlSpec CxModel CxSpec.

(** a file of the blobs the tool writes for [pl] *)
Lemma written_exact out pl envs' : bytes out -> zlen out < 2^63 -> Forall moderate pl -> Forall (fun p => known_type (fst p)) pl ->
  is_file out (map (fun p => (fst p, out_blob (snd p))) pl) ->
  (contents envs' out pl <-> Forall (fun p => snd p <> []) pl) /\ ((exists pl', contents envs' out pl') <-> Forall (fun p => snd p <> []) pl).
Proof.
  intros B L F K I.
  assert (Up : Forall (fun p => snd p <> []) pl -> contents envs' out pl).
  { intros NE. apply file_contents; [exact B|exact L| |exact K|].
    - apply Forall_forall. intros p Hp. split; [exact (proj1 (Forall_forall _ _) NE p Hp)|exact (proj1 (Forall_forall _ _) F p Hp)].
    - replace (map (fun p => (fst p, raw_blob (snd p))) pl) with (map (fun p => (fst p, out_blob (snd p))) pl); [exact I|]. apply map_ext_in. intros p Hp. pose proof (proj1 (Forall_forall _ _) NE p Hp) as N. cbn beta in N. destruct (snd p); [contradiction|reflexivity]. }
  destruct (pC34_split out _ B L I) as (bs' & E' & M); [apply Forall_map; exact K|]. unfold numbered in M. rewrite map_length in M.
  assert (Down : (exists pl', contents envs' out pl') -> Forall (fun p => snd p <> []) pl).
  { intros (pl' & bs2 & E2 & F2). rewrite E' in E2. injection E2 as <-.
    destruct (Forall_dec (fun p : list Z * list Z => snd p <> [])) with (l := pl) as [Y|N]; [intros [a [|y b]]; [right; cbn; congruence|left; discriminate]|exact Y|].
    exfalso. destruct (no_empty_read bs' pl 0 M N) as (b & Hb' & Hv).
    assert (X : forall bs pl', In b bs -> Forall2 (fun b p => blk_Type b = fst p /\ payload (envs' (blk_Index b)) b (snd p)) bs pl' -> exists raw, payload (envs' (blk_Index b)) b raw).
    { clear. intros bs pl' Hb F. induction F as [|b' p bs pl (_ & P) F IH]; [destruct Hb|]. destruct Hb as [->|Hb]; [exists (snd p); exact P|auto]. }
    destruct (X bs' pl' Hb' F2) as (raw & P). destruct (empty_unreadable (envs' (blk_Index b)) b Hv) as (Q & _). exact (Q raw P). }
  split; split; [intros H; apply Down; exists pl; exact H|exact Up|exact Down|intros H; exists pl; apply Up; exact H].
Qed.
(** what the workers made of the first [m] blocks *)
Lemma dc_written envs wp rp bs pl m msgs : Forall2 (fun b p => blk_Type b = fst p /\ payload (envs (blk_Index b)) b (snd p)) bs pl ->
  Forall moderate pl -> Forall (fun p => known_type (fst p)) pl -> mapm (c_work (dc_cfg envs wp rp)) (firstn m bs) = Ok msgs ->
  is_file (concat (map snd msgs)) (map (fun p => (fst p, out_blob (snd p))) (firstn m pl)) /\ bytes (concat (map snd msgs)).
Proof.
  intros F2 F K G. apply (Forall2_firstn _ m) in F2. apply (Forall_firstn _ m) in F. apply (Forall_firstn _ m) in K.
  destruct (any_file (firstn m pl) F K) as (outs & Eo & I & B). rewrite <- (mapm_any envs (firstn m bs) (firstn m pl) F2) in Eo.
  assert (EQ : map snd msgs = outs).
  { revert G Eo. cbn [dc_cfg c_work]. generalize msgs, (firstn m bs). clear. intros got l. revert got outs.
    induction l as [|b l IH]; intros got outs G Eo; cbn [mapm] in *; [injection G as <-; injection Eo as <-; reflexivity|]. destruct (decompress_block _ b); cbn [bind] in *; try discriminate G.
    destruct (mapm _ l) as [r1| |]; cbn [bind] in G; try discriminate G. destruct (mapm _ l) as [r2| |]; cbn [bind] in Eo; try discriminate Eo. injection G as <-. injection Eo as <-. cbn [map snd]. f_equal. eapply IH; reflexivity. }
  rewrite EQ. auto.
Qed.

(** C80, decompression, exactly.  Whenever and however often it was cancelled, whatever the schedule and the number of
    workers: what a run that has ended has written is a file with the types and payloads of the first [m] blobs of the input
    (all, if it was not cancelled) if and only if none of these is empty, and otherwise no file with payloads at all. *)
Lemma pC80_decompress_exact : forall envs file pl bs workers wp rp s,
  bytes file -> zlen file < 2^63 -> contents envs file pl ->
  Forall (fun p => bytes (snd p) /\ zlen (snd p) < 2^31 - 20) pl ->
  read_file file = Ok bs -> reachable (dc_cfg envs wp rp) bs workers s -> completed s ->
  exists m, (m <= List.length pl)%nat /\ (s_cancelled s = false -> m = List.length pl) /\
    (let out := concat (map snd (s_got s)) in zlen out < 2^63 -> forall envs',
       (contents envs' out (firstn m pl) <-> Forall (fun p => snd p <> []) (firstn m pl)) /\
       ((exists pl', contents envs' out pl') <-> Forall (fun p => snd p <> []) (firstn m pl))).
Proof.
  intros envs file pl bs n wp rp s Hb Hl (bs' & E' & F2) F E R D. rewrite E in E'. injection E' as <-.
  pose proof (pC37_file_indexed file bs Hb Hl E) as IX.
  destruct (pC37_keeps envs (mkNSI [] [] 0) false 0 (fun _ => false) (fun _ => false) (fun _ => false) (fun _ => false) wp rp bs) as (_ & _ & _ & _ & _ & K).
  destruct (end_prefix (dc_cfg envs wp rp) blk_Index bs n s eq_refl IX K R D) as (m & Hm & Hc & G). pose proof (Forall2_length' _ _ _ F2) as Len.
  exists m. split; [lia|]. split; [intros C; rewrite <- Len; auto|]. cbn zeta. intros Lo envs'.
  pose proof (known_pl envs file bs pl Hb Hl E F2) as Kn. destruct (dc_written envs wp rp bs pl m (s_got s) F2 F Kn G) as (I & B).
  apply written_exact; [exact B|exact Lo|apply Forall_firstn, F|apply Forall_firstn, Kn|exact I].
Qed.

(** C91, decompression, exactly.  However far a run got, and however much of its output was written: what is there cannot
    be split into blobs, or is a file with the types and payloads of the first [m] blobs of the input if and only if none of
    these is empty, and otherwise no file with payloads at all. *)
Lemma pC91_decompress_exact : forall envs file pl bs workers wp rp s n j,
  bytes file -> zlen file < 2^63 -> contents envs file pl ->
  Forall (fun p => bytes (snd p) /\ zlen (snd p) < 2^31 - 20) pl ->
  read_file file = Ok bs -> reachable (dc_cfg envs wp rp) bs workers s ->
  let out := concat (map snd (firstn n (s_got s))) in zlen out < 2^63 ->
  (exists msg, read_file (firstn j out) = Panic msg) \/
  (exists m, (m <= List.length pl)%nat /\ forall envs',
     (contents envs' (firstn j out) (firstn m pl) <-> Forall (fun p => snd p <> []) (firstn m pl)) /\
     ((exists pl', contents envs' (firstn j out) pl') <-> Forall (fun p => snd p <> []) (firstn m pl))).
Proof.
  intros envs file pl bs w wp rp s n j Hb Hl (bs' & E' & F2) F E R out Lo. rewrite E in E'. injection E' as <-.
  pose proof (pC37_file_indexed file bs Hb Hl E) as IX.
  destruct (pC37_keeps envs (mkNSI [] [] 0) false 0 (fun _ => false) (fun _ => false) (fun _ => false) (fun _ => false) wp rp bs) as (_ & _ & _ & _ & _ & K).
  destruct (pC37_prefix _ _ (dc_cfg envs wp rp) blk_Index bs w s eq_refl IX K R) as (m0 & G). apply (mapm_firstn _ _ _ n) in G. rewrite firstn_firstn in G.
  pose proof (known_pl envs file bs pl Hb Hl E F2) as Kn. destruct (dc_written envs wp rp bs pl _ _ F2 F Kn G) as (I & B). fold out in I, B.
  destruct (pC35_truncation out _ j B Lo I) as [P|(bs' & q & _ & Fq & _)]; [left; exact P|right].
  rewrite firstn_map, firstn_firstn in Fq. set (m := Nat.min (Nat.min q (Nat.min n m0)) (List.length pl)).
  assert (Em : firstn (Nat.min q (Nat.min n m0)) pl = firstn m pl) by (unfold m; destruct (Nat.min_spec (Nat.min q (Nat.min n m0)) (List.length pl)) as [(L & ->)|(L & ->)]; [reflexivity|rewrite firstn_all, firstn_all2 by lia; reflexivity]).
  rewrite Em in Fq. exists m. split; [unfold m; lia|]. intros envs'.
  apply written_exact; [| |apply Forall_firstn, F|apply Forall_firstn, Kn|exact Fq].
  - apply Forall_forall. intros x Hx. apply (proj1 (Forall_forall _ _) B). rewrite <- (firstn_skipn j out). apply in_or_app. left. exact Hx.
  - unfold zlen in *. rewrite firstn_length. lia.
Qed.
(** The run of C80_ex: a file of a header and a data blob with a payload, cancelled after the header; five bytes of what
    it wrote cannot be split into blobs. *)
Lemma pC80_decompress_exact_ex : exists bs s, read_file ex_zfile = Ok bs /\ reachable (dc_cfg ex_zenv (fun _ => false) false) bs 1 s /\ completed s /\ s_cancelled s = true /\
  Forall (fun p : list Z * list Z => snd p <> []) [(bytes_of "OSMHeader", [7; 8]); (bytes_of "OSMData", [1; 2; 3])] /\
  contents ex_zenv ex_zfile [(bytes_of "OSMHeader", [7; 8]); (bytes_of "OSMData", [1; 2; 3])] /\
  (exists msg, read_file (firstn 5 (concat (map snd (s_got s)))) = Panic msg).
Proof.
  destruct pC80_ex as (bs & s & E & R & D & C & G). exists bs, s. split; [exact E|]. split; [exact R|]. split; [exact D|]. split; [exact C|].
  split; [repeat (constructor; [discriminate|]); constructor|]. split; [exact (proj1 pC66_exact_ex)|]. rewrite G. eexists. vm_compute. reflexivity.
Qed.
