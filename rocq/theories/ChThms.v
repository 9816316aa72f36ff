(** * ChThms: the outputs of decompress and tagfilter are OSM files (C87, C88). *)
From Verif Require Import NiThms Base PbSpec TModel HLModel HLSpec FrModel FrSpec ZlModel ZlSpec TfModel TfSpec MtModel IoModel IoSpec NiModel NiSpec RwModel RwSpec WiModel WiSpec RiModel RiSpec WsSpec PlModel PlSpec PlThms CxThms EeSpec ChSpec HLProofs HLProofs2 HLThms TfThms.
From Verif Require Import BaseLemmas PbModel PbProofs PbProofs2 TSpec TProofs TMsg TMsg2 TThms TTyped HLProofs FrProofs FrThms ZlThms TfThms NiProofs NiProofs2 NiThms RwThms WiThms RiThms WsProofs WsRead WsWrite WsThms EeProofs EeFin IoThms MtThms NiProofs3 NiProofs4 CxThms ChProofs HLProofs2 HLProofs3 HLThms FlProofs.
From Verif Require EeThms.
From Verif Require Import NiSpec RwSpec TfSpec PlModel PlSpec.

(** C87, for files none of whose contents is empty (see C66_empty_payload_refuted).  Whatever the
    schedule, the number of workers and the moment of a cancellation: what a decompression of an OSM
    file has written when it ends is an OSM file with the first [m] blocks, all of them if it was not
    cancelled, whoever reads it; and it is within the limits of the tool chain if the input was. *)
Lemma pC87_decompressed_file_partial : forall (R R' : Type) (envs : R -> Z -> zenv) (envs' : R' -> Z -> zenv) r file blocks bs workers wp rp s,
  osm_file envs file blocks -> (forall i, env_ok (envs r i)) -> contents_ok (envs r) file ->
  read_file file = Ok bs -> reachable (dc_cfg (envs r) wp rp) bs workers s -> completed s ->
  exists m, (m <= List.length blocks)%nat /\ (s_cancelled s = false -> m = List.length blocks) /\
    let out := concat (map snd (s_got s)) in
    zlen out < 2^63 -> osm_file envs' out (firstn m blocks) /\ (small_file envs file blocks -> small_file envs' out (firstn m blocks)).
Proof.
  intros R R' envs envs' r file blocks bs n wp rp s O He C E Re D. destruct (osm_contents envs r file blocks O He C) as (pl & (bs' & E' & F2) & F & Hb & blobs & HF & HB). rewrite E in E'. injection E' as <-. pose proof O as (Bf & Lf & _).
  pose proof (pC37_file_indexed file bs Bf Lf E) as IX.
  destruct (pC37_keeps (envs r) (mkNSI [] [] 0) false 0 (fun _ => false) (fun _ => false) (fun _ => false) (fun _ => false) wp rp bs) as (_ & _ & _ & _ & _ & K).
  destruct (end_prefix (dc_cfg (envs r) wp rp) blk_Index bs n s eq_refl IX K Re D) as (m & Hm & Hc & G). pose proof (f2_len _ _ _ F2) as Len. pose proof (f2_len _ _ _ Hb) as Len2.
  exists m. split; [lia|]. split; [intros X; specialize (Hc X); lia|]. cbn zeta. intros Lo.
  assert (Kn : Forall (fun p => known_type (fst p)) pl).
  { pose proof (read_file_known file bs Bf Lf E) as Kb. clear -F2 Kb. induction F2 as [|b p bs pl (T & _) F2 IH]; [constructor|].
    apply Forall_cons_iff in Kb as [K1 Kb]. constructor; [rewrite <- T; exact K1|auto]. }
  apply (f2_firstn _ m) in F2. apply (f2_firstn _ m) in Hb. pose proof F as F0. apply (Forall_firstn _ m) in F. apply (Forall_firstn _ m) in Kn.
  destruct (frames_pbf (firstn m pl) F Kn) as (outs & Eo & I). destruct (frames_file (firstn m pl) F Kn) as (outs' & Eo' & _ & B). rewrite Eo in Eo'. injection Eo' as <-.
  assert (EQ : map snd (s_got s) = outs).
  { rewrite <- (mapm_frames (envs r) (firstn m bs) (firstn m pl) F2 F) in Eo. revert G Eo. cbn [dc_cfg c_work]. generalize (s_got s), (firstn m bs). clear. intros got l. revert got outs.
    induction l as [|b l IH]; intros got outs G Eo; cbn [mapm] in *; [injection G as <-; injection Eo as <-; reflexivity|]. destruct (decompress_block _ b); cbn [bind] in *; try discriminate G.
    destruct (mapm _ l) as [r1| |]; cbn [bind] in G; try discriminate G. destruct (mapm _ l) as [r2| |]; cbn [bind] in Eo; try discriminate Eo. injection G as <-. injection Eo as <-. cbn [map snd]. f_equal. eapply IH; reflexivity. }
  rewrite EQ in *. split; [apply (contents_osm envs' (concat outs) (firstn m pl)); assumption|]. intros (S1 & S2 & S3). split; [|split].
  - intros p Hp. apply S1. rewrite <- (firstn_skipn m blocks). apply in_or_app. left. exact Hp.
  - unfold zlen in *. rewrite firstn_length. lia.
  - intros blobs' i data run raw PF Hn Dr. pose proof (pbf_unique _ _ _ Lo I PF) as <-. rewrite nth_error_map in Hn. destruct (nth_error (firstn m pl) i) as [p|] eqn:Ep; [|discriminate Hn]. injection Hn as T <-.
    pose proof (proj1 (Forall_forall _ _) F p (nth_error_In _ _ Ep)) as (_ & Bp & Sz). pose proof (raw_blob_len (snd p)) as Lb.
    rewrite (data_unique (envs' run (Z.of_nat i)) (raw_blob (snd p)) raw (snd p) ltac:(lia) Dr) by (left; exists None, None; apply raw_blob_msg; [exact Bp|lia]).
    assert (Ep' : nth_error pl i = Some p). { rewrite <- (firstn_skipn m pl). rewrite nth_error_app1; [exact Ep|]. apply nth_error_Some. rewrite Ep. discriminate. }
    destruct (HB i p Ep') as ([ty data] & Hbl & Et & Db). cbn [fst snd] in *. eapply (S3 blobs i data r); [exact HF| |exact Db]. rewrite Hbl, Et, T. reflexivity.
Qed.

(** *** Example: a header, a compressed block with five nodes, a block with two ways and two relations (those of C85) *)
Definition ch_blobs : list (list Z * list Z) :=
  [(bytes_of "OSMHeader", [10; 2; 7; 8]); (bytes_of "OSMData", [16; 44; 26; 3; 120; 156; 1]); (bytes_of "OSMData", [10; 118] ++ EeThms.ex_raw EeThms.ex_p2)].
Definition ch_osm : list Z := match enc_file ch_blobs with Ok f => f | _ => [] end.
Lemma ch_enc : enc_file ch_blobs = Ok ch_osm /\ zlen ch_osm = 178.
Proof. split; vm_compute; reflexivity. Qed.
Lemma ch_bl : Forall (fun b => known_type (fst b) /\ bytes (snd b) /\ zlen (snd b) < 2^31) ch_blobs.
Proof.
  destruct EeThms.ex_p2_bytes as (Pb & Pl). unfold ch_blobs. apply Forall_cons; [|apply Forall_cons; [|apply Forall_cons; [|apply Forall_nil]]]; cbn [fst snd].
  - split; [left; reflexivity|]. split; [EeThms.s64s|reflexivity].
  - split; [right; reflexivity|]. split; [EeThms.s64s|reflexivity].
  - split; [right; reflexivity|]. split; [apply bytes_app; split; [EeThms.s64s|exact Pb]|]. rewrite zlen_app, Pl. reflexivity.
Qed.
Lemma ch_header : blob_msg [10; 2; 7; 8] (Some [7; 8]) None None.
Proof.
  exists [PB 1 [10] [2] [7; 8]]. split; [split; [reflexivity|]|split; [split|]].
  - apply Forall_cons; [|apply Forall_nil]. split; [lia|]. split; [vo|]. split; [vo|EeThms.s64s].
  - repeat (apply Forall_cons; [cbn; tauto|]); apply Forall_nil.
  - repeat (apply Forall_cons; [vm_compute; discriminate|]); apply Forall_nil.
  - split; [reflexivity|]. split; [reflexivity|]. exact I.
Qed.
Lemma ch_data1 i : data_of (EeThms.ex_zenv i) [16; 44; 26; 3; 120; 156; 1] (EeThms.ex_raw EeThms.ex_p1).
Proof. right. exists 44, [120; 156; 1]. destruct (EeThms.ex_stream i) as (S1 & S2). split; [exact EeThms.ex_zlib_blob|]. split; [reflexivity|]. split; [exact S1|exact S2]. Qed.
Lemma ch_data2 env : data_of env ([10; 118] ++ EeThms.ex_raw EeThms.ex_p2) (EeThms.ex_raw EeThms.ex_p2).
Proof. destruct EeThms.ex_p2_bytes as (Pb & Pl). left. exists None, None. apply EeThms.raw_blob; assumption. Qed.
Lemma ch_osm_file : osm_file EeThms.ex_envs ch_osm EeThms.ex_contents.
Proof.
  destruct ch_enc as (E & L). split; [exact (proj2 (enc_file_is _ _ E ch_bl))|]. split; [rewrite L; reflexivity|]. exists ch_blobs. split; [apply enc_file_pbf; [exact E|exact ch_bl]|]. split; [reflexivity|].
  intros [|[|[|i]]] b c Hb Hc; cbn [nth_error ch_blobs EeThms.ex_contents] in Hb, Hc; [| | |destruct i; discriminate Hb]; injection Hb as <-; injection Hc as <-.
  - reflexivity.
  - split; [reflexivity|]. exists (EeThms.ex_raw EeThms.ex_p1). split; [intros r; apply ch_data1|exact EeThms.ex_p1_msg].
  - split; [reflexivity|]. exists (EeThms.ex_raw EeThms.ex_p2). split; [intros r; apply ch_data2|exact EeThms.ex_p2_msg].
Qed.
Lemma ch_contents : contents_ok EeThms.ex_zenv ch_osm.
Proof.
  destruct ch_enc as (E & L). intros blobs i b F Hb. rewrite <- (pbf_unique ch_blobs blobs ch_osm ltac:(rewrite L; reflexivity) (enc_file_pbf _ _ E ch_bl) F) in Hb. destruct EeThms.ex_p2_bytes as (_ & P2). destruct (EeThms.ex_stream 0) as (_ & P1).
  destruct i as [|[|[|i]]]; cbn [nth_error ch_blobs] in Hb; [| | |destruct i; discriminate Hb]; injection Hb as <-; cbn [snd].
  - exists [7; 8]. split; [left; exists None, None; exact ch_header|]. split; [discriminate|reflexivity].
  - exists (EeThms.ex_raw EeThms.ex_p1). split; [apply ch_data1|]. rewrite P1. split; [|reflexivity]. intros X. rewrite X in P1. discriminate P1.
  - exists (EeThms.ex_raw EeThms.ex_p2). split; [apply ch_data2|]. rewrite P2. split; [|reflexivity]. intros X. rewrite X in P2. discriminate P2.
Qed.
Lemma ch_works : exists a0 a1 a2 b0 b1 b2, read_file ch_osm = Ok [a0; a1; a2] /\ c_work (dc_cfg EeThms.ex_zenv (fun _ => false) false) a0 = Ok b0 /\ c_work (dc_cfg EeThms.ex_zenv (fun _ => false) false) a1 = Ok b1 /\ c_work (dc_cfg EeThms.ex_zenv (fun _ => false) false) a2 = Ok b2 /\ fst b0 = 0 /\ fst b1 = 1 /\ fst b2 = 2 /\ zlen (snd b0 ++ snd b1 ++ snd b2) = 217.
Proof. do 6 eexists. split; [vm_compute; reflexivity|]. do 6 (split; [vm_compute; reflexivity|]). vm_compute. reflexivity. Qed.
(** The conditions of C87 hold for a run that decompresses this file (178 bytes; 217 decompressed). *)
Lemma pC87_ex : exists bs s, osm_file EeThms.ex_envs ch_osm EeThms.ex_contents /\ (forall i, env_ok (EeThms.ex_envs IndexNodes i)) /\ contents_ok (EeThms.ex_envs IndexNodes) ch_osm /\
  read_file ch_osm = Ok bs /\ reachable (dc_cfg (EeThms.ex_envs IndexNodes) (fun _ => false) false) bs 1 s /\ completed s /\ s_cancelled s = false /\ zlen (concat (map snd (s_got s))) = 217.
Proof.
  set (c := dc_cfg EeThms.ex_zenv (fun _ => false) false). destruct ch_works as (a0 & a1 & a2 & b0 & b1 & b2 & Ef & E0 & E1 & E2 & I0 & I1 & I2 & L).
  destruct (run_all3 c a0 a1 a2 b0 b1 b2 eq_refl eq_refl E0 E1 E2 I0 I1 I2 eq_refl eq_refl eq_refl) as (k & s & S & D & C & G).
  exists [a0; a1; a2], s. split; [exact ch_osm_file|]. split; [intros i; apply EeThms.ex_env_ok|]. split; [exact ch_contents|]. split; [exact Ef|].
  split; [exact (start_reach _ _ _ _ _ _ S)|]. split; [exact D|]. split; [exact C|]. rewrite G. cbn [map concat]. rewrite app_nil_r. exact L.
Qed.

(** C88.  Whatever the schedule, the number of workers and the moment of a cancellation: what a run of
    the tag filter over an OSM file has written when it ends is an OSM file, whoever reads it.  Its
    elements are those of the first [m] blocks of the input (all, if the run was not cancelled),
    filtered; ways, relations and the places of nodes are all right; the tags of nodes are right in
    just those blocks in which no node has a tag whose key is the first string of the block's table. *)
Lemma pC88_filtered_file_exact : forall (R R' : Type) (envs : R -> Z -> zenv) (envs' : R' -> Z -> zenv) r file blocks es bs workers wp rp s,
  osm_file envs file blocks -> (forall i, env_ok (envs r i)) -> Forall2 elements_are blocks es ->
  read_file file = Ok bs -> reachable (tf_cfg (envs r) wp rp) bs workers s -> completed s ->
  exists m out, (m <= List.length es)%nat /\ (s_cancelled s = false -> m = List.length es) /\ tagfilter_writer (s_got s) [] = Ok out /\
    (zlen out < 2^63 -> exists blocks' es', osm_file envs' out blocks' /\ filtered (firstn m es) es' /\ Forall2 written_as blocks' es').
Proof.
  intros R R' envs envs' r file blocks es bs n wp rp s O He El E Re D. destruct (file_filter envs envs' r file blocks es bs n wp rp s O He El E Re D) as (m & out & Hm & Hc & Eo & H).
  exists m, out. split; [exact Hm|]. split; [exact Hc|]. split; [exact Eo|]. intros L. destruct (H L) as (bl & es' & H1 & H2 & H3 & _). exists bl, es'. auto.
Qed.
(** C88, for files without empty tag keys, tag values and roles: the output's elements are the input's, filtered. *)
Lemma pC88_no_empty_strings_partial : forall (R R' : Type) (envs : R -> Z -> zenv) (envs' : R' -> Z -> zenv) r file blocks es bs workers wp rp s,
  osm_file envs file blocks -> (forall i, env_ok (envs r i)) -> Forall2 elements_are blocks es -> Forall no_empty es ->
  read_file file = Ok bs -> reachable (tf_cfg (envs r) wp rp) bs workers s -> completed s ->
  exists m out, (m <= List.length es)%nat /\ (s_cancelled s = false -> m = List.length es) /\ tagfilter_writer (s_got s) [] = Ok out /\
    (zlen out < 2^63 -> exists blocks' es', osm_file envs' out blocks' /\ filtered (firstn m es) es' /\ Forall2 elements_are blocks' es').
Proof.
  intros R R' envs envs' r file blocks es bs n wp rp s O He El NE E Re D. destruct (file_filter envs envs' r file blocks es bs n wp rp s O He El E Re D) as (m & out & Hm & Hc & Eo & H).
  exists m, out. split; [exact Hm|]. split; [exact Hc|]. split; [exact Eo|]. intros L. destruct (H L) as (bl & es' & H1 & H2 & _ & H3). exists bl, es'. auto.
Qed.

(** *** Example: that of C81 *)
Definition fl_e1 : elements_of := mkElements (map back_node ex_tf_nodes) (map back_way [ex_hway']) (map back_rel [ex_hrel']).
Definition fl_e2 : elements_of := mkElements (map back_node [mkNode 8 [] 0 0]) [] [].
Definition fl_blocks : list (option PrimitiveBlock) := [None; Some (HLProofs.block_of ex_tf_nodes [ex_hway'] [ex_hrel']); Some (HLProofs.block_of [mkNode 8 [] 0 0] [] [])].
Lemma fl_block ns ws rs : Forall node_typed ns -> Forall hway_typed ws -> Forall hrel_typed rs -> Forall (fun r => Forall (fun x => 0 <= x) (hr_MemberType r)) rs -> ~ In [] (all_strings ns ws rs) ->
  (exists out, out_blob ns ws rs = Ok out) ->
  stored (mk_block ns ws rs) (Some (HLProofs.block_of ns ws rs)) /\
  elements_are (Some (HLProofs.block_of ns ws rs)) (Some (mkElements (map back_node ns) (map back_way ws) (map back_rel rs))) /\ no_empty (Some (mkElements (map back_node ns) (map back_way ws) (map back_rel rs))).
Proof.
  intros T1 T2 T3 P NE (out & Eo). pose proof (written_small _ _ _ _ _ T1 T2 T3 Eo) as Hs. split; [|split].
  - unfold mk_block. rewrite maps_of by assumption. cbn [bind]. unfold out_blob in Eo. rewrite Eo. split; [reflexivity|]. cbn [blk_Data exact vis]. destruct (built_msg ns ws rs out T1 T2 T3 Eo) as (raw & M1 & M2 & _). exists raw. auto.
  - split; [|split]; cbn [el_nodes el_ways el_relations]; [apply nodes_built; try assumption; apply no_empty_free; [exact NE|lia]|apply ways_built; assumption|apply relations_built; assumption].
  - cbn [no_empty el_nodes el_ways el_relations]. intros X. apply NE. eapply Permutation_in; [|exact X]. apply Permutation_sym, all_perm; assumption.
Qed.
Lemma fl_typed : Forall node_typed ex_tf_nodes /\ Forall node_typed [mkNode 8 [] 0 0] /\ Forall hway_typed [ex_hway'] /\ Forall hrel_typed [ex_hrel'] /\ Forall (fun r => Forall (fun x => 0 <= x) (hr_MemberType r)) [ex_hrel'].
Proof.
  destruct ex_typed as (_ & _ & _ & T2 & T3). split; [|split; [|split; [exact T2|split; [exact T3|]]]].
  - unfold node_typed, tags_typed, ex_tf_nodes. typed_tac; try (apply forallb_bytes; vm_compute; reflexivity).
  - unfold node_typed, tags_typed. typed_tac.
  - apply Forall_cons; [|apply Forall_nil]. cbn. repeat (apply Forall_cons; [lia|]). apply Forall_nil.
Qed.
Lemma fl_out : (exists out, out_blob ex_tf_nodes [ex_hway'] [ex_hrel'] = Ok out) /\ (exists out, out_blob [mkNode 8 [] 0 0] [] [] = Ok out).
Proof. split; eexists; vm_compute; reflexivity. Qed.
Definition fl_bs : list Block := [mkBlk 0 (exact [1; 2]) (bytes_of "OSMHeader"); ex_tf_block; mk_block [mkNode 8 [] 0 0] [] []].
Lemma fl_known : Forall (fun b => known_type (fst b) /\ bytes (snd b) /\ zlen (snd b) < 2^31) (map (fun b => (blk_Type b, vis (blk_Data b))) fl_bs) /\ enc_file (map (fun b => (blk_Type b, vis (blk_Data b))) fl_bs) = Ok ty_file /\ zlen ty_file < 2^63.
Proof.
  split; [|split; vm_compute; reflexivity]. unfold fl_bs. cbn [map]. apply Forall_cons; [|apply Forall_cons; [|apply Forall_cons; [|apply Forall_nil]]]; cbn [fst snd].
  - split; [left; reflexivity|]. split; [EeThms.s64s|reflexivity].
  - split; [right; reflexivity|]. split; [apply bytes_check; vm_compute; reflexivity|vm_compute; reflexivity].
  - split; [right; reflexivity|]. split; [apply bytes_check; vm_compute; reflexivity|vm_compute; reflexivity].
Qed.
Lemma fl_file : osm_file (fun (_ : unit) (_ : Z) => ex_env) ty_file fl_blocks /\ Forall2 elements_are fl_blocks [None; Some fl_e1; Some fl_e2] /\ Forall no_empty [None; Some fl_e1; Some fl_e2].
Proof.
  destruct fl_typed as (T1 & T1' & T2 & T3 & P). destruct fl_out as (O1 & O2). destruct fl_known as (K & E & L).
  destruct (fl_block ex_tf_nodes [ex_hway'] [ex_hrel'] T1 T2 T3 P ltac:(vm_compute; intuition discriminate) O1) as (S1 & E1 & N1).
  destruct (fl_block [mkNode 8 [] 0 0] [] [] T1' ltac:(constructor) ltac:(constructor) ltac:(constructor) ltac:(vm_compute; intuition discriminate) O2) as (S2 & E2 & N2).
  split; [|split].
  - apply (stored_osm _ ty_file fl_bs); [exact (proj2 (enc_file_is _ _ E K))|exact L|apply enc_file_pbf; assumption|].
    unfold fl_bs, fl_blocks. apply Forall2_cons; [reflexivity|]. apply Forall2_cons; [exact S1|]. apply Forall2_cons; [exact S2|apply Forall2_nil].
  - unfold fl_blocks. apply Forall2_cons; [exact I|]. apply Forall2_cons; [exact E1|]. apply Forall2_cons; [exact E2|apply Forall2_nil].
  - apply Forall_cons; [exact I|]. apply Forall_cons; [exact N1|]. apply Forall_cons; [exact N2|apply Forall_nil].
Qed.
Definition fl_in : list HLNode := [mkNode 1 [(bytes_of "highway", [66]); (bytes_of "note", [65])] 300 (-400); mkNode 5 [(bytes_of "tiger:x", [65])] 600 700; mkNode 8 [] 900 1000; mkNode 9 [(bytes_of "name", [67])] 0 100].
Definition fl_out1 : list HLNode := [mkNode 1 [(bytes_of "highway", [66])] 300 (-400); mkNode 9 [(bytes_of "name", [67])] 0 100].
Lemma fl_back : map back_node ex_tf_nodes = fl_in /\ filter_nodes fl_in = fl_out1 /\ map back_node fl_out1 = fl_out1 /\ map back_node [mkNode 8 [] 0 0] = [mkNode 8 [] 0 0] /\ filter_nodes [mkNode 8 [] 0 0] = [] /\
  map back_way (map back_way [ex_hway']) = map back_way [ex_hway'] /\ map back_rel (map back_rel [ex_hrel']) = map back_rel [ex_hrel'].
Proof. repeat split; vm_compute; reflexivity. Qed.
Lemma fl_in_typed : Forall node_typed fl_in /\ Forall hway_typed (map back_way [ex_hway']) /\ Forall hrel_typed (map back_rel [ex_hrel']).
Proof.
  split; [|split].
  - unfold node_typed, tags_typed, fl_in. typed_tac; try (apply forallb_bytes; vm_compute; reflexivity).
  - replace (map back_way [ex_hway']) with [mkHWay (-3) [([97], [98]); ([100], [101])] [5; 2^64 - 1]] by (vm_compute; reflexivity). unfold hway_typed, tags_typed. typed_tac.
  - replace (map back_rel [ex_hrel']) with [ex_hrel'] by (vm_compute; reflexivity). apply fl_typed.
Qed.
Lemma fl_filtered : filtered [None; Some fl_e1; Some fl_e2] [None; Some (mkElements [mkNode 1 [(bytes_of "highway", [66])] 300 (-400); mkNode 9 [(bytes_of "name", [67])] 0 100] (map back_way [ex_hway']) (map back_rel [ex_hrel']))].
Proof.
  destruct fl_back as (B1 & B2 & B3 & B4 & B5 & B6 & B7). destruct fl_in_typed as (T1 & T2 & T3). destruct fl_typed as (_ & T1' & _).
  unfold fl_e1, fl_e2. rewrite B1, B4. pose proof (filter_nodes_interesting _ (typed_maps _ T1)) as I1. pose proof (filter_nodes_interesting _ (typed_maps _ T1')) as I2. rewrite B5 in I2. pose proof (quant_nodes _ (filter_nodes_typed _ T1)) as Q. rewrite B2 in I1, Q. rewrite B3 in Q.
  pose proof (same_ways _ T2) as Q2. pose proof (same_rels _ T3) as Q3. rewrite B6 in Q2. rewrite B7 in Q3.
  apply fil_header. apply (fil_keep _ _ _ fl_out1); [exact I1|exact Q|exact Q2|exact Q3|intros (X & _); discriminate X|apply fil_drop; [exact I2|apply fil_nil]].
Qed.
Lemma fl_len : zlen (cx_file [(bytes_of "OSMHeader", [1; 2]);
     (bytes_of "OSMData", vis (blk_Data (mk_block [mkNode 1 [(bytes_of "highway", [66])] 300 (-400); mkNode 9 [(bytes_of "name", [67])] 0 100] [ex_hway'] [ex_hrel'])))]) < 2^63.
Proof. vm_compute. reflexivity. Qed.
(** The conditions of C88 hold for a run over this file: four nodes, of which two are left, a way, a relation, and a block of which nothing is left. *)
Lemma pC88_ex : exists bs s out, osm_file (fun (_ : unit) (_ : Z) => ex_env) ty_file fl_blocks /\ env_ok ex_env /\ Forall2 elements_are fl_blocks [None; Some fl_e1; Some fl_e2] /\ Forall no_empty [None; Some fl_e1; Some fl_e2] /\
  read_file ty_file = Ok bs /\ reachable (tf_cfg (fun _ => ex_env) (fun _ => false) false) bs 1 s /\ completed s /\ s_cancelled s = false /\ tagfilter_writer (s_got s) [] = Ok out /\ zlen out < 2^63 /\
  filtered [None; Some fl_e1; Some fl_e2] [None; Some (mkElements [mkNode 1 [(bytes_of "highway", [66])] 300 (-400); mkNode 9 [(bytes_of "name", [67])] 0 100] (map back_way [ex_hway']) (map back_rel [ex_hrel']))].
Proof.
  destruct pC81_ex as (bs & s & out & _ & _ & He & E & R & D & C & W & Eo). destruct fl_file as (F1 & F2 & F3). exists bs, s, out. do 9 (split; [assumption|]).
  split; [rewrite Eo; apply fl_len|apply fl_filtered].
Qed.
