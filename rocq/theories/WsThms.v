(** * WsThms: conformance with osmformat.proto and fileformat.proto. *)
From Verif Require Import Base PbSpec TModel TSpec WsSpec.
From Verif Require Import BaseLemmas PbModel PbProofs PbProofs2 TProofs TMsg TMsg2 WsProofs WsRead WsWrite.

(** Reading a way, a relation, dense nodes or a string table gives the data that the schema
    defines, whatever the order of the fields, the repetition of scalar fields and the width of
    the varints.  Partial: known fields only, packed, in one piece ([plain]). *)
Lemma pC82_read_elements_partial :
  (forall p w e, way_msg p w -> zlen p < 2^63 -> ReadWay (mkslice p e) Way0 = Ok w) /\
  (forall p r e, relation_msg p r -> zlen p < 2^63 -> ReadRelation (mkslice p e) Relation0 = Ok r) /\
  (forall p d e, dense_msg p d -> zlen p < 2^63 ->
     exists d', ReadDenseNodes (mkslice p e) DenseNodes0 = Ok d' /\ same_dense d d') /\
  (forall p st e, strings_msg p st -> zlen p < 2^63 -> ReadStringTable (mkslice p e) [] = Ok st).
Proof.
  split; [|split; [|split]].
  - intros p w e. apply way_read.
  - intros p r e. apply relation_read.
  - intros p d e H Hl. exists (strip d). split; [apply dense_read; assumption|repeat split].
  - intros p st e. apply strings_read.
Qed.

(** The same for primitive groups and blocks, for every choice of sections to skip. *)
Lemma pC82_read_block_partial : forall pbr,
  (forall p g e, group_msg pbr p g -> zlen p < 2^63 ->
     exists g', ReadPrimitiveGroup pbr (mkslice p e) PrimitiveGroup0 = Ok g' /\ same_group g g') /\
  (forall p b e, block_msg pbr p b -> zlen p < 2^63 ->
     exists b', ReadPrimitiveBlock pbr (mkslice p e) PrimitiveBlock0 = Ok b' /\ same_block b b').
Proof.
  intros pbr. split.
  - intros p g e (fs & M & P & G) Hl. exists (gout pbr fs). destruct (group_fold pbr p fs g M Hl P G) as [A B]. split; [apply A|exact B].
  - intros p b e. apply block_read.
Qed.

(** The same for the blob header and the blob of fileformat.proto. *)
Lemma pC82_read_blob_partial :
  (forall p h e, header_msg p h -> zlen p < 2^63 -> ReadBlobHeader (mkslice p e) = Ok h) /\
  (forall p raw size zlib e, blob_msg p raw size zlib -> zlen p < 2^63 ->
     exists b, ReadBlob (mkslice p e) Blob0 = Ok b /\ option_map vis (blob_Raw b) = raw /\
       blob_RawSize b = size /\ blob_ZLibData b = zlib).
Proof.
  split; [intros p h e; apply header_read|]. intros p raw size zlib e H Hl.
  destruct (blob_read p raw size zlib e H Hl) as (b & A & B & C & D & _). exists b. auto.
Qed.

(** What [plain] excludes is indeed not read as the schema says.  A way whose packed refs come
    in two pieces loses the first; unpacked refs, a field of a later version of the schema (the
    lat/lon of a way), non-dense nodes, the index data of a blob header and other compressions
    make the reader panic. *)
Lemma pC82_read_refuted :
  (exists fs p w, message p fs /\ way_of fs w /\ exists w', ReadWay (mkslice p []) Way0 = Ok w' /\ way_Refs w' <> way_Refs w) /\
  (exists fs p w, message p fs /\ way_of fs w /\ exists c, ReadWay (mkslice p []) Way0 = Panic c) /\
  (exists fs p w, message p fs /\ way_of fs w /\ elements 8 fs = [] /\ chunks 9 fs <> [] /\ exists c, ReadWay (mkslice p []) Way0 = Panic c) /\
  (exists fs p, message p fs /\ chunks 1 fs <> [] /\ exists c, ReadPrimitiveGroup (mkReader false false false false) (mkslice p []) PrimitiveGroup0 = Panic c) /\
  (exists fs p h, message p fs /\ header_of fs h /\ chunks 2 fs <> [] /\ exists c, ReadBlobHeader (mkslice p []) = Panic c) /\
  (exists fs p, message p fs /\ chunks 4 fs <> [] /\ exists c, ReadBlob (mkslice p []) Blob0 = Panic c).
Proof.
  assert (V : forall v bs, (match bs with [a] => (0 <=? a) && (a <? 128) && (a =? v) | _ => false end) = true -> varint_of v bs).
  { intros v bs H. destruct bs as [|a [|b bs]]; try discriminate. apply andb_true_iff in H as [H H2]. apply andb_true_iff in H as [H0 H1].
    split; [cbn; lia|]. split; [cbn; lia|]. cbn. rewrite Z.mod_small by lia. lia. }
  assert (ok : forall f, (match f with
     | PV n [k] [v] => (1 <=? n) && (n <? 16) && (k =? 8 * n) && (0 <=? v) && (v <? 128)
     | PB n [k] [l] p => (1 <=? n) && (n <? 16) && (k =? 8 * n + 2) && (l =? zlen p) && (l <? 128) && forallb (fun b => (0 <=? b) && (b <? 256)) p
     | _ => false end) = true -> pb_ok f).
  { intros [n k v|n k l p] H.
    - destruct k as [|k [|]]; try discriminate. destruct v as [|v [|]]; try discriminate. rewrite !andb_true_iff in H.
      split; [lia|]. split; [apply V; lia|]. cbn [leb_value]. apply V. rewrite Z.mod_small by lia. lia.
    - destruct k as [|k [|]]; try discriminate. destruct l as [|l [|]]; try discriminate. rewrite !andb_true_iff in H. destruct H as [H Hb].
      pose proof (zlen_nonneg p). split; [lia|]. split; [apply V; lia|]. split; [apply V; lia|].
      rewrite forallb_forall in Hb. apply Forall_forall. intros b Hin. specialize (Hb b Hin). unfold is_u8. lia. }
  assert (S0 : forall p, Forall (fun b => 0 <= b < 128) p -> sequence_of p p).
  { intros p F. exists (map (fun b => [b]) p). split; [induction p; [reflexivity|]; inversion F; subst; cbn; f_equal; auto|].
    induction F as [|b p H F IH]; [constructor|]. cbn [map]. constructor; [apply V; lia|exact IH]. }
  split; [|split; [|split; [|split; [|split]]]].
  - exists [PV 1 [8] [5]; PB 8 [66] [1] [2]; PB 8 [66] [1] [4]]. eexists. exists (mkWay 5 [] [] [1; 3]).
    split; [split; [reflexivity|repeat (apply Forall_cons; [apply ok; reflexivity|]); apply Forall_nil]|]. split.
    + split; [split; [unfold is_s64; cbn; lia|reflexivity]|]. split; [exists []; split; [apply S0; constructor|constructor]|]. split; [exists []; split; [apply S0; constructor|constructor]|].
      exists [2; 4], [1; 2]. split; [apply S0; repeat constructor; lia|]. split; [repeat constructor|reflexivity].
    + eexists. split; [vm_compute; reflexivity|]. vm_compute. discriminate.
  - exists [PV 1 [8] [5]; PV 8 [64] [2]]. eexists. exists (mkWay 5 [] [] [1]).
    split; [split; [reflexivity|repeat (apply Forall_cons; [apply ok; reflexivity|]); apply Forall_nil]|]. split.
    + split; [split; [unfold is_s64; cbn; lia|reflexivity]|]. split; [exists []; split; [apply S0; constructor|constructor]|]. split; [exists []; split; [apply S0; constructor|constructor]|].
      exists [2], [1]. split; [apply S0; repeat constructor; lia|]. split; [repeat constructor|reflexivity].
    + eexists. vm_compute. reflexivity.
  - exists [PV 1 [8] [5]; PB 9 [74] [1] [2]]. eexists. exists (mkWay 5 [] [] []).
    split; [split; [reflexivity|repeat (apply Forall_cons; [apply ok; reflexivity|]); apply Forall_nil]|]. split.
    + split; [split; [unfold is_s64; cbn; lia|reflexivity]|]. split; [exists []; split; [apply S0; constructor|constructor]|]. split; [exists []; split; [apply S0; constructor|constructor]|].
      exists [], []. split; [apply S0; constructor|]. split; [constructor|reflexivity].
    + split; [reflexivity|]. split; [discriminate|]. eexists. vm_compute. reflexivity.
  - exists [PB 1 [10] [2] [8; 5]]. eexists. split; [split; [reflexivity|repeat (apply Forall_cons; [apply ok; reflexivity|]); apply Forall_nil]|]. split; [discriminate|]. eexists. vm_compute. reflexivity.
  - exists [PB 1 [10] [7] [79; 83; 77; 68; 97; 116; 97]; PB 2 [18] [1] [0]; PV 3 [24] [9]]. eexists. exists (mkBlobHeader [79; 83; 77; 68; 97; 116; 97] 9).
    split; [split; [reflexivity|repeat (apply Forall_cons; [apply ok; reflexivity|]); apply Forall_nil]|]. split; [split; [reflexivity|split; [unfold is_s32; cbn; lia|reflexivity]]|]. split; [discriminate|]. eexists. vm_compute. reflexivity.
  - exists [PV 2 [16] [9]; PB 4 [34] [1] [0]]. eexists. split; [split; [reflexivity|repeat (apply Forall_cons; [apply ok; reflexivity|]); apply Forall_nil]|]. split; [discriminate|]. eexists. vm_compute. reflexivity.
Qed.

Lemma vof_check v bs : is_varint bs /\ (List.length bs <= 10)%nat -> v = leb_value bs /\ v < 2^64 -> varint_of v bs.
Proof. intros [A B] [-> D]. repeat split; assumption. Qed.
Ltac vo := apply vof_check; [cbn; lia|split; vm_compute; reflexivity].
(** A way with the refs before the id, an id given twice, author information, and a key and
    an id with more bytes than necessary. *)
Lemma pC82_read_ex :
  way_msg [66; 3; 128 + 2; 0; 4;  34; 1; 77;  8; 9;  136; 0; 133; 128; 0;  18; 1; 6;  26; 1; 7]
          (mkWay 5 [6] [7] [1; 3]).
Proof.
  exists [PB 8 [66] [3] [128 + 2; 0; 4]; PB 4 [34] [1] [77]; PV 1 [8] [9]; PV 1 [136; 0] [133; 128; 0]; PB 2 [18] [1] [6]; PB 3 [26] [1] [7]].
  split; [split; [reflexivity|]|split; [split|]].
  - assert (B : bytes [130; 0; 4] /\ bytes [77] /\ bytes [6] /\ bytes [7]) by (repeat split; repeat (apply Forall_cons; [unfold is_u8; lia|]); apply Forall_nil).
    destruct B as (B1 & B2 & B3 & B4).
    repeat (apply Forall_cons; [unfold pb_ok; split; [lia|]; split; [vo|]; first [vo | split; [vo|assumption]]|]); apply Forall_nil.
  - repeat (apply Forall_cons; [cbn; tauto|]); apply Forall_nil.
  - repeat (apply Forall_cons; [vm_compute; discriminate|]); apply Forall_nil.
  - split; [|split; [|split]].
    + split; [unfold is_s64; cbn; lia|reflexivity].
    + exists [6]. split; [exists [[6]]; split; [reflexivity|constructor; [vo|constructor]]|repeat constructor].
    + exists [7]. split; [exists [[7]]; split; [reflexivity|constructor; [vo|constructor]]|repeat constructor].
    + exists [2; 4], [1; 2]. split; [exists [[130; 0]; [4]]; split; [reflexivity|]|split; [repeat constructor|reflexivity]].
      constructor; [vo|]. constructor; [vo|constructor].
Qed.

(** What the writers append for a way, a relation, dense nodes or a string table is a message
    of the schema with that data. *)
Lemma pC83_write_elements :
  (forall w buf out, way_typed w -> Way_Write w buf = Ok out -> exists p, out = buf ++ p /\ way_msg p w) /\
  (forall r buf out, relation_typed r -> Relation_Write r buf = Ok out -> exists p, out = buf ++ p /\ relation_msg p r) /\
  (forall d buf out, dense_typed d -> DenseNodes_Write d buf = Ok out -> exists p, out = buf ++ p /\ dense_msg p d) /\
  (forall st buf out, Forall bytes st -> StringTable_Write st buf = Ok out -> zlen out < 2^63 -> exists p, out = buf ++ p /\ strings_msg p st).
Proof.
  split; [|split; [|split]].
  - intros w buf out T H. apply Way_Write_app in H as [F ->]. eexists. split; [reflexivity|apply way_w; assumption].
  - intros w buf out T H. apply Relation_Write_app in H as [F ->]. eexists. split; [reflexivity|apply relation_w; assumption].
  - intros w buf out T H. apply DenseNodes_Write_app in H as [F ->]. eexists. split; [reflexivity|apply dense_w; assumption].
  - intros st buf out T H Hl. apply StringTable_Write_app in H as [_ ->]. eexists. split; [reflexivity|]. apply strings_w; [assumption|].
    unfold st_enc. rewrite zlen_app in Hl. pose proof (zlen_nonneg buf). lia.
Qed.

(** The same for primitive groups and blocks; a section that is kept as raw bytes is written
    as these bytes. *)
Lemma pC83_write_block : forall pbr,
  (forall g buf out, group_typed g -> group_form pbr g -> PrimitiveGroup_Write g buf = Ok out -> zlen out < 2^63 ->
     exists p, out = buf ++ p /\ group_msg pbr p g) /\
  (forall b buf out, block_typed b -> block_form pbr b -> PrimitiveBlock_Write b buf = Ok out -> zlen out < 2^63 ->
     exists p, out = buf ++ p /\ block_msg pbr p b).
Proof.
  intros pbr. split.
  - intros g buf out T G H Hl. apply PrimitiveGroup_Write_app in H as [F ->]. eexists. split; [reflexivity|]. apply group_w; try assumption.
    rewrite zlen_app in Hl. pose proof (zlen_nonneg buf). lia.
  - intros g buf out T G H Hl. apply PrimitiveBlock_Write_app in H as [F ->]. eexists. split; [reflexivity|]. apply block_w; try assumption.
    rewrite zlen_app in Hl. pose proof (zlen_nonneg buf). lia.
Qed.

(** The same for the blob header and the blob; empty raw or compressed data is left out. *)
Lemma pC83_write_blob :
  (forall h buf, bytes (bh_Type h) -> is_s32 (bh_DataSize h) -> zlen (BlobHeader_Write h buf) < 2^63 ->
     exists p, BlobHeader_Write h buf = buf ++ p /\ header_msg p h) /\
  (forall raw size zlib buf out,
     (forall r, raw = Some r -> bytes (vis r)) -> (forall n, size = Some n -> is_s32 n) -> (forall z, zlib = Some z -> bytes z) ->
     Blob_Write (mkBlob raw size zlib None) buf = Ok out -> zlen out < 2^63 ->
     exists p, out = buf ++ p /\
       blob_msg p (match raw with Some r => if 0 <? slen r then Some (vis r) else None | None => None end) size
                  (match zlib with Some z => if 0 <? zlen z then Some z else None | None => None end)) /\
  (forall b size buf out, block_typed b -> is_s32 size ->
     Blob_Write (mkBlob None (Some size) None (Some (PrimitiveBlock_Write b))) buf = Ok out -> zlen out < 2^63 ->
     forall pbr, block_form pbr b -> exists p raw, out = buf ++ p /\ block_msg pbr raw b /\ blob_msg p (Some raw) (Some size) None).
Proof.
  split; [|split].
  - intros h buf T1 T2 Hl. rewrite BlobHeader_Write_eq in *. eexists. split; [reflexivity|]. apply header_w; try assumption.
    rewrite zlen_app in Hl. pose proof (zlen_nonneg buf). lia.
  - intros raw size zlib buf out T1 T2 T3 H Hl. apply Blob_Write_app in H as [_ ->]; [|reflexivity]. exists (blob_enc (mkBlob raw size zlib None)). split; [reflexivity|].
    rewrite zlen_app in Hl. pose proof (zlen_nonneg buf). unfold blob_enc in *. rewrite !zlen_app in Hl.
    set (praw := blob_raw_part (mkBlob raw size zlib None)) in *.
    set (r' := match raw with Some r => if 0 <? slen r then Some (venc (u64 (zlen (vis r))), vis r) else None | None => None end).
    assert (E : match raw with Some r => if 0 <? slen r then Some (vis r) else None | None => None end = option_map snd r').
    { unfold r'. destruct raw as [r|]; [|reflexivity]. destruct (0 <? slen r); reflexivity. }
    rewrite E. apply (blob_w praw r' size zlib); try assumption.
    + unfold praw, r', blob_raw_part in *. cbn [blob_Raw] in *. destruct raw as [r|]; [|apply msg_nil]. destruct (0 <? slen r); [|apply msg_nil]. cbn [fst snd].
      apply msg_idbuf; [idr|apply T1; reflexivity|]. pose proof (id_buffer_len blobRaw (vis r)).
      match type of Hl with _ + (_ + (?a + ?b)) < _ => assert (0 <= a /\ 0 <= b) by (split; apply zlen_nonneg) end. lia.
    + intros z ->. unfold blob_zlib_part in Hl. cbn [blob_ZLibData] in Hl. pose proof (zlen_nonneg praw). pose proof (zlen_nonneg (blob_size_part (mkBlob raw size (Some z) None))).
      destruct (Z.ltb_spec 0 (zlen z)); [|lia]. pose proof (id_buffer_len blobZLibData z). lia.
  - intros b size buf out T1 T2 H Hl pbr G.
    apply (Blob_Write_func_app _ (PrimitiveBlock_Write b) (block_fits b) (block_enc b)) in H as [[F Fl] ->]; [|reflexivity|apply PrimitiveBlock_Write_app].
    eexists _, (block_enc b). split; [reflexivity|]. split; [apply block_w; try assumption; lia|].
    apply (blob_w (fixed_field 4 blobRaw (block_enc b)) (Some (leb_fixed 4 (zlen (block_enc b)), block_enc b)) (Some size) None).
    + intros n E. injection E as <-. exact T2.
    + discriminate.
    + apply (msg_fixed 3); [idr|lia|exact Fl|apply block_bytes; assumption].
    + discriminate.
Qed.

(** A block with a way and granularity 200 satisfies the hypotheses. *)
Lemma pC83_write_ex : let b := mkBlock None (Some [[]; [97]]) [mkGroup None None (Some [mkWay 5 [1] [1] [1; 3; -2]]) [] None []] 200 1000 0 (-7) in
  block_typed b /\ block_form (mkReader false false false false) b /\ exists out, PrimitiveBlock_Write b [1; 2] = Ok out /\ zlen out < 100.
Proof.
  cbv zeta. split; [|split].
  - unfold block_typed; cbn [pblk_StringTable pblk_StringTableRaw pblk_PrimitiveGroup pblk_Granularity pblk_DateGranularity pblk_LatOffset pblk_LonOffset].
    split; [intros st E; injection E as <-; repeat constructor; unfold is_u8; lia|]. split; [discriminate|]. split; [|unfold is_s32, is_s64; lia].
    constructor; [|constructor]. unfold group_typed; cbn [pg_Dense pg_RawDense pg_Ways pg_RawWays pg_Relations pg_RawRelations].
    split; [discriminate|]. split; [discriminate|]. split; [intros ws E; injection E as <-; constructor; [|constructor]|].
    + unfold way_typed; cbn. repeat split; try (repeat constructor; unfold is_u32, is_s64); lia.
    + split; [constructor|]. split; [discriminate|constructor].
  - repeat constructor.
  - eexists. split; [vm_compute; reflexivity|]. vm_compute. reflexivity.
Qed.
