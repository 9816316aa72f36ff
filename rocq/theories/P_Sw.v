(** * P_Sw: property theorems (generated from SwThms.v by tools/gen_props.py). *)
From Verif Require Import Base PbModel TModel HLModel FrModel FrSpec ZlModel IoModel IoSpec NiModel WiModel RiModel RwModel TfModel TrModel TmModel PgModel SlModel SwModel SwSpec SwThms.

(** C105.  The output files of decompress, of the first step of relindex, of rewritenodes and of tagfilter, for everything the operating system may answer
    (writes may be partial or fail at any moment) and for all messages: the writer ends, with the whole output in the file or with a panic that says that a call
    failed and an initial part of the output in the file.  It ends normally if the calls succeed (and, for relindex, whose words are written with a single
    call each, writes are not partial).  What the whole output is for rewritenodes and tagfilter, see C34 and C81. *)
Theorem C105_files : forall o,
  (forall msgs, leaves (dc_whole msgs) (writes_progress o /\ calls_succeed o) [IOError; PanicMsg "zero write"] (snd (dc_output o msgs of0))) /\
  (forall msgs, has_words msgs ->
    leaves (ri_whole msgs) (writes_whole o /\ calls_succeed o) [IOError; PanicMsg "torn write"] (snd (ri_output o msgs of0))) /\
  (forall msgs, exists out, rewriter_writer msgs [] = Ok out /\
    leaves out (writes_progress o /\ calls_succeed o) [IOError; PanicMsg "zero write"] (snd (rw_output o msgs of0))) /\
  (forall msgs, exists out, tagfilter_writer msgs [] = Ok out /\
    leaves out (writes_progress o /\ calls_succeed o) [IOError; PanicMsg "zero write"] (snd (tf_output o msgs of0))).
Proof. exact pC105_files. Qed.
Print Assumptions C105_files.

(** C105.  The messages of the relation index workers have words (a file with blocks of other types is refused, C35). *)
Theorem C105_has_words : forall inBlocks msgs, mapm (fun b => ri_worker (fst b) (snd b)) inBlocks = Ok msgs ->
  Forall (fun b => known_type (blk_Type (snd b))) inBlocks -> has_words msgs.
Proof. exact pC105_has_words. Qed.
Print Assumptions C105_has_words.

(** An example: writes of at most five bytes, and the seventh call fails. *)
Example C105_ex :
  let o := mkOS (fun k n => (5, Nat.eqb k 7)) (fun _ => (1, NoErr)) (fun _ => false) (fun _ => false) in
  let msgs := [mkBlk 0 (exact [1; 2; 3]) (bytes_of "OSMHeader"); mkBlk 1 (exact []) tFiller; mkBlk 2 (exact [4; 5; 6; 7; 8; 9]) tOSMData] in
  let out := [0; 0; 0; 13; 10; 9] ++ bytes_of "OSMHeader" ++ [24; 3; 1; 2; 3; 0; 0; 0; 11; 10; 7] ++ bytes_of "OSMData" ++ [24; 6; 4; 5; 6; 7; 8; 9] in
  tagfilter_writer msgs [] = Ok out /\
  (exists hdr k, snd (tf_output o msgs of0) = (mkOfile k (mkFile (firstn 30 out) 30) hdr, Panic IOError)) /\
  writes_progress (mkOS (fun k n => (5, false)) (fun _ => (1, NoErr)) (fun _ => false) (fun _ => false)).
Proof. exact pC105_ex. Qed.
