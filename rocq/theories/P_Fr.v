(** * P_Fr: property theorems (generated from FrThms.v by tools/gen_props.py). *)
From Verif Require Import Base BaseLemmas PbModel PbSpec PbProofs PbProofs2 TModel TSpec TProofs TMsg TMsg2 HLModel HLProofs FrModel FrSpec FrProofs FrThms.

(** C34, splitting: a file of framed blobs is split into exactly those blobs, numbered
    in order. *)
Theorem C34_split : forall file blobs,
  bytes file -> zlen file < 2^63 -> is_file file blobs -> Forall (fun b => known_type (fst b)) blobs ->
  exists bs, read_file file = Ok bs /\ map seen bs = numbered blobs.
Proof. exact pC34_split. Qed.
Print Assumptions C34_split.

(** C34, writing: for every sequence of blocks (of types OSMHeader or OSMData, with less
    than 2^31 bytes each) the file written by the rewriter's writer is read back as the
    same sequence, renumbered in order; what the blocks' memory holds beyond their
    length does not matter. *)
Theorem C34_rewriter_writer : forall bs,
  Forall (fun b => known_type (blk_Type b) /\ bytes (vis (blk_Data b)) /\ zlen (vis (blk_Data b)) < 2^31) bs ->
  exists file, rewriter_writer bs [] = Ok file /\
    is_file file (map (fun b => (blk_Type b, vis (blk_Data b))) bs) /\
    (zlen file < 2^63 -> exists bs', read_file file = Ok bs' /\
       map seen bs' = numbered (map (fun b => (blk_Type b, vis (blk_Data b))) bs)).
Proof. exact pC34_rewriter_writer. Qed.
Print Assumptions C34_rewriter_writer.

(** C34, writing: the same for the tag filter's writer, which leaves out fillers. *)
Theorem C34_tagfilter_writer : forall bs,
  Forall (fun b => (known_type (blk_Type b) \/ blk_Type b = bytes_of "Filler") /\
                   bytes (vis (blk_Data b)) /\ zlen (vis (blk_Data b)) < 2^31) bs ->
  let kept := map (fun b => (blk_Type b, vis (blk_Data b)))
                (filter (fun b => negb (seqb (blk_Type b) (bytes_of "Filler"))) bs) in
  exists file, tagfilter_writer bs [] = Ok file /\ is_file file kept /\
    (zlen file < 2^63 -> exists bs', read_file file = Ok bs' /\ map seen bs' = numbered kept).
Proof. exact pC34_tagfilter_writer. Qed.
Print Assumptions C34_tagfilter_writer.

Example C34_ex :
  let bs := [mkBlk 7 (exact [1; 2]) (bytes_of "OSMHeader"); mkBlk 7 (mkslice [] [3]) (bytes_of "OSMData");
             mkBlk 0 (mkslice [3] [4; 5]) (bytes_of "OSMData")] in
  Forall (fun b => known_type (blk_Type b) /\ bytes (vis (blk_Data b)) /\ zlen (vis (blk_Data b)) < 2^31) bs /\
  exists file, rewriter_writer bs [] = Ok file /\ zlen file < 2^63 /\
    (bs' <- read_file file ;; Ok (map seen bs')) =
      Ok [(0, (bytes_of "OSMHeader", [1; 2])); (1, (bytes_of "OSMData", [])); (2, (bytes_of "OSMData", [3]))].
Proof. exact pC34_ex. Qed.

(** C35.  For every file: splitting it terminates; if it does not panic, the blocks
    account for every byte of the file, in order, and have known types. *)
Theorem C35_total_and_exact : forall file, bytes file -> zlen file < 2^63 ->
  read_file file <> Diverge /\
  forall bs, read_file file = Ok bs ->
    exists blobs, covers file blobs /\ map seen bs = numbered blobs.
Proof. exact pC35_total_and_exact. Qed.
Print Assumptions C35_total_and_exact.

(** C35.  A file of frames cut off anywhere: either the cut is between two frames, and
    exactly the blobs before it are delivered, or the splitter panics. *)
Theorem C35_truncation : forall file blobs k,
  bytes file -> zlen file < 2^63 -> is_file file blobs ->
  (exists m, read_file (firstn k file) = Panic m) \/
  (exists bs n, read_file (firstn k file) = Ok bs /\ is_file (firstn k file) (firstn n blobs) /\
                map seen bs = numbered (firstn n blobs)).
Proof. exact pC35_truncation. Qed.
Print Assumptions C35_truncation.

(** C35.  A frame whose type is neither OSMHeader nor OSMData is rejected, wherever it
    is in the file. *)
Theorem C35_unknown_type : forall file blobs,
  bytes file -> zlen file < 2^63 -> is_file file blobs -> ~ Forall (fun b => known_type (fst b)) blobs ->
  exists m, read_file file = Panic m.
Proof. exact pC35_unknown_type. Qed.
Print Assumptions C35_unknown_type.

Example C35_ex :
  let file := [0; 0; 0; 13; 10; 9] ++ bytes_of "OSMHeader" ++ [24; 2; 7; 8] in
  bytes file /\ is_file file [(bytes_of "OSMHeader", [7; 8])] /\
  (bs <- read_file file ;; Ok (map seen bs)) = Ok [(0, (bytes_of "OSMHeader", [7; 8]))] /\
  read_file (firstn 18 file) = Panic SliceOutOfRange /\ read_file (firstn 3 file) = Panic IndexOutOfRange /\
  read_file ([0; 0; 0; 7; 10; 3] ++ bytes_of "FOO" ++ [24; 0]) = Panic (PanicMsg "bh.Type").
Proof. exact pC35_ex. Qed.
