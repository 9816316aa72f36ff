(** * FrModel: file framing (internal/pbf/process.go) and the framing writers. *)
From Verif Require Import Base PbModel TModel HLModel.

(** internal/pbf/process.go:13-17 [Block]; [Data] is the byte slice (a sub-slice of the
    mapped file, or bytes produced by a worker). *)
Record Block : Type := mkBlk { blk_Index : Z; blk_Data : slice; blk_Type : list Z }.

Definition tOSMHeader : list Z := bytes_of "OSMHeader".
Definition tOSMData : list Z := bytes_of "OSMData".
Definition tFiller : list Z := bytes_of "Filler".

(** encoding/binary BigEndian.Uint32 and PutUint32: panic when the slice has fewer
    than four elements. *)
Definition be32_get (b : list Z) : res Z :=
  match b with
  | b0 :: b1 :: b2 :: b3 :: _ => Ok (b3 + 2^8 * b2 + 2^16 * b1 + 2^24 * b0)
  | _ => Panic IndexOutOfRange
  end.
Definition be32_bytes (v : Z) : list Z :=
  [u8 (Z.shiftr v 24); u8 (Z.shiftr v 16); u8 (Z.shiftr v 8); u8 v].
Definition be32_put (b : list Z) (v : Z) : res (list Z) :=
  match b with
  | _ :: _ :: _ :: _ :: r => Ok (be32_bytes v ++ r)
  | _ => Panic IndexOutOfRange
  end.

(** internal/pbf/process.go:106-134, the reader loop without the send: one iteration
    gives the block's type, its data and the new [pfs.at].  [inputBuffer] is a mapped
    file, its capacity is its length. *)
Definition read_frame (file : list Z) (at_ : Z) : res (list Z * slice * Z) :=
  let inputBuffer := exact file in
  h <- sslice inputBuffer at_ (zlen file) ;;
  blobHeaderSize <- be32_get (vis h) ;;
  let at_ := u64 (at_ + 4) in
  hb <- sslice inputBuffer at_ (u64 (at_ + blobHeaderSize)) ;;
  bh <- ReadBlobHeader hb ;;
  let at_ := u64 (at_ + blobHeaderSize) in
  if negb (seqb (bh_Type bh) tOSMHeader) && negb (seqb (bh_Type bh) tOSMData)
  then Panic (PanicMsg "bh.Type")
  else
    data <- sslice inputBuffer at_ (u64 (at_ + u64 (bh_DataSize bh))) ;;
    Ok (bh_Type bh, data, u64 (at_ + u64 (bh_DataSize bh))).

(** The whole loop when no send is interrupted: all the blocks in file order. *)
Definition file_state : Type := (Z * Z * list Block)%type.   (* at, blobIndex, sent *)
Definition file_cond (file : list Z) (s : file_state) : bool :=
  let '(at_, _, _) := s in at_ <? zlen file.
Definition file_body (file : list Z) (s : file_state) : res file_state :=
  let '(at_, blobIndex, sent) := s in
  '(ty, data, at_) <- read_frame file at_ ;;
  Ok (at_, u64 (blobIndex + 1), sent ++ [mkBlk blobIndex data ty]).
Definition read_file (file : list Z) : res (list Block) :=
  '(_, _, sent) <- loop (S (List.length file)) (file_cond file) (file_body file) (0, 0, []) ;;
  Ok sent.

(** cmd/tagfilter/tagfilterer/tagfilterer_writer.go:24-47 and
    cmd/rewritenodes/rewriter/noderewriter_writer.go (same code without the Filler
    test): the bytes written for one block.  [blobHeaderBuf] is the reused header
    buffer; [blobHeaderBuf[:4]] keeps whatever its first four bytes are. *)
Definition write_frame (hdr4 : list Z) (ty blobBuf : list Z) : res (list Z) :=
  let bh := mkBlobHeader ty (s32 (zlen blobBuf)) in
  let blobHeaderBuf := BlobHeader_Write bh hdr4 in
  blobHeaderBuf <- be32_put blobHeaderBuf (u32 (zlen blobHeaderBuf - 4)) ;;
  Ok (blobHeaderBuf ++ blobBuf).

(** The writer loops: what ends up in the output file for the received blocks.
    [blobHeaderBuf] starts as make([]byte, 0, 64), whose first four bytes are zero;
    afterwards they are those of the previous header.  [skip_filler] is true for the
    tag filter. *)
Fixpoint write_blocks (skip_filler : bool) (hdr4 : list Z) (bs : list Block) (file : list Z)
  : res (list Z) :=
  match bs with
  | [] => Ok file
  | b :: r =>
      if skip_filler && seqb (blk_Type b) tFiller then write_blocks skip_filler hdr4 r file
      else
        out <- write_frame hdr4 (blk_Type b) (vis (blk_Data b)) ;;
        write_blocks skip_filler (firstn 4 out) r (file ++ out)
  end.
Definition zero4 : list Z := [0; 0; 0; 0].
Definition tagfilter_writer := write_blocks true zero4.
Definition rewriter_writer := write_blocks false zero4.
