(** * ZlModel: buffer pool (internal/pool/bytebuffer.go), blob decompression
    (internal/t/blob.go) and the decompress tool (cmd/decompress). *)
From Verif Require Import Base PbModel TModel HLModel FrModel.

(** ** blob.go: decodeZLib, GetRawData

    The environment of one call: whether zlib.NewReader accepts the stream header, what
    the zlib reader has to deliver, and the memory of the buffer the pool hands out.

    [ze_reads] is a list of segments: a Read into [n] bytes of space delivers the first
    segment with its error flag if it fits, otherwise its first [n] bytes without error
    and keeps the rest; after the last segment it delivers nothing and io.EOF.  A segment
    may be empty, so short and empty reads with or without error are covered. *)
Record zenv : Type := mkZenv
  { ze_open : bool; ze_reads : list (list Z * bool); ze_pooled : list Z }.

(** io.Reader.Read(p) with len(p) = [n]: bytes delivered, err != nil, reader afterwards. *)
Definition zread (evs : list (list Z * bool)) (n : Z) : list Z * bool * list (list Z * bool) :=
  match evs with
  | [] => ([], true, [])
  | (seg, err) :: r =>
      if zlen seg <=? n then (seg, err, r)
      else (firstn (Z.to_nat n) seg, false, (skipn (Z.to_nat n) seg, err) :: r)
  end.

(** internal/pool/bytebuffer.go:27-43 [Get], the buffer returned when sync.Pool gives
    (or its New function makes) a slice with memory [pooled]. *)
Definition pool_get (pooled : list Z) (sz : Z) : res slice :=
  let buf := if zlen pooled <? s64 sz then repeat 0 (Z.to_nat sz) else pooled in
  sslice (exact buf) 0 sz.

(** overwrite [l] from position [i] with [c] *)
Definition blit (l : list Z) (i : Z) (c : list Z) : list Z :=
  firstn (Z.to_nat i) l ++ c ++ skipn (Z.to_nat i + List.length c) l.

(** internal/t/blob.go:79-94, the loop.  [mem] is the memory of outBuf up to its
    capacity. State: remaining, start, mem, reader. *)
Definition zl_state : Type := (Z * Z * list Z * list (list Z * bool))%type.
Definition zl_cond (s : zl_state) : bool := let '(remaining, _, _, _) := s in 0 <? remaining.
Definition zl_body (s : zl_state) : res zl_state :=
  let '(remaining, start, mem, evs) := s in
  remainingBuffer <- sslice (exact mem) start (zlen mem) ;;
  let '(chunk, err, evs) := zread evs (slen remainingBuffer) in
  let mem := blit mem start chunk in
  let remaining := remaining - zlen chunk in
  let start := start + zlen chunk in
  if remaining =? 0 then Ok (0, start, mem, evs)   (* return borrowedBuffer *)
  else if (err : bool) then Panic IOError
  else Ok (remaining, start, mem, evs).

(** internal/t/blob.go:69-95 [decodeZLib] (and the *b.RawSize dereference). *)
Definition zl_fuel (evs : list (list Z * bool)) : nat :=
  S (List.length evs + List.length (concat (map fst evs))).
Definition decodeZLib (env : zenv) (RawSize : option Z) : res slice :=
  if negb (ze_open env) then Panic IOError
  else match RawSize with
       | None => Panic NilDeref
       | Some n =>
           outBuf <- pool_get (ze_pooled env) (u64 n) ;;
           '(_, _, mem, _) <- loop (zl_fuel (ze_reads env)) zl_cond zl_body
                                (n, 0, vis outBuf ++ ext outBuf, ze_reads env) ;;
           sslice (exact mem) 0 (slen outBuf)
       end.

(** internal/t/blob.go:59-67 [GetRawData] *)
Definition GetRawData (env : zenv) (b : Blob) : res slice :=
  match blob_Raw b with
  | Some raw => Ok raw
  | None => match blob_ZLibData b with
            | Some _ => decodeZLib env (blob_RawSize b)
            | None => Panic (PanicMsg "unexpected compression")
            end
  end.

(** ** cmd/decompress

    cmd/decompress/decompressor/decompressor_worker.go:22-55: the bytes sent for one
    block. *)
Definition decompress_block (env : zenv) (obh : Block) : res (list Z) :=
  b <- ReadBlob (blk_Data obh) Blob0 ;;
  decompData <- GetRawData env b ;;
  blobBuffer <- Blob_Write (mkBlob (Some decompData) None None None) [] ;;
  write_frame zero4 (blk_Type obh) blobBuffer.

(** The whole tool: reader, workers in any schedule (C37: same as in order), writer
    (decompressor_writer.go:12-26) appending each block's bytes.  [envs i] is the
    environment in which block [i] is decompressed. *)
Definition decompress (envs : Z -> zenv) (file : list Z) : res (list Z) :=
  bs <- read_file file ;;
  outs <- mapm (fun b => decompress_block (envs (blk_Index b)) b) bs ;;
  Ok (concat outs).

(** ** pool/bytebuffer.go as a state machine

    A buffer's storage is identified by a number (its backing array) and has a capacity.
    [ps_free] is what sync.Pool currently holds; [ps_next] is the next backing array the
    allocator hands out. *)
Record storage : Type := mkStorage { st_id : nat; st_cap : Z }.
(** bytebuffer.go:58-61; the contents are not modelled. *)
Record BorrowedBuffer : Type := mkBorrow { bb_storage : storage; bb_len : Z; bb_isBorrowed : bool }.
Record pstate : Type := mkPool { ps_next : nat; ps_free : list storage }.

Definition pool_make (s : pstate) (n : Z) : storage * pstate :=
  (mkStorage (ps_next s) n, mkPool (S (ps_next s)) (ps_free s)).

(** sync.Pool.Get: any buffer it holds (here number [k]), or what New makes
    (bytebuffer.go:20-22): defSize bytes.  defSize is read and written by all goroutines
    without a lock (bytebuffer.go:28-31), so its value [def] is arbitrary here. *)
Definition syncpool_get (s : pstate) (k : nat) (def : Z) : storage * pstate :=
  match nth_error (ps_free s) k with
  | Some st => (st, mkPool (ps_next s) (firstn k (ps_free s) ++ skipn (S k) (ps_free s)))
  | None => pool_make s def
  end.

(** bytebuffer.go:27-43 *)
Definition pool_Get (s : pstate) (sz : Z) (k : nat) (def : Z) : res (BorrowedBuffer * pstate) :=
  let '(buf, s) := syncpool_get s k def in
  let '(buf, s) := if st_cap buf <? s64 sz then pool_make s sz else (buf, s) in
  if sz <=? st_cap buf then Ok (mkBorrow buf sz true, s) else Panic SliceOutOfRange.

(** bytebuffer.go:45-49 *)
Definition pool_Put (s : pstate) (bb : BorrowedBuffer) : pstate :=
  if bb_isBorrowed bb then mkPool (ps_next s) (bb_storage bb :: ps_free s) else s.

(** bytebuffer.go:51-56 *)
Definition NonBorrowedBuffer (st : storage) (len : Z) : BorrowedBuffer := mkBorrow st len false.

(** sync.Pool may drop any buffer it holds at any time (garbage collection). *)
Definition pool_drop (s : pstate) (k : nat) : pstate :=
  mkPool (ps_next s) (firstn k (ps_free s) ++ skipn (S k) (ps_free s)).
