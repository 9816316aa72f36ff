(** * WiModel: the way index (internal/wayindex, cmd/wayindex/wayindexer, cmd/dumpwayindex). *)
From Verif Require Import Base PbModel TModel HLModel FrModel ZlModel IoModel.

(** Go's [x << s] for an int64 [x] and an int [s] *)
Definition go_shl (x s : Z) : res Z :=
  if s <? 0 then Panic NegativeShift else Ok (if 64 <=? s then 0 else s64 (Z.shiftl x s)).

(** ** internal/wayindex/indexdata.go; a WayIndexData is a uint64 *)
(** indexdata.go:9-12 *)
Definition wd_WayID (id : Z) : Z := s64 (Z.shiftr id 33).
(** indexdata.go:14-16 *)
Definition wd_Offset (id : Z) : Z := Z.land (s64 id) (2^33 - 1).
(** indexdata.go:18-26; the arguments are int64 *)
Definition MakeIndexData (wayID offset : Z) : res Z :=
  if 2^31 <? wayID then Panic (PanicMsg "wayID too large")
  else if 2^33 <? offset then Panic (PanicMsg "offset too large")
  else Ok (u64 (Z.lor (s64 (Z.shiftl wayID 33)) offset)).

(** ** internal/wayindex/wayindex.go *)
(** wayindex.go:15-30; statistics and timing are not modelled. *)
Record WayIndex : Type := mkWI { wi_Ids : list Z; wi_Loc : list Z; wi_Shift : Z }.

(** wayindex.go:34-60 [NewWayIndex] on the contents of the file; the capacity of a mapped
    slice is its length. *)
Definition NewWayIndex (contents : list Z) : res WayIndex :=
  m <- MMapMap contents ;;
  h <- lslice m 0 8 ;;
  let startOfLocationsInBytes := le64_get h in
  let startOfLocationsInElements := u64 (startOfLocationsInBytes * 8) in
  h <- lslice m 8 16 ;;
  let alignmentShift := s64 (le64_get h) in
  ids <- lslice m 16 (u64 (16 + startOfLocationsInElements)) ;;
  loc <- lslice m (u64 (16 + startOfLocationsInElements)) (zlen m) ;;
  Ok (mkWI (ByteSliceAsUint64Slice ids) loc alignmentShift).

(** subindex.go:11-16; [parent] is used for its AlignmentShift only *)
Record SubWayIndex : Type := mkSWI { sw_Ids : list Z; sw_Loc : list Z; sw_Shift : Z; sw_Top : Z }.

(** wayindex.go:77-82 and 84-89: index of the first entry, from [i] on, whose location
    starts at or after [target], or [none]. *)
Fixpoint first_at (ids : list Z) (shift target i none : Z) : res Z :=
  match ids with
  | [] => Ok none
  | d :: r =>
      at_ <- go_shl (wd_Offset d) shift ;;
      if target <=? at_ then Ok i else first_at r shift target (i + 1) none
  end.

(** wayindex.go:66-97 [SubIndexWithScaledPass] *)
Definition SubIndexWithScaledPass (idx : WayIndex) (curPass countPass : Z) : res SubWayIndex :=
  if countPass =? 0 then Panic DivideByZero
  else
    let sliceSize := Z.quot (zlen (wi_Loc idx)) countPass in
    let startTarget := s64 (sliceSize * curPass) in
    let endTarget := s64 (sliceSize * s64 (curPass + 1)) in
    startIndex <- first_at (wi_Ids idx) (wi_Shift idx) startTarget 0 0 ;;
    endIndex <- first_at (skipn (Z.to_nat startIndex) (wi_Ids idx)) (wi_Shift idx) endTarget startIndex (zlen (wi_Ids idx)) ;;
    ids <- lslice (wi_Ids idx) startIndex endIndex ;;
    last <- lidx (wi_Ids idx) (endIndex - 1) ;;
    Ok (mkSWI ids (wi_Loc idx) (wi_Shift idx) (wd_WayID last)).

(** ** internal/wayindex/subindex.go *)
(** subindex.go:43-54: the binary search loop; returns lowerPoint. *)
Definition wbs_state : Type := (Z * Z * bool)%type.  (* lowerPoint, upperPoint, left by break *)
Definition wbs_cond (s : wbs_state) : bool := let '(lo, up, brk) := s in (lo <? up) && negb brk.
Definition wbs_body (ids : list Z) (id : Z) (s : wbs_state) : res wbs_state :=
  let '(lo, up, _) := s in
  let mid := Z.shiftr (lo + up) 1 in
  d <- lidx ids mid ;;
  let wid := wd_WayID d in
  if id <? wid then Ok (lo, mid, false)
  else if id =? wid then Ok (mid, up, true)
  else Ok (mid + 1, up, false).
Definition way_search (ids : list Z) (id lo up : Z) : res Z :=
  '(lo, _, _) <- loop (S (Z.to_nat (up - lo))) wbs_cond (wbs_body ids id) (lo, up, false) ;; Ok lo.

(** subindex.go:35-36 and 62-63: the locations of an entry *)
Definition way_locations (si : SubWayIndex) (d : Z) : res (list Z) :=
  at_ <- go_shl (wd_Offset d) (sw_Shift si) ;;
  raw <- sslice (exact (sw_Loc si)) at_ (zlen (sw_Loc si)) ;;
  DecodeS64PackedDeltaZero raw.

(** subindex.go:18-64 [findLocationsActual] (and FindLocations, 68-88, without timing):
    locations (nil is the empty list), hint, found. *)
Definition FindLocations (si : SubWayIndex) (id hint : Z) : res (list Z * Z * bool) :=
  if sw_Top si <? id then Ok ([], hint, false)
  else
    let search (lo up : Z) : res (list Z * Z * bool) :=
      lo <- way_search (sw_Ids si) id lo up ;;
      if zlen (sw_Ids si) <=? lo then Ok ([], hint, false)
      else
        d <- lidx (sw_Ids si) lo ;;
        if negb (wd_WayID d =? id) then Ok ([], hint, false)
        else
          locs <- way_locations si d ;;
          Ok (locs, lo, true) in
    if hint <? zlen (sw_Ids si) then
      d <- lidx (sw_Ids si) hint ;;
      if id <? wd_WayID d then search 0 hint
      else if id =? wd_WayID d then
        locs <- way_locations si d ;;
        Ok (locs, hint, true)
      else search hint (zlen (sw_Ids si))
    else search 0 (zlen (sw_Ids si)).

(** ** cmd/wayindex/wayindexer/wayindexer_worker.go *)
(** wayindexer_worker.go:17-19 (running out of memory is not modelled) *)
Definition padToAlignment (b : list Z) (amt : Z) : res (list Z) :=
  if amt =? 0 then Panic DivideByZero
  else
    let n := amt - Z.rem (zlen b) amt in
    if n <? 0 then Panic (PanicMsg "bytes: negative Repeat count")
    else Ok (b ++ repeat 0 (Z.to_nat n)).

(** wayindexer_worker.go:64-73: sequential duplicates filtered out *)
Fixpoint wi_dedupe (refs : list Z) (last : Z) : list Z :=
  match refs with
  | [] => []
  | ref :: r => if negb (ref =? last) then ref :: wi_dedupe r ref else wi_dedupe r last
  end.

(** wayindexer_worker.go:60-78: one way; state: ixData, outputLocBytes *)
Definition wi_way (shift amt : Z) (s : list Z * list Z) (w : Way) : res (list Z * list Z) :=
  let '(ixData, outputLocBytes) := s in
  d <- MakeIndexData (s64 (way_ID w)) (Z.shiftr (zlen outputLocBytes) shift) ;;
  let encodedBytes := EncodeS64PackedDeltaZero [] (wi_dedupe (way_Refs w) 0) in
  out <- padToAlignment (outputLocBytes ++ encodedBytes) amt ;;
  Ok (ixData ++ [d], out).

(** wayindexer_worker.go:56-80: the entries and locations of a block *)
Definition wi_batch (shift : Z) (pb : PrimitiveBlock) : res (list Z * list Z) :=
  amt <- go_shl 1 shift ;;
  foldm (fun s pg => match pg_Ways pg with
                     | None => Ok s
                     | Some ws => foldm (wi_way shift amt) ws s
                     end)
        (pblk_PrimitiveGroup pb) ([], []).

(** wayindexer_worker.go:23-27 *)
Definition wi_reader : PBReader := mkReader true true false true.
(** A message sent to the writer; [wm_Batch] is its Data if that is an indexElement
    (wayindexer.go:9-12): entries and location bytes. *)
Record wi_msg : Type := mkWiMsg { wm_Index : Z; wm_Type : list Z; wm_Batch : option (list Z * list Z) }.
Definition tWayIndexData : list Z := bytes_of "IndexData".

(** wayindexer_worker.go:37-105: the message sent for one block (state display left out).
    The shift of line 30 is evaluated before the first block; the model evaluates it for
    every OSMData block. *)
Definition wi_worker (shift : Z) (env : zenv) (data : Block) : res wi_msg :=
  if negb (seqb (blk_Type data) tOSMData) then Ok (mkWiMsg (blk_Index data) (blk_Type data) None)
  else
    b <- ReadBlob (blk_Data data) Blob0 ;;
    raw <- GetRawData env b ;;
    pb <- ReadPrimitiveBlock wi_reader raw PrimitiveBlock0 ;;
    batch <- wi_batch shift pb ;;
    Ok (mkWiMsg (blk_Index data)
          (if zlen (fst batch) =? 0 then tFiller else tWayIndexData) (Some batch)).

(** ** cmd/wayindex/wayindexer/wayindexer_writer.go *)
(** wayindexer_writer.go:36-44 *)
Fixpoint wi_rebase (blocks : list Z) (locationLength : Z) : res (list Z) :=
  match blocks with
  | [] => Ok []
  | b :: r =>
      d <- MakeIndexData (wd_WayID b) (s64 (wd_Offset b + locationLength)) ;;
      ds <- wi_rebase r locationLength ;;
      Ok (d :: ds)
  end.

(** wayindexer_writer.go:28-51: the loop over the messages; indexBlockCount at the end. *)
Fixpoint wi_write_batches (o : os) (shift : Z) (msgs : list wi_msg) (locationLength indexBlockCount : Z) : io Z :=
  match msgs with
  | [] => io_lift (Ok indexBlockCount)
  | m :: r =>
      if negb (seqb (wm_Type m) tWayIndexData) then wi_write_batches o shift r locationLength indexBlockCount
      else
        match wm_Batch m with
        | None => io_lift (Panic (PanicMsg "interface conversion"))
        | Some (blocks, locations) =>
            out <~ io_lift (wi_rebase blocks locationLength) ;;
            _ <~ idx_WriteSlice o out ;;
            _ <~ loc_Write o locations ;;
            _ <~ io_lift (if shift <? 0 then Panic NegativeShift else Ok tt) ;;
            wi_write_batches o shift r (s64 (locationLength + Z.shiftr (zlen locations) shift))
              (s64 (indexBlockCount + zlen blocks))
        end
  end.

(** wayindexer_writer.go:16-77 up to (not including) the write of the final header; returns
    the number of entries.  (The shift in line 55, for display, panics too if negative.) *)
Definition wi_output_body (o : os) (shift : Z) (msgs : list wi_msg) : io Z :=
  _ <~ io_call o ;;                       (* OsCreate idx *)
  _ <~ io_call o ;;                       (* OsCreate loc *)
  _ <~ idx_WriteSlice o [0; 0] ;;
  n <~ wi_write_batches o shift msgs 0 0 ;;
  _ <~ io_lift (if shift <? 0 then Panic NegativeShift else Ok tt) ;;
  _ <~ loc_rewind o ;;
  _ <~ io_copy o ;;
  _ <~ io_call o ;;                       (* FClose loc *)
  _ <~ io_call o ;;                       (* OsRemove loc *)
  _ <~ idx_rewind o ;;
  io_lift (Ok n).
(** wayindexer_writer.go:14-81 [Output] *)
Definition wi_output (o : os) (shift : Z) (msgs : list wi_msg) : io unit :=
  n <~ wi_output_body o shift msgs ;;
  _ <~ idx_WriteSlice o [n; shift] ;;
  io_call o.                              (* FClose idx *)

(** The tool: every block handled by some worker, the messages delivered to the writer in
    block order (C37). *)
Definition wi_index (o : os) (shift : Z) (inBlocks : list (zenv * Block)) : wstate * res unit :=
  match mapm (fun b => wi_worker shift (fst b) (snd b)) inBlocks with
  | Ok msgs => wi_output o shift msgs w0
  | Panic p => (w0, Panic p)
  | Diverge => (w0, Diverge)
  end.

(** ** cmd/dumpwayindex/dumpwayindex.go:26-41: for every entry of the index, the locations
    printed for it directly and by a search in sub-index [si] (None: "failed to find"). *)
Definition dump_ways (ix : WayIndex) (si : SubWayIndex) : res (list (Z * list Z * option (list Z))) :=
  mapm (fun d =>
    locs <- way_locations (mkSWI (wi_Ids ix) (wi_Loc ix) (wi_Shift ix) 0) d ;;
    '(found, _, ok) <- FindLocations si (wd_WayID d) 0 ;;
    Ok (wd_WayID d, locs, if (ok : bool) then Some found else None)) (wi_Ids ix).
