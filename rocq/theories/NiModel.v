(** * NiModel: the node index (internal/nodeindex, cmd/nodeindex/indexer,
    cmd/dumpnodeindex). *)
From Verif Require Import Base PbModel TModel HLModel FrModel ZlModel MtModel IoModel.

(** ** internal/nodeindex/count_offset.go *)
(** count_offset.go:3-9 *)
Definition CountBits : Z := 24.
Definition CountMax : Z := 2^24.
Definition CountMask : Z := CountMax - 1.
Definition OffsetMax : Z := 2^40.
(** count_offset.go:13-19 *)
Definition co_Offset (co : Z) : Z := Z.shiftr co CountBits.
Definition co_Count (co : Z) : Z := Z.land co CountMask.
(** count_offset.go:21-29; arguments are uint64. *)
Definition NewCountOffset (count offset : Z) : res Z :=
  if OffsetMax <=? offset then Panic (PanicMsg "offset out of range")
  else if CountMax <? count then Panic (PanicMsg "too many items")
  else Ok (Z.lor (u64 (Z.shiftl offset CountBits)) count).

(** ** internal/nodeindex/index_element.go *)
Record IndexElement : Type := mkElem { baseId : Z; countOffset : Z }.
Definition FirstID (ie : IndexElement) : Z := baseId ie.
Definition LastID (ie : IndexElement) : Z := u64 (u64 (FirstID ie + co_Count (countOffset ie)) - 1).
Definition ie_Offset (ie : IndexElement) : Z := co_Offset (countOffset ie).
Definition ie_Count (ie : IndexElement) : Z := co_Count (countOffset ie).
(** index_element.go:46-48 *)
Definition contains (ie : IndexElement) (id : Z) : bool := (FirstID ie <=? id) && (id <=? LastID ie).
(** index_element.go:24-32 *)
Definition OffsetForID (ie : IndexElement) (id : Z) : res Z :=
  if negb (contains ie id) then Panic (PanicMsg "does not contain")
  else Ok (u64 (ie_Offset ie + u64 (id - FirstID ie))).
(** index_element.go:34-45 *)
Definition compareId (ie : IndexElement) (id : Z) : Z :=
  if id <? FirstID ie then -1 else if LastID ie <? id then 1 else 0.

(** ** internal/nodeindex/nodeindex.go *)

(** nodeindex.go:14-29; statistics and timing are not modelled. *)
Record NodeIndex : Type := mkNI { ni_elements : list Z; ni_locations : list Z }.

(** internal/nodeindex/version.go:3-5 *)
Definition Version : Z := 1.

(** nodeindex.go:31-56 [NewNodeIndex] on the contents of the file.  The capacity of a
    mapped slice is its length. *)
Definition NewNodeIndex (contents : list Z) : res NodeIndex :=
  m <- MMapMap contents ;;
  let d := ByteSliceAsInt64Slice m in
  version <- lidx d 0 ;;
  if negb (version =? Version) then Panic (PanicMsg "wrong version")
  else
    startOfLocations <- lidx d 1 ;;
    d <- lslice d 2 (zlen d) ;;
    indexData <- lslice d 0 (s64 (startOfLocations * 2)) ;;
    locationData <- lslice d (s64 (startOfLocations * 2)) (zlen d) ;;
    Ok (mkNI indexData locationData).

(** nodeindex.go:58-60 *)
Definition LocationCount (idx : NodeIndex) : Z := zlen (ni_locations idx).

(** internal/nodeindex/nodesubindex.go:9-14 *)
Record NodeSubIndex : Type := mkNSI { si_element : list IndexElement; si_locations : list Z; si_Top : Z }.

(** nodeindex.go:78-84: [startIndex] (0 if no index reaches the target) and the running
    total when the loop ends. *)
Fixpoint find_start (subIds : list IndexElement) (i startTarget runningTotal : Z) : Z * Z :=
  match subIds with
  | [] => (0, runningTotal)
  | e :: r =>
      if startTarget <=? runningTotal then (i, runningTotal)
      else find_start r (i + 1) startTarget (u64 (runningTotal + ie_Count e))
  end.
(** nodeindex.go:86-92: [endIndex]; [subIds] are the elements from index [i] on. *)
Fixpoint find_end (subIds : list IndexElement) (i endTarget runningTotal : Z) : Z :=
  match subIds with
  | [] => i
  | e :: r =>
      if endTarget <=? runningTotal then i
      else find_end r (i + 1) endTarget (u64 (runningTotal + ie_Count e))
  end.

(** nodeindex.go:64-100 [SubIndex]; [curPass], [countPass] are uint64. *)
Definition SubIndex (idx : NodeIndex) (curPass countPass : Z) : res NodeSubIndex :=
  let subIds := map (fun p => mkElem (fst p) (snd p))
                    (ByteSliceAsPairSlice (SliceAsByteSlice (ni_elements idx))) in
  if countPass =? 0 then Panic DivideByZero
  else
    let sliceSize := zlen (ni_locations idx) / countPass in
    let startTarget := u64 (sliceSize * curPass) in
    let endTarget := u64 (startTarget + sliceSize) in
    let '(startIndex, runningTotal) := find_start subIds 0 startTarget 0 in
    let endIndex := find_end (skipn (Z.to_nat startIndex) subIds) startIndex endTarget runningTotal in
    element <- lslice subIds startIndex endIndex ;;
    last <- lidx subIds (u64 (endIndex - 1)) ;;
    Ok (mkNSI element (ni_locations idx) (LastID last)).

(** ** internal/nodeindex/nodesubindex.go *)

(** nodesubindex.go:53-64: the binary search loop; returns lowerPoint. *)
Definition bs_state : Type := (Z * Z * bool)%type.  (* lowerPoint, upperPoint, left by break *)
Definition bs_cond (s : bs_state) : bool := let '(lo, up, brk) := s in (lo <? up) && negb brk.
Definition bs_body (element : list IndexElement) (id : Z) (s : bs_state) : res bs_state :=
  let '(lo, up, _) := s in
  let mid := Z.shiftr (lo + up) 1 in
  e <- lidx element mid ;;
  let cmp := compareId e id in
  if cmp <? 0 then Ok (lo, mid, false)
  else if cmp =? 0 then Ok (mid, up, true)
  else Ok (mid + 1, up, false).
Definition binary_search (element : list IndexElement) (id lo up : Z) : res Z :=
  '(lo, _, _) <- loop (S (Z.to_nat (up - lo))) bs_cond (bs_body element id) (lo, up, false) ;; Ok lo.

(** nodesubindex.go:28-74 [findNodeActual] (and FindNode, 78-100, without timing): location,
    hint, found.  [id] is uint64, [hint] an int.  The sum lowerPoint+upperPoint of two slice
    indexes does not overflow uint. *)
Definition FindNode (si : NodeSubIndex) (id hint : Z) : res (Z * Z * bool) :=
  if si_Top si <? id then Ok (0, hint, false)
  else
    let search (lo up : Z) : res (Z * Z * bool) :=
      lo <- binary_search (si_element si) id lo up ;;
      if zlen (si_element si) <=? lo then Ok (0, hint, false)
      else
        e <- lidx (si_element si) lo ;;
        if negb (contains e id) then Ok (0, hint, false)
        else
          off <- OffsetForID e id ;;
          loc <- lidx (si_locations si) off ;;
          Ok (loc, lo, negb (loc =? 0)) in
    if hint <? zlen (si_element si) then
      e <- lidx (si_element si) hint ;;
      let cmp := compareId e id in
      if cmp =? -1 then search 0 hint
      else if cmp =? 0 then
        off <- OffsetForID e id ;;
        loc <- lidx (si_locations si) off ;;
        Ok (loc, hint, negb (loc =? 0))
      else search hint (zlen (si_element si))
    else search 0 (zlen (si_element si)).

(** ** cmd/nodeindex/indexer/nodeindexer_worker.go *)

(** nodeindexer_worker.go:16-18 *)
Definition notAssigned : Z := 2^64 - 1.
(** nodeindexer_worker.go:21-25 *)
Definition ni_reader : PBReader := mkReader true false true true.

(** nodeindexer.go:8-16 [elementBatch]: ranges (first, last) and locations. *)
Definition elementBatch : Type := (list (Z * Z) * list Z)%type.
(** A message sent to the writer; [nm_Batch] is its Data if that is an elementBatch. *)
Record ni_msg : Type := mkNiMsg { nm_Index : Z; nm_Type : list Z; nm_Batch : option elementBatch }.
Definition tIndexData : list Z := bytes_of "IndexData".

(** firstId, lastId, indexBlocks, outputLoc *)
Definition ni_state : Type := (Z * Z * list (Z * Z) * list Z)%type.

(** nodeindexer_worker.go:58-80: one node of a dense group; [idx] is its position. *)
Definition ni_node (pb : PrimitiveBlock) (d : DenseNodes) (s : ni_state) (idx id : Z) : res ni_state :=
  let '(firstId, lastId, indexBlocks, outputLoc) := s in
  let uid := u64 id in
  let '(firstId, lastId, indexBlocks, outputLoc) :=
    if uid =? u64 (lastId + 1) then (firstId, uid, indexBlocks, outputLoc)
    else if uid =? u64 (lastId + 2) then (firstId, uid, indexBlocks, outputLoc ++ [0])
    else
      (uid, uid,
       if negb (firstId =? notAssigned) then indexBlocks ++ [(firstId, lastId)] else indexBlocks,
       outputLoc) in
  vlat <- lidx (dn_Lat d) idx ;;
  let lat := s32 (Z.quot (s64 (pblk_LatOffset pb + s64 (pblk_Granularity pb * vlat))) 100) in
  vlon <- lidx (dn_Lon d) idx ;;
  let lon := s32 (Z.quot (s64 (pblk_LonOffset pb + s64 (pblk_Granularity pb * vlon))) 100) in
  loc <- location lon lat ;;
  Ok (firstId, lastId, indexBlocks, outputLoc ++ [loc]).

Fixpoint ni_dense (pb : PrimitiveBlock) (d : DenseNodes) (idx : Z) (ids : list Z) (s : ni_state) : res ni_state :=
  match ids with
  | [] => Ok s
  | id :: r => s <- ni_node pb d s idx id ;; ni_dense pb d (idx + 1) r s
  end.

(** nodeindexer_worker.go:48-88: the batch of a block. *)
Definition ni_batch (pb : PrimitiveBlock) : res elementBatch :=
  '(firstId, lastId, indexBlocks, outputLoc) <-
    foldm (fun s pg => match pg_Dense pg with
                       | None => Ok s
                       | Some d => ni_dense pb d 0 (dn_Id d) s
                       end)
          (pblk_PrimitiveGroup pb) (notAssigned, notAssigned, [], []) ;;
  Ok (if negb (firstId =? notAssigned) then indexBlocks ++ [(firstId, lastId)] else indexBlocks, outputLoc).

(** nodeindexer_worker.go:32-110: the message sent for one block (state display left out). *)
Definition ni_worker (env : zenv) (data : Block) : res ni_msg :=
  if negb (seqb (blk_Type data) tOSMData) then Ok (mkNiMsg (blk_Index data) (blk_Type data) None)
  else
    b <- ReadBlob (blk_Data data) Blob0 ;;
    raw <- GetRawData env b ;;
    pb <- ReadPrimitiveBlock ni_reader raw PrimitiveBlock0 ;;
    batch <- ni_batch pb ;;
    Ok (mkNiMsg (blk_Index data)
          (if zlen (fst batch) =? 0 then tFiller else tIndexData) (Some batch)).

(** ** cmd/nodeindex/indexer/nodeindexer_writer.go *)

(** nodeindexer_writer.go:34-43: outputData, lastLocationIndex and indexElementCount for
    the ranges of a batch. *)
Fixpoint ni_ranges (ranges : list (Z * Z)) (outputData : list Z) (lastLocationIndex indexElementCount : Z)
  : res (list Z * Z * Z) :=
  match ranges with
  | [] => Ok (outputData, lastLocationIndex, indexElementCount)
  | (first, last) :: r =>
      let itemCount := u64 (u64 (last - first) + 1) in
      co <- NewCountOffset itemCount lastLocationIndex ;;
      ni_ranges r (outputData ++ [first; co]) (u64 (lastLocationIndex + itemCount)) (u64 (indexElementCount + 1))
  end.

(** nodeindexer_writer.go:27-48: the loop over the messages; indexElementCount at the end. *)
Fixpoint ni_write_batches (o : os) (msgs : list ni_msg) (lastLocationIndex indexElementCount : Z) : io Z :=
  match msgs with
  | [] => io_lift (Ok indexElementCount)
  | m :: r =>
      if negb (seqb (nm_Type m) tIndexData) then ni_write_batches o r lastLocationIndex indexElementCount
      else
        match nm_Batch m with
        | None => io_lift (Panic (PanicMsg "interface conversion"))
        | Some (ranges, locations) =>
            x <~ io_lift (ni_ranges ranges [] lastLocationIndex indexElementCount) ;;
            _ <~ idx_WriteSlice o (fst (fst x)) ;;
            _ <~ loc_WriteSlice o locations ;;
            ni_write_batches o r (snd (fst x)) (snd x)
        end
  end.

(** nodeindexer_writer.go:16-69 up to (not including) the write of the final header; returns
    the number of index elements. *)
Definition ni_output_body (o : os) (msgs : list ni_msg) : io Z :=
  _ <~ io_call o ;;                       (* OsCreate idx *)
  _ <~ io_call o ;;                       (* OsCreate loc *)
  _ <~ idx_WriteSlice o [0; 0] ;;
  n <~ ni_write_batches o msgs 0 0 ;;
  _ <~ loc_rewind o ;;
  _ <~ io_copy o ;;
  _ <~ io_call o ;;                       (* FClose loc *)
  _ <~ io_call o ;;                       (* OsRemove loc *)
  _ <~ idx_rewind o ;;
  io_lift (Ok n).
(** nodeindexer_writer.go:14-73 [Output], the writer given these messages. *)
Definition ni_output (o : os) (msgs : list ni_msg) : io unit :=
  n <~ ni_output_body o msgs ;;
  _ <~ idx_WriteSlice o [Version; n] ;;
  io_call o.                              (* FClose idx *)

(** The tool: every block handled by some worker, the messages delivered to the writer in
    block order (C37). *)
Definition ni_index (o : os) (inBlocks : list (zenv * Block)) : wstate * res unit :=
  match mapm (fun b => ni_worker (fst b) (snd b)) inBlocks with
  | Ok msgs => ni_output o msgs w0
  | Panic p => (w0, Panic p)
  | Diverge => (w0, Diverge)
  end.

(** ** cmd/dumpnodeindex/dumpnodeindex.go *)

(** dumpnodeindex.go:48-86 for one element with both options set: the positions at which
    "XX MISMATCH!" is printed (everything else printed is not modelled). *)
Fixpoint dump_element (si : NodeSubIndex) (element : IndexElement) (n : nat) (idx : Z) : res (list Z) :=
  match n with
  | O => Ok []
  | S n =>
      extract <- lidx (si_locations si) (u64 (ie_Offset element + idx)) ;;
      '(l, _, _) <- FindNode si (u64 (FirstID element + idx)) 0 ;;
      rest <- dump_element si element n (idx + 1) ;;
      Ok (if negb (u64 extract =? u64 l) then idx :: rest else rest)
  end.
(** dumpnodeindex.go:37-88 over elements [startElement..endElement) *)
Fixpoint dump_elements (si : NodeSubIndex) (n : nat) (cur : Z) : res (list (Z * Z)) :=
  match n with
  | O => Ok []
  | S n =>
      element <- lidx (si_element si) cur ;;
      ms <- dump_element si element (Z.to_nat (ie_Count element)) 0 ;;
      rest <- dump_elements si n (cur + 1) ;;
      Ok (map (fun i => (cur, i)) ms ++ rest)
  end.
(** dumpnodeindex.go:27-88 *)
Definition dump_mismatches (si : NodeSubIndex) (startElement endElement : option Z) : res (list (Z * Z)) :=
  let start := match startElement with Some s => s | None => 0 end in
  let count := zlen (si_element si) in
  let end_ := match endElement with Some e => if e <? count then e else count | None => count end in
  dump_elements si (Z.to_nat (end_ - start)) start.
