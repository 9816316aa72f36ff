(** * SlModel: the status lines of the user interface.  Each worker and each writer keeps a record of what it is doing (state/state_worker.go and
    state/state_writer.go of the six tools that have a user interface); widgets read it at the same time and show it as a line of text
    (widget/widget_state_worker.go, widget/widget_state_writer.go). *)
From Verif Require Import Base PbModel TModel HLModel FrModel ZlModel IoModel NiModel WiModel RiModel RwModel TfModel TrModel TmModel PgModel.

(** ** The records *)

(** The fields of the records (all uint64, accessed with sync/atomic): currentState, currentBlock, currentWay, wayCount
    (cmd/rewritenodes/rewriter/state/state_worker.go:14-19), kept, dropped (cmd/tagfilter/tagfilterer/state/state_worker.go:15-20), copyAmount,
    copyTotal (cmd/nodeindex/indexer/state/state_writer.go:7-12), fillerBlocks (cmd/tagfilter/tagfilterer/state/state_writer.go:7-11).  A record
    has some of them; all start as 0. *)
Inductive cell : Type := CState | CBlock | CWay | CWays | CKept | CDropped | CCopied | CTotal | CFiller.
Definition cell_eqb (a b : cell) : bool :=
  match a, b with
  | CState, CState | CBlock, CBlock | CWay, CWay | CWays, CWays | CKept, CKept | CDropped, CDropped
  | CCopied, CCopied | CTotal, CTotal | CFiller, CFiller => true
  | _, _ => false
  end.
Definition status : Type := cell -> Z.
Definition status0 : status := fun _ => 0.

(** What a goroutine is doing, with the block (number) it is doing it with.  This is not in the program: it says, between the stores,
    what the code that follows does, for the statements. *)
Inductive work : Type :=
| Waiting                      (* receiving from the channel, or after the last block *)
| Decoding (b : Z) | Decompressing (b : Z) | Processing (b : Z)
| Rewriting (b i n : Z)        (* at way i of n (0: before the first) *)
| Encoding (b : Z) | Sending (b : Z)
| Passing (b : Z)              (* sending on a block that is not OSMData *)
| Writing (b : Z)              (* a block, to the output file *)
| WritingIndex (b n : Z)       (* the part of an index for block b, n entries *)
| WritingLocations (b : Z)     (* the locations for block b *)
| Copying (done total : Z)     (* the locations to the index file: bytes copied, bytes of the temporary file *)
| Finalizing.
(** What happens in a goroutine, as far as it matters here: atomic.StoreUint64, atomic.AddUint64, or work. *)
Inductive deed : Type := Store (c : cell) (v : Z) | AddTo (c : cell) (n : Z) | Doing (w : work).
Definition perform (s : status) (d : deed) : status :=
  match d with
  | Store c v => fun x => if cell_eqb x c then v else s x
  | AddTo c n => fun x => if cell_eqb x c then u64 (s c + n) else s x
  | Doing _ => s
  end.
(** The record after the first [n] deeds. *)
Definition status_at (ds : list deed) (n : nat) : status := fold_left perform (firstn n ds) status0.

(** A computation with the deeds it performs (up to the panic, if it panics). *)
Definition told (A : Type) : Type := (list deed * res A)%type.
Definition tbind {A B} (m : told A) (k : A -> told B) : told B :=
  match m with
  | (d, Ok a) => let r := k a in (d ++ fst r, snd r)
  | (d, Panic p) => (d, Panic p)
  | (d, Diverge) => (d, Diverge)
  end.
Notation "x <-- m ;; k" := (tbind m (fun x => k)) (at level 61, m at next level, right associativity).
Notation "' p <-- m ;; k" := (tbind m (fun x => match x with p => k end)) (at level 61, p pattern, m at next level, right associativity).
Definition tell (ds : list deed) : told unit := (ds, Ok tt).
Definition silent {A} (r : res A) : told A := ([], r).

(** [for data := range chIn { ... }]; receiving is waiting. *)
Fixpoint serve {A B} (f : A -> told B) (l : list A) : told (list B) :=
  _ <-- tell [Doing Waiting] ;;
  match l with
  | [] => silent (Ok [])
  | a :: r => b <-- f a ;; bs <-- serve f r ;; silent (Ok (b :: bs))
  end.

(** ** The workers *)

(** SetCurrentState of all records, e.g. cmd/nodeindex/indexer/state/state_worker.go:23-25 *)
Definition SetCurrentState (s : Z) : list deed := [Store CState s].
(** cmd/decompress/decompressor/state/state_worker.go:7-13 *)
Definition dcReceivingBlock : Z := 0.
Definition dcDecodingBlob : Z := 1.
Definition dcDecompressingBlob : Z := 2.
Definition dcEncodingBlob : Z := 3.
Definition dcSendingBlock : Z := 4.
(** cmd/decompress/decompressor/state/state_worker.go:28-31 *)
Definition SetDecodingBlob (block : Z) : list deed := [Store CBlock block; Store CState dcDecodingBlob].
(** cmd/decompress/decompressor/decompressor_worker.go:22-59: one round of the loop *)
Definition dc_told (env : zenv) (obh : Block) : told (list Z) :=
  let i := blk_Index obh in
  _ <-- tell (SetDecodingBlob i ++ [Doing (Decoding i)]) ;;
  b <-- silent (ReadBlob (blk_Data obh) Blob0) ;;
  _ <-- tell (SetCurrentState dcDecompressingBlob ++ [Doing (Decompressing i)]) ;;
  decompData <-- silent (GetRawData env b) ;;
  _ <-- tell (SetCurrentState dcEncodingBlob ++ [Doing (Encoding i)]) ;;
  blobBuffer <-- silent (Blob_Write (mkBlob (Some decompData) None None None) []) ;;
  out <-- silent (write_frame zero4 (blk_Type obh) blobBuffer) ;;
  _ <-- tell (SetCurrentState dcSendingBlock ++ [Doing (Sending i)] ++ SetCurrentState dcReceivingBlock) ;;
  silent (Ok out).
(** decompressor_worker.go:15-60 *)
Definition dc_worker_told (inBlocks : list (zenv * Block)) : told (list (list Z)) :=
  serve (fun x => dc_told (fst x) (snd x)) inBlocks.

(** cmd/nodeindex/indexer/state/state_worker.go:7-12, and the same in cmd/wayindex/wayindexer/state and cmd/relindex/relindexerinit/state *)
Definition ixReading : Z := 0.
Definition ixDecoding : Z := 1.
Definition ixProcessing : Z := 2.
Definition ixWriting : Z := 3.
(** state_worker.go:27-30 *)
Definition SetStateDecodeBlock (block : Z) : list deed := [Store CBlock block; Store CState ixDecoding].
(** cmd/nodeindex/indexer/nodeindexer_worker.go:32-110, cmd/wayindex/wayindexer/wayindexer_worker.go:37-98 and
    cmd/relindex/relindexerinit/relindexer_worker.go:28-77: one round of the loop.  [reader] is the reader's options, [work] what is made of a
    decoded block, [msg] the message that is sent, [pass] the message for a block of another type. *)
Definition ix_told {X M} (reader : PBReader) (process : PrimitiveBlock -> res X) (msg : X -> M) (pass : M) (env : zenv) (data : Block) : told M :=
  let i := blk_Index data in
  if negb (seqb (blk_Type data) tOSMData) then _ <-- tell [Doing (Passing i)] ;; silent (Ok pass)
  else
    _ <-- tell (SetStateDecodeBlock i ++ [Doing (Decoding i)]) ;;
    b <-- silent (ReadBlob (blk_Data data) Blob0) ;;
    raw <-- silent (GetRawData env b) ;;
    pb <-- silent (ReadPrimitiveBlock reader raw PrimitiveBlock0) ;;
    _ <-- tell (SetCurrentState ixProcessing ++ [Doing (Processing i)]) ;;
    x <-- silent (process pb) ;;
    _ <-- tell (SetCurrentState ixWriting ++ [Doing (Sending i)] ++ SetCurrentState ixReading) ;;
    silent (Ok (msg x)).
Definition ni_told (env : zenv) (data : Block) : told ni_msg :=
  ix_told ni_reader ni_batch
    (fun batch => mkNiMsg (blk_Index data) (if zlen (fst batch) =? 0 then tFiller else tIndexData) (Some batch))
    (mkNiMsg (blk_Index data) (blk_Type data) None) env data.
Definition wi_told (shift : Z) (env : zenv) (data : Block) : told wi_msg :=
  ix_told wi_reader (wi_batch shift)
    (fun batch => mkWiMsg (blk_Index data) (if zlen (fst batch) =? 0 then tFiller else tWayIndexData) (Some batch))
    (mkWiMsg (blk_Index data) (blk_Type data) None) env data.
Definition ri_told (env : zenv) (data : Block) : told ri_msg :=
  ix_told ri_reader ri_data
    (fun words => mkRiMsg (blk_Index data) tRelationData (Some words))
    (mkRiMsg (blk_Index data) (blk_Type data) None) env data.
(** nodeindexer_worker.go:31-110, wayindexer_worker.go:36-98, relindexer_worker.go:27-77 *)
Definition ix_worker_told {M} (round : zenv -> Block -> told M) (inBlocks : list (zenv * Block)) : told (list M) :=
  _ <-- tell (SetCurrentState ixReading) ;;
  serve (fun x => round (fst x) (snd x)) inBlocks.

(** cmd/rewritenodes/rewriter/state/state_worker.go:7-12 *)
Definition rwReading : Z := 0.
Definition rwDecoding : Z := 1.
Definition rwWorking : Z := 2.
Definition rwWriting : Z := 3.
(** rewriter/state/state_worker.go:33-36, 38-42, 44-46 *)
Definition rwSetStateDecoding (block : Z) : list deed := [Store CBlock block; Store CState rwDecoding].
Definition SetStateWorking (wayCount : Z) : list deed := [Store CWays (u64 wayCount); Store CWay 0; Store CState rwWorking].
Definition NextWay : list deed := [AddTo CWay 1].
(** cmd/rewritenodes/rewriter/noderewriter_worker.go:59-81 and 58-82, as RwModel.rw_ways and rw_groups; [i] counts the ways so far (for
    the statements), [b] and [n] are the block's number and its number of ways. *)
Fixpoint rw_ways_told (ix : NodeSubIndex) (finalPass : bool) (b n : Z) (ways : list Way) (hint i : Z) : told (list Way * Z * Z) :=
  match ways with
  | [] => silent (Ok ([], hint, i))
  | w :: r =>
      _ <-- tell (NextWay ++ [Doing (Rewriting b (i + 1) n)]) ;;
      '(refs, hint) <-- silent (rw_refs ix finalPass (way_Refs w) hint) ;;
      '(out, hint, i) <-- rw_ways_told ix finalPass b n r hint (i + 1) ;;
      silent (Ok (mkWay (way_ID w) (way_Keys w) (way_Vals w) refs :: out, hint, i))
  end.
Fixpoint rw_groups_told (ix : NodeSubIndex) (finalPass : bool) (b n : Z) (gs : list PrimitiveGroup) (hint i : Z) : told (list PrimitiveGroup * Z * Z) :=
  match gs with
  | [] => silent (Ok ([], hint, i))
  | g :: r =>
      '(ws, hint, i) <-- match pg_Ways g with
                         | None => silent (Ok (None, hint, i))
                         | Some ws => '(ws, hint, i) <-- rw_ways_told ix finalPass b n ws hint i ;; silent (Ok (Some ws, hint, i))
                         end ;;
      '(out, hint, i) <-- rw_groups_told ix finalPass b n r hint i ;;
      silent (Ok (set_ways g ws :: out, hint, i))
  end.
(** noderewriter_worker.go:27-92: one round of the loop.  The block is encoded (line 87) while it is shown as being sent. *)
Definition rw_told (env : zenv) (ix : NodeSubIndex) (finalPass : bool) (data : Block) : told Block :=
  let i := blk_Index data in
  if negb (seqb (blk_Type data) tOSMData) then _ <-- tell [Doing (Passing i)] ;; silent (Ok data)
  else
    _ <-- tell (rwSetStateDecoding i ++ [Doing (Decoding i)]) ;;
    b <-- silent (ReadBlob (blk_Data data) Blob0) ;;
    raw <-- silent (GetRawData env b) ;;
    pb <-- silent (ReadPrimitiveBlock rw_reader raw PrimitiveBlock0) ;;
    let totalWays := count_ways (pblk_PrimitiveGroup pb) in
    if totalWays =? 0 then
      _ <-- tell (SetCurrentState rwWriting ++ [Doing (Sending i)] ++ SetCurrentState rwReading) ;;
      silent (Ok data)
    else
      _ <-- tell (SetStateWorking totalWays ++ [Doing (Rewriting i 0 totalWays)]) ;;
      '(gs, _, _) <-- rw_groups_told ix finalPass i totalWays (pblk_PrimitiveGroup pb) 0 0 ;;
      _ <-- tell (SetCurrentState rwWriting ++ [Doing (Sending i)]) ;;
      out <-- silent (Blob_Write (mkBlob None None None (Some (PrimitiveBlock_Write (set_groups pb gs)))) []) ;;
      _ <-- tell (SetCurrentState rwReading) ;;
      silent (Ok (mkBlk i (exact out) tOSMData)).
Definition rw_worker_told (ix : NodeSubIndex) (finalPass : bool) (inBlocks : list (zenv * Block)) : told (list Block) :=
  serve (fun x => rw_told (fst x) ix finalPass (snd x)) inBlocks.

(** cmd/tagfilter/tagfilterer/state/state_worker.go:7-13 *)
Definition tfReading : Z := 0.
Definition tfDecoding : Z := 1.
Definition tfWorking : Z := 2.
Definition tfEncoding : Z := 3.
Definition tfWriting : Z := 4.
(** tagfilterer/state/state_worker.go:33-36, 38-44 *)
Definition tfSetStateDecoding (block : Z) : list deed := [Store CBlock block; Store CState tfDecoding].
Definition AddKept (amount : Z) : list deed := [AddTo CKept amount].
Definition AddDropped (amount : Z) : list deed := [AddTo CDropped amount].
(** cmd/tagfilter/tagfilterer/tagfilterer_worker.go:99-103 [sendBlock] *)
Definition sendBlock (w : work) : list deed := SetCurrentState tfWriting ++ [Doing w] ++ SetCurrentState tfReading.
(** tagfilterer_worker.go:150-167: localKept and localDropped *)
Definition localKept (nodes : list HLNode) : Z :=
  fold_left (fun k node => if 0 <? zlen (filter_tags (hn_Tags node)) then u64 (k + 1) else k) nodes 0.
Definition localDropped (nodes : list HLNode) : Z :=
  fold_left (fun k node => if 0 <? zlen (filter_tags (hn_Tags node)) then k else u64 (k + 1)) nodes 0.
(** tagfilterer_worker.go:128-194: one round of the loop, as TfModel.tf_step *)
Definition tf_told (env : zenv) (pendingNodes : list HLNode) (data : Block) : told (list HLNode * Block) :=
  let i := blk_Index data in
  if negb (seqb (blk_Type data) tOSMData) then _ <-- tell (sendBlock (Passing i)) ;; silent (Ok (pendingNodes, data))
  else
    _ <-- tell (tfSetStateDecoding i ++ [Doing (Decoding i)]) ;;
    b <-- silent (ReadBlob (blk_Data data) Blob0) ;;
    raw <-- silent (GetRawData env b) ;;
    pb <-- silent (ReadPrimitiveBlock tf_reader raw PrimitiveBlock0) ;;
    _ <-- tell (SetCurrentState tfWorking ++ [Doing (Processing i)]) ;;
    nodes <-- silent (ToNodes pb) ;;
    ws <-- silent (ToWays pb) ;;
    rs <-- silent (ToRelations pb) ;;
    _ <-- tell (AddKept (localKept nodes) ++ AddDropped (localDropped nodes)) ;;
    let nodes := filter_nodes nodes in
    if (nodesToBuffer <? zlen nodes + zlen pendingNodes) || (0 <? zlen ws) || (0 <? zlen rs) then
      pbOut <-- silent (if nodesToBuffer =? 0 then MakePrimitiveBlock nodes ws rs else MakePrimitiveBlock pendingNodes ws rs) ;;
      _ <-- tell (SetCurrentState tfEncoding ++ [Doing (Encoding i)]) ;;
      outputData <-- silent (Blob_Write (mkBlob None None None (Some (PrimitiveBlock_Write pbOut))) []) ;;
      _ <-- tell (sendBlock (Sending i)) ;;
      let pendingNodes := if 0 <? nodesToBuffer then nodes else pendingNodes in
      silent (Ok (pendingNodes, mkBlk i (exact outputData) tOSMData))
    else
      _ <-- tell (sendBlock (Sending i)) ;;
      silent (Ok (pendingNodes ++ nodes, mkBlk i (exact []) tFiller)).
(** tagfilterer_worker.go:128-209, as TfModel.tf_worker *)
Fixpoint tf_serve (pendingNodes : list HLNode) (inBlocks : list (zenv * Block)) (sent : list Block) : told (list HLNode * list Block) :=
  _ <-- tell [Doing Waiting] ;;
  match inBlocks with
  | [] => silent (Ok (pendingNodes, sent))
  | (env, data) :: r =>
      '(pendingNodes, msg) <-- tf_told env pendingNodes data ;;
      tf_serve pendingNodes r (sent ++ [msg])
  end.
Definition tf_worker_told (inBlocks : list (zenv * Block)) : told (list Block) :=
  '(pendingNodes, sent) <-- tf_serve [] inBlocks [] ;;
  silent (if 0 <? zlen pendingNodes then Panic (PanicMsg "pending nodes") else Ok sent).

(** ** The widgets *)

(** What update() leaves on the line: SetText, SetMarkup of ui.MarkupAsProgress (PgModel.MarkupAsProgressF with the width of the view), or
    nothing new. *)
Inductive line : Type := Text (s : list Z) | Bar (s : list Z) (pct : f64) | Unchanged.
(** update() is a sequence of atomic loads, each of which may depend on the earlier ones, and what is shown then. *)
Inductive update : Type := Load (c : cell) (k : Z -> update) | Show (l : line).
(** fmt's %d of a uint64 *)
Definition d_ (n : Z) : list Z := decimal 20 n.

(** cmd/decompress/decompressor/widget/widget_state_worker.go:26-39 *)
Definition dc_worker_widget : update :=
  Load CState (fun s =>
  let numbered t := Load CBlock (fun block => Show (Text (bytes_of t ++ d_ block))) in
  if s =? dcReceivingBlock then Show (Text (bytes_of "Worker: waiting for block"))
  else if s =? dcDecodingBlob then numbered "Worker: decoding blob "%string
  else if s =? dcDecompressingBlob then numbered "Worker: decompressing blob "%string
  else if s =? dcEncodingBlob then numbered "Worker: encoding blob "%string
  else if s =? dcSendingBlock then numbered "Worker: sending block "%string
  else Show Unchanged).
(** cmd/nodeindex/indexer/widget/widget_state_worker.go:26-37, and the same in cmd/wayindex and cmd/relindex *)
Definition ix_worker_widget : update :=
  Load CState (fun s =>
  let numbered t := Load CBlock (fun block => Show (Text (bytes_of t ++ d_ block))) in
  if s =? ixReading then Show (Text (bytes_of "Worker: waiting for block"))
  else if s =? ixDecoding then numbered "Worker: decoding block "%string
  else if s =? ixProcessing then numbered "Worker: processing block "%string
  else if s =? ixWriting then numbered "Worker: sending block "%string
  else Show Unchanged).
(** cmd/rewritenodes/rewriter/widget/widget_state_worker.go:27-51; [view]: the widget has a view (line 41) *)
Definition rw_worker_widget (view : bool) : update :=
  Load CState (fun s =>
  let numbered t := Load CBlock (fun block => Show (Text (bytes_of t ++ d_ block))) in
  if s =? rwReading then Show (Text (bytes_of "Worker: waiting for block"))
  else if s =? rwDecoding then numbered "Worker: decoding block "%string
  else if s =? rwWorking then
    Load CWay (fun at_ => Load CWays (fun max => Load CBlock (fun block =>
    let msg := bytes_of "Worker: working on block " ++ d_ block ++ bytes_of ", way " ++ d_ at_ ++ bytes_of "/" ++ d_ max in
    if negb view then Show (Text msg) else Show (Bar msg (fraction at_ max)))))
  else if s =? rwWriting then numbered "Worker: sending block "%string
  else Show Unchanged).
(** cmd/tagfilter/tagfilterer/widget/widget_state_worker.go:26-39 *)
Definition tf_worker_widget : update :=
  Load CState (fun s =>
  let numbered t := Load CBlock (fun block => Load CKept (fun kept => Load CDropped (fun dropped =>
    Show (Text (bytes_of t ++ d_ block ++ bytes_of ", " ++ d_ kept ++ bytes_of " kept, " ++ d_ dropped ++ bytes_of " dropped"))))) in
  if s =? tfReading then Show (Text (bytes_of "Worker: waiting for block"))
  else if s =? tfDecoding then numbered "Worker: decoding block "%string
  else if s =? tfWorking then numbered "Worker: processing block "%string
  else if s =? tfEncoding then numbered "Worker: encoding block "%string
  else if s =? tfWriting then numbered "Worker: sending block "%string
  else Show Unchanged).
