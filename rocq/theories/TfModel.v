(** * TfModel: the tag filter (cmd/tagfilter/tagfilterer). *)
From Verif Require Import Base PbModel TModel HLModel FrModel ZlModel.

(** cmd/tagfilter/tagfilterer/tagfilterer_worker.go:14-56 *)
Definition deleteTags : list string := [
  "note"; "source"; "source_ref"; "attribution"; "comment"; "fixme"; "created_by"; "odbl";
  "odbl:note"; "project:eurosha_2012"; "ref:UrbIS"; "accuracy:meters"; "sub_sea:type";
  "waterway:type"; "statscan:rbuid"; "ref:ruian:addr"; "ref:ruian"; "building:ruian:type";
  "dibavod:id"; "uir_adr:ADRESA_KOD"; "gst:feat_id"; "maaamet:ETAK"; "ref:FR:FANTOIR";
  "3dshapes:ggmodelk"; "AND_nosr_r"; "OPPDATERIN"; "addr:city:simc"; "addr:street:sym_ul";
  "building:usage:pl"; "building:use:pl"; "teryt:simc"; "raba:id"; "dcgis:gis_id";
  "nycdoitt:bin"; "chicago:building_id"; "lojic:bgnum"; "massgis:way_id"; "import";
  "import_uuid"; "OBJTYPE"; "SK53_bulk:load"]%string.

(** tagfilterer_worker.go:58-81 *)
Definition deletePrefixes : list string := [
  "note:"; "source:"; "CLC:"; "geobase:"; "canvec:"; "geobase:"; "osak:"; "kms:"; "ngbe:";
  "it:fvg:"; "KSJ2:"; "yh:"; "LINZ2OSM:"; "linz2osm:"; "LINZ:"; "WroclawGIS:"; "naptan:";
  "tiger:"; "gnis:"; "NHD:"; "nhd:"; "mvdgis:"]%string.

(** tagfilterer_worker.go:83 *)
Definition nodesToBuffer : Z := 0.

(** strings.HasPrefix(s, p) *)
Fixpoint hasPrefix (s p : list Z) : bool :=
  match p, s with
  | [], _ => true
  | _ :: _, [] => false
  | y :: p', x :: s' => (x =? y) && hasPrefix s' p'
  end.

(** tagfilterer_worker.go:85-97 *)
Fixpoint not_equal_any (l : list string) (s : list Z) : bool :=
  match l with
  | [] => true
  | f :: r => if seqb (bytes_of f) s then false else not_equal_any r s
  end.
Fixpoint not_prefixed_any (l : list string) (s : list Z) : bool :=
  match l with
  | [] => true
  | p :: r => if hasPrefix s (bytes_of p) then false else not_prefixed_any r s
  end.
Definition keepTag (s : list Z) : bool :=
  if not_equal_any deleteTags s then not_prefixed_any deletePrefixes s else false.

(** tagfilterer_worker.go:154-158: ranging over the map deleting entries; each entry is
    visited at most once and an entry not yet visited is visited, so the result does not
    depend on the order. *)
Definition filter_tags (m : smap (list Z)) : smap (list Z) := filter (fun kv => keepTag (fst kv)) m.

(** tagfilterer_worker.go:150-167: [nodes[idx] = node; idx++] with idx never ahead of the
    loop variable, then [nodes = nodes[:idx]]. *)
Fixpoint filter_nodes (nodes : list HLNode) : list HLNode :=
  match nodes with
  | [] => []
  | node :: r =>
      let tags := filter_tags (hn_Tags node) in
      if 0 <? zlen tags
      then mkNode (hn_Id node) tags (hn_Lat node) (hn_Lon node) :: filter_nodes r
      else filter_nodes r
  end.

(** tagfilterer_worker.go:119-124 *)
Definition tf_reader : PBReader := mkReader false false false false.

(** tagfilterer_worker.go:128-194: one iteration of the loop over inBlocks.  State:
    pendingNodes.  Result: new pendingNodes and the message sent.  Progress counters are
    not modelled.  [env] is the environment of decompression (ZlModel). *)
Definition tf_step (env : zenv) (pendingNodes : list HLNode) (data : Block)
  : res (list HLNode * Block) :=
  if negb (seqb (blk_Type data) tOSMData) then Ok (pendingNodes, data)
  else
    b <- ReadBlob (blk_Data data) Blob0 ;;
    raw <- GetRawData env b ;;
    pb <- ReadPrimitiveBlock tf_reader raw PrimitiveBlock0 ;;
    nodes <- ToNodes pb ;;
    ws <- ToWays pb ;;
    rs <- ToRelations pb ;;
    let nodes := filter_nodes nodes in
    if (nodesToBuffer <? zlen nodes + zlen pendingNodes) || (0 <? zlen ws) || (0 <? zlen rs) then
      pbOut <- (if nodesToBuffer =? 0 then MakePrimitiveBlock nodes ws rs
                else MakePrimitiveBlock pendingNodes ws rs) ;;
      outputData <- Blob_Write (mkBlob None None None (Some (PrimitiveBlock_Write pbOut))) [] ;;
      let pendingNodes := if 0 <? nodesToBuffer then nodes else pendingNodes in
      Ok (pendingNodes, mkBlk (blk_Index data) (exact outputData) tOSMData)
    else
      Ok (pendingNodes ++ nodes, mkBlk (blk_Index data) (exact []) tFiller).

(** tagfilterer_worker.go:113-209: a worker that is given these blocks (each with the
    environment it is decompressed in): the messages it sends. *)
Fixpoint tf_loop (pendingNodes : list HLNode) (inBlocks : list (zenv * Block)) (sent : list Block)
  : res (list HLNode * list Block) :=
  match inBlocks with
  | [] => Ok (pendingNodes, sent)
  | (env, data) :: r =>
      '(pendingNodes, msg) <- tf_step env pendingNodes data ;;
      tf_loop pendingNodes r (sent ++ [msg])
  end.
Definition tf_worker (inBlocks : list (zenv * Block)) : res (list Block) :=
  '(pendingNodes, sent) <- tf_loop [] inBlocks [] ;;
  if 0 <? zlen pendingNodes then Panic (PanicMsg "pending nodes") else Ok sent.
