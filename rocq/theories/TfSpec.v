(** * TfSpec: which tags the tag filter deletes, and what a filtered block contains. *)
From Verif Require Import Base PbSpec TModel HLModel HLSpec FrModel ZlModel.

(** The published lists (alphabetical; transcribed separately from TfModel). *)
Definition listed_names : list string := [
  "3dshapes:ggmodelk"; "AND_nosr_r"; "OBJTYPE"; "OPPDATERIN"; "SK53_bulk:load"; "accuracy:meters";
  "addr:city:simc"; "addr:street:sym_ul"; "attribution"; "building:ruian:type"; "building:usage:pl";
  "building:use:pl"; "chicago:building_id"; "comment"; "created_by"; "dcgis:gis_id"; "dibavod:id";
  "fixme"; "gst:feat_id"; "import"; "import_uuid"; "lojic:bgnum"; "maaamet:ETAK"; "massgis:way_id";
  "note"; "nycdoitt:bin"; "odbl"; "odbl:note"; "project:eurosha_2012"; "raba:id"; "ref:FR:FANTOIR";
  "ref:UrbIS"; "ref:ruian"; "ref:ruian:addr"; "source"; "source_ref"; "statscan:rbuid";
  "sub_sea:type"; "teryt:simc"; "uir_adr:ADRESA_KOD"; "waterway:type"]%string.
Definition listed_prefixes : list string := [
  "CLC:"; "KSJ2:"; "LINZ2OSM:"; "LINZ:"; "NHD:"; "WroclawGIS:"; "canvec:"; "geobase:"; "gnis:";
  "it:fvg:"; "kms:"; "linz2osm:"; "mvdgis:"; "naptan:"; "ngbe:"; "nhd:"; "note:"; "osak:";
  "source:"; "tiger:"; "yh:"]%string.

(** The key is deleted. *)
Definition deleted (k : list Z) : Prop :=
  (exists s, In s listed_names /\ k = bytes_of s) \/
  (exists p r, In p listed_prefixes /\ k = bytes_of p ++ r).

(** [out] are the nodes of [ns], in order, that have a kept tag, each with exactly its
    kept tags. *)
Inductive interesting : list HLNode -> list HLNode -> Prop :=
| int_nil : interesting [] []
| int_drop n ns out :
    (forall k v, In (k, v) (hn_Tags n) -> deleted k) ->
    interesting ns out -> interesting (n :: ns) out
| int_keep n n' ns out :
    hn_Id n' = hn_Id n -> hn_Lat n' = hn_Lat n -> hn_Lon n' = hn_Lon n ->
    (forall k v, In (k, v) (hn_Tags n') <-> In (k, v) (hn_Tags n) /\ ~ deleted k) ->
    is_map (hn_Tags n') -> (exists k v, In (k, v) (hn_Tags n')) ->
    interesting ns out -> interesting (n :: ns) (n' :: out).

(** The block decodes to the message [p] when decompressed in environment [env]. *)
Definition decodes_to (env : zenv) (b : Block) (p : PrimitiveBlock) : Prop :=
  exists bl raw, ReadBlob (blk_Data b) Blob0 = Ok bl /\ GetRawData env bl = Ok raw /\
    ReadPrimitiveBlock (mkReader false false false false) raw PrimitiveBlock0 = Ok p.

Definition entities (env : zenv) (b : Block) ns ws rs : Prop :=
  exists p, decodes_to env b p /\ ToNodes p = Ok ns /\ ToWays p = Ok ws /\ ToRelations p = Ok rs.

(** The decompressor's output and the pool's memory consist of bytes and fit an address
    space. *)
Definition env_ok (env : zenv) : Prop :=
  Forall (fun e => bytes (fst e)) (ze_reads env) /\ bytes (ze_pooled env) /\ zlen (ze_pooled env) < 2^63.
