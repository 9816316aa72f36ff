(** * EeSpec: OSM files, from the bytes of the file to nodes, ways and relations.

    Files in terms of the two schema files (WsSpec); nothing here refers to how the tools read or
    write.  Whole tool chain: what the relation index should list for the data of a file. *)
From Verif Require Import Base PbSpec TModel HLModel FrModel FrSpec ZlModel ZlSpec TfSpec MtModel IoModel IoSpec NiModel NiSpec RwModel RwSpec WiModel WiSpec RiModel RiSpec WsSpec.

(** ** Files *)

(** A frame: the size of the header in four bytes, the header, the blob. *)
Definition pbf_frame (fb ty data : list Z) : Prop :=
  exists sz hdr, fb = sz ++ hdr ++ data /\ big_endian4 sz (zlen hdr) /\ header_msg hdr (mkBlobHeader ty (zlen data)).
Fixpoint pbf_file (file : list Z) (blobs : list (list Z * list Z)) : Prop :=
  match blobs with
  | [] => file = []
  | (ty, data) :: r => exists fb rest, file = fb ++ rest /\ pbf_frame fb ty data /\ pbf_file rest r
  end.

(** Nothing of a block is skipped. *)
Definition everything : PBReader := mkReader false false false false.

(** [raw] is the content of the blob [data]: stored as it is, or what zlib, as seen by the
    decompression in [env], makes of it, with its size. *)
Definition data_of (env : zenv) (data raw : list Z) : Prop :=
  (exists size zlib, blob_msg data (Some raw) size zlib) \/
  (exists n zlib, blob_msg data None (Some n) (Some zlib) /\ ze_open env = true /\ stream (ze_reads env) = raw /\ zlen raw = n).
(** A blob is a header, or a block of data, the same for every run that decompresses it. *)
Definition blob_is {R : Type} (env : R -> zenv) (blob : list Z * list Z) (content : option PrimitiveBlock) : Prop :=
  match content with
  | None => fst blob = bytes_of "OSMHeader"
  | Some p => fst blob = bytes_of "OSMData" /\ exists raw, (forall run, data_of (env run) (snd blob) raw) /\ block_msg everything raw p
  end.
(** The file holds these blocks, whichever run decompresses it; [envs run i] is what run [run]
    sees when it decompresses blob [i]. *)
Definition osm_file {R : Type} (envs : R -> Z -> zenv) (file : list Z) (blocks : list (option PrimitiveBlock)) : Prop :=
  bytes file /\ zlen file < 2^63 /\
  exists blobs, pbf_file file blobs /\ List.length blobs = List.length blocks /\
    forall i b c, nth_error blobs i = Some b -> nth_error blocks i = Some c -> blob_is (fun run => envs run (Z.of_nat i)) b c.

(** The elements of the file, in order. *)
Definition of_blocks {A} (f : PrimitiveBlock -> list A) (blocks : list (option PrimitiveBlock)) : list A :=
  flat_map (fun c => match c with Some p => f p | None => [] end) blocks.
Definition file_nodes : list (option PrimitiveBlock) -> list input_node := of_blocks block_nodes.
Definition file_ways : list (option PrimitiveBlock) -> list (Z * list Z) := of_blocks block_ways.
Definition file_relations : list (option PrimitiveBlock) -> list Relation := of_blocks block_relations.

(** ** Rewriting *)

(** The passes together have the ranges that a single pass has. *)
Definition covering (idx : NodeIndex) (n : Z) : Prop :=
  exists all subs, SubIndex idx 0 1 = Ok all /\ passes idx n = Ok subs /\ concat (map si_element subs) = si_element all.
(** Every ref of every way replaced by [f] of it. *)
Definition with_refs (f : Z -> Z) (blocks : list (option PrimitiveBlock)) : list (option PrimitiveBlock) :=
  map (option_map (block_with f)) blocks.

(** Within the limits of the format, and a bit more: blocks of less than 32 MiB, at most 8000 ways
    in a block, at most 1600 tags (keys and values counted) and refs in a way. *)
Definition small_way (w : Way) : Prop := zlen (way_Keys w) + zlen (way_Vals w) + zlen (way_Refs w) <= 1600.
Definition small_ways (p : PrimitiveBlock) : Prop :=
  zlen (block_ways p) <= 8000 /\ forall g ws, In g (pblk_PrimitiveGroup p) -> pg_Ways g = Some ws -> Forall small_way ws.
Definition small_file {R : Type} (envs : R -> Z -> zenv) (file : list Z) (blocks : list (option PrimitiveBlock)) : Prop :=
  (forall p, In (Some p) blocks -> small_ways p) /\ zlen blocks < 2^31 /\
  forall blobs i data run raw, pbf_file file blobs -> nth_error blobs i = Some (bytes_of "OSMData", data) ->
    data_of (envs run (Z.of_nat i)) data raw -> zlen raw < 2^25.

(** ** The tool chain *)
(** The location of the node [ref], or [ref] itself if there is no such node. *)
Definition located (ns : list input_node) (ref : Z) : Z :=
  match find (fun n => in_id n =? ref) ns with
  | Some n => match location (in_lon n) (in_lat n) with Ok loc => loc | _ => ref end
  | None => ref
  end.
Definition located_way (ns : list input_node) (w : Z * list Z) : Z * list Z := (fst w, map (located ns) (snd w)).

(** The runs of the chain; a rewriting has one run per pass. *)
Inductive run : Type := IndexNodes | Rewrite (pass : Z) | IndexWays | IndexRelations.
