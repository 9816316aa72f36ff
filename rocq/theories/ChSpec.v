(** * ChSpec: files that the tools write, as OSM files. *)
From Verif Require Import Base PbSpec TSpec TModel HLModel HLSpec FrModel FrSpec ZlModel ZlSpec TfSpec NiModel NiSpec WsSpec EeSpec.

(** Every blob of the file, the headers too, has a content, which is not empty and not too large to
    be stored again. *)
Definition contents_ok (env : Z -> zenv) (file : list Z) : Prop :=
  forall blobs i b, pbf_file file blobs -> nth_error blobs i = Some b ->
    exists raw, data_of (env (Z.of_nat i)) (snd b) raw /\ raw <> [] /\ zlen raw < 2^31 - 20.

(** ** The elements of a block with their strings *)

(** The string number [i] of the block's table. *)
Definition string_at (p : PrimitiveBlock) (i : Z) (s : list Z) : Prop :=
  exists st, pblk_StringTable p = Some st /\ 0 <= i /\ nth_error st (Z.to_nat i) = Some s.
(** Keys and values as string numbers; no key twice. *)
Definition tags_at (p : PrimitiveBlock) (ks vs : list Z) (tags : list (list Z * list Z)) : Prop :=
  NoDup (map fst tags) /\ Forall2 (string_at p) ks (map fst tags) /\ Forall2 (string_at p) vs (map snd tags).

(** A stored way or relation is this way or relation (refs as 64-bit unsigned numbers). *)
Definition is_way (p : PrimitiveBlock) (w : Way) (h : HLWay) : Prop :=
  hw_Id h = way_ID w /\ tags_at p (way_Keys w) (way_Vals w) (hw_Tags h) /\ hw_Nodes h = map (fun r => r mod 2^64) (way_Refs w).
Definition is_relation (p : PrimitiveBlock) (r : Relation) (h : HLRelation) : Prop :=
  hr_Id h = rel_ID r /\ tags_at p (rel_Keys r) (rel_Vals r) (hr_Tags h) /\ Forall2 (string_at p) (rel_RolesSID r) (hr_Roles h) /\
  hr_Members h = rel_MemIDs r /\ hr_MemberType h = rel_MemberType r /\ Forall (fun t => 0 <= t < 2^63) (rel_MemberType r).

(** keys_vals: for each node its keys and values, one after the other, then 0; or nothing at all if
    no node has a tag.  So 0 is not a key. *)
Definition keys_vals (kvs : list (list (Z * Z))) : list Z :=
  concat (map (fun kv => concat (map (fun e => [fst e; snd e]) kv) ++ [0]) kvs).
Inductive are_nodes (p : PrimitiveBlock) : list Z -> list Z -> list Z -> list (list (Z * Z)) -> list HLNode -> Prop :=
| no_nodes : are_nodes p [] [] [] [] []
| one_node id lat lon kv n ids lats lons kvs ns :
    hn_Id n = id mod 2^64 ->
    hn_Lat n = pblk_LatOffset p + pblk_Granularity p * lat -> is_s64 (pblk_Granularity p * lat) -> is_s64 (hn_Lat n) ->
    hn_Lon n = pblk_LonOffset p + pblk_Granularity p * lon -> is_s64 (pblk_Granularity p * lon) -> is_s64 (hn_Lon n) ->
    tags_at p (map fst kv) (map snd kv) (hn_Tags n) -> ~ In 0 (map fst kv) ->
    are_nodes p ids lats lons kvs ns ->
    are_nodes p (id :: ids) (lat :: lats) (lon :: lons) (kv :: kvs) (n :: ns).
Definition dense_nodes_are (p : PrimitiveBlock) (g : PrimitiveGroup) (ns : list HLNode) : Prop :=
  match pg_Dense g with
  | None => ns = []
  | Some d => exists kvs, are_nodes p (dn_Id d) (dn_Lat d) (dn_Lon d) kvs ns /\
                (dn_KeyVals d = keys_vals kvs \/ dn_KeyVals d = [] /\ Forall (fun kv => kv = []) kvs)
  end.

(** All nodes, ways and relations of a block, in order. *)
Definition nodes_are (p : PrimitiveBlock) (ns : list HLNode) : Prop :=
  exists nss, Forall2 (dense_nodes_are p) (pblk_PrimitiveGroup p) nss /\ ns = concat nss.
Definition ways_are (p : PrimitiveBlock) (ws : list HLWay) : Prop :=
  Forall2 (is_way p) (flat_map (fun g => elems (pg_Ways g)) (pblk_PrimitiveGroup p)) ws.
Definition relations_are (p : PrimitiveBlock) (rs : list HLRelation) : Prop :=
  Forall2 (is_relation p) (flat_map (fun g => elems (pg_Relations g)) (pblk_PrimitiveGroup p)) rs.

(** The elements of each block of a file; [None] for a header. *)
Record elements_of : Type := mkElements { el_nodes : list HLNode; el_ways : list HLWay; el_relations : list HLRelation }.
Definition elements_are (c : option PrimitiveBlock) (e : option elements_of) : Prop :=
  match c, e with
  | None, None => True
  | Some p, Some e => nodes_are p (el_nodes e) /\ ways_are p (el_ways e) /\ relations_are p (el_relations e)
  | _, _ => False
  end.

(** ** The tag filter, block by block: headers, ways and relations are kept; nodes with a tag that is
    not deleted are kept with those tags, coordinates moved towards zero to a multiple of 100; a
    block of which nothing is left is dropped. *)
Inductive filtered : list (option elements_of) -> list (option elements_of) -> Prop :=
| fil_nil : filtered [] []
| fil_header es es' : filtered es es' -> filtered (None :: es) (None :: es')
| fil_drop ns es es' : interesting ns [] -> filtered es es' -> filtered (Some (mkElements ns [] []) :: es) es'
| fil_keep ns ws rs ns1 ns' ws' rs' es es' :
    interesting ns ns1 -> Forall2 quantised_node ns1 ns' -> Forall2 same_way ws ws' -> Forall2 same_rel rs rs' ->
    ~ (ns' = [] /\ ws' = [] /\ rs' = []) -> filtered es es' ->
    filtered (Some (mkElements ns ws rs) :: es) (Some (mkElements ns' ws' rs') :: es').

(** A block as the filter writes it, of the elements [e]: ways and relations are right, and nodes
    have the right ids and places, and the right tags as well just if no node has a tag whose key is
    the first string of the block's table (see C27). *)
Definition node_place (n : HLNode) : input_node := mkInput (s64 (hn_Id n)) (Z.quot (hn_Lon n) 100) (Z.quot (hn_Lat n) 100).
Definition written_as (c : option PrimitiveBlock) (e : option elements_of) : Prop :=
  match c, e with
  | None, None => True
  | Some p, Some e =>
      ways_are p (el_ways e) /\ relations_are p (el_relations e) /\ block_nodes p = map node_place (el_nodes e) /\
      (nodes_are p (el_nodes e) <-> first_key_free (el_nodes e) (el_ways e) (el_relations e))
  | _, _ => False
  end.
(** No tag key, tag value or role is the empty string. *)
Definition no_empty (e : option elements_of) : Prop := match e with None => True | Some e => ~ In [] (all_strings (el_nodes e) (el_ways e) (el_relations e)) end.

(** ** What filtering leaves of a file *)
(** [l] is what is left of [m] when some of it is left out. *)
Inductive left_of {A : Type} : list A -> list A -> Prop :=
| left_nil : left_of [] []
| left_out x l m : left_of l m -> left_of l (x :: m)
| left_in x l m : left_of l m -> left_of (x :: l) (x :: m).
(** What the indexes need of a relation. *)
Definition members (r : Relation) : Z * list Z * list Z := (rel_ID r, rel_MemIDs r, rel_MemberType r).
