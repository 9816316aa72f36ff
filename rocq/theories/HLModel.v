(** * HLModel: string table builder and entity conversion of /repo/internal/t.

    A Go string is its bytes.  A Go map is a list of pairs with distinct keys; the list
    order is the (arbitrary) order in which the runtime iterates it, so quantifying over
    lists quantifies over iteration orders.  [sort.Slice]/[sort.Strings] are modelled
    by insertion sort; the orders used are total on the elements sorted, so every
    correct sort gives the same list (theorem C24_sort_unique). *)
From Verif Require Import Base PbModel TModel.

(** ** strings and maps of the Go runtime *)

(** [strings.Compare(a, b) < 0], also [<] on Go strings. *)
Fixpoint slt (a b : list Z) : bool :=
  match a, b with
  | _, [] => false
  | [], _ :: _ => true
  | x :: a', y :: b' => if x <? y then true else if y <? x then false else slt a' b'
  end.

Definition seqb (a b : list Z) : bool := if list_eq_dec Z.eq_dec a b then true else false.

Definition smap (V : Type) : Type := list (list Z * V).

(** [v, ok := m[k]] *)
Fixpoint mget {V} (m : smap V) (k : list Z) : option V :=
  match m with
  | [] => None
  | (k', v) :: r => if seqb k' k then Some v else mget r k
  end.

(** [m[k] = v] *)
Fixpoint mset {V} (m : smap V) (k : list Z) (v : V) : smap V :=
  match m with
  | [] => [(k, v)]
  | (k', v') :: r => if seqb k' k then (k', v) :: r else (k', v') :: mset r k v
  end.

Fixpoint insert {A} (less : A -> A -> bool) (x : A) (l : list A) : list A :=
  match l with
  | [] => [x]
  | y :: r => if less y x then y :: insert less x r else x :: y :: r
  end.
Definition isort {A} (less : A -> A -> bool) (l : list A) : list A := fold_right (insert less) [] l.

(** ** string_table_builder.go *)

(** internal/t/string_table_builder.go:9-13; [None] is the nil map. *)
Record Builder : Type := mkBuilder
  { stb_freq : option (smap Z); stb_index : option (smap Z); stb_list : list (list Z) }.

(** string_table_builder.go:15-20 *)
Definition NewStringTableBuilder : Builder :=
  mkBuilder (Some [([], 2^32 - 1)]) None [[]].

(** string_table_builder.go:29-36 *)
Definition AddString (stb : Builder) (s : list Z) : res Builder :=
  match stb_freq stb with
  | None => Panic (PanicMsg "assignment to entry in nil map")
  | Some f =>
      match mget f s with
      | None => Ok (mkBuilder (Some (mset f s 1)) (stb_index stb) (stb_list stb ++ [s]))
      | Some n => Ok (mkBuilder (Some (mset f s (u32 (n + 1)))) (stb_index stb) (stb_list stb))
      end
  end.

(** string_table_builder.go:22-27 *)
Definition AddMap (stb : Builder) (m : smap (list Z)) : res Builder :=
  foldm (fun stb '(k, v) => stb <- AddString stb k ;; AddString stb v) m stb.

(** string_table_builder.go:39-48, the comparison; a missing key reads as 0. *)
Definition freq_of (f : smap Z) (s : list Z) : Z :=
  match mget f s with Some n => n | None => 0 end.
Definition stb_less (f : smap Z) (a b : list Z) : bool :=
  if negb (freq_of f a =? freq_of f b) then freq_of f b <? freq_of f a else slt a b.

(** string_table_builder.go:52-54 *)
Fixpoint set_indexes (m : smap Z) (idx : Z) (l : list (list Z)) : smap Z :=
  match l with
  | [] => m
  | s :: r => set_indexes (mset m s (u32 idx)) (idx + 1) r
  end.

(** string_table_builder.go:38-55 *)
Definition Finalize (stb : Builder) : res Builder :=
  match stb_freq stb with
  | None => Panic (PanicMsg "assignment to entry in nil map")
  | Some f =>
      let sorted := isort (stb_less f) (stb_list stb) in
      Ok (mkBuilder None (Some (set_indexes f 0 sorted)) sorted)
  end.

(** string_table_builder.go:57-63; the panic value is the string itself. *)
Definition GetIndex (stb : Builder) (s : list Z) : res Z :=
  match stb_index stb with
  | None => Panic (PanicMsg "unknown string")
  | Some m => match mget m s with Some i => Ok i | None => Panic (PanicMsg "unknown string") end
  end.

(** string_table_builder.go:65-69 *)
Definition ToStringTable (stb : Builder) : list (list Z) := stb_list stb.

(** [m[k]] for a key obtained by ranging over [m]. *)
Definition mval (m : smap (list Z)) (k : list Z) : list Z :=
  match mget m k with Some v => v | None => [] end.

(** string_table_builder.go:71-86 *)
Definition ToKeyVals (stb : Builder) (m : smap (list Z)) : res (list Z * list Z) :=
  let sortedKeys := isort slt (map fst m) in
  foldm (fun '(ks, vs) k =>
           i <- GetIndex stb k ;;
           j <- GetIndex stb (mval m k) ;;
           Ok (ks ++ [i], vs ++ [j])) sortedKeys ([], []).

(** string_table_builder.go:88-102 *)
Definition ToKeyValLinear (stb : Builder) (m : smap (list Z)) : res (list Z) :=
  let sortedKeys := isort slt (map fst m) in
  foldm (fun ids k =>
           i <- GetIndex stb k ;;
           j <- GetIndex stb (mval m k) ;;
           Ok (ids ++ [s32 i; s32 j])) sortedKeys [].

(** ** entities *)

(** primitive_block_nodes.go:5-10, primitive_block_ways.go:3-7,
    primitive_block_relations.go:5-11 *)
Record HLNode : Type := mkNode
  { hn_Id : Z; hn_Tags : smap (list Z); hn_Lat : Z; hn_Lon : Z }.
Record HLWay : Type := mkHWay
  { hw_Id : Z; hw_Tags : smap (list Z); hw_Nodes : list Z }.
Record HLRelation : Type := mkHRel
  { hr_Id : Z; hr_Tags : smap (list Z); hr_Roles : list (list Z); hr_Members : list Z;
    hr_MemberType : list Z }.

(** primitive_block.go:113-115 *)
Definition GetString (p : PrimitiveBlock) (id : Z) : res (list Z) :=
  match pblk_StringTable p with
  | None => Panic NilDeref
  | Some st => lidx st id
  end.

(** The tag loops: primitive_block_nodes.go:22-24, primitive_block_ways.go:17-19,
    primitive_block_relations.go:19-21 (lines of the respective file). *)
Fixpoint tag_loop (p : PrimitiveBlock) (ks vs : list Z) (idx : Z) (tags : smap (list Z))
  : res (smap (list Z)) :=
  match ks with
  | [] => Ok tags
  | kId :: r =>
      k <- GetString p kId ;;
      vId <- lidx vs idx ;;
      v <- GetString p vId ;;
      tag_loop p r vs (idx + 1) (mset tags k v)
  end.

(** primitive_block_nodes.go:19-31, the loop over the nodes of one dense section;
    [idxs] are the values of [i] still to come.  The section is a pointer whose lookup
    cache is filled by the first call, so it is threaded. *)
Fixpoint dense_loop (p : PrimitiveBlock) (d : DenseNodes) (idxs : list Z) : res (list HLNode) :=
  match idxs with
  | [] => Ok []
  | i :: r =>
      '(ks, vs, d) <- GetKeyVals d i ;;
      tags <- tag_loop p ks vs 0 [] ;;
      id <- lidx (dn_Id d) i ;;
      lat <- lidx (dn_Lat d) i ;;
      lon <- lidx (dn_Lon d) i ;;
      rest <- dense_loop p d r ;;
      Ok (mkNode (u64 id) tags
            (s64 (pblk_LatOffset p + s64 (pblk_Granularity p * lat)))
            (s64 (pblk_LonOffset p + s64 (pblk_Granularity p * lon))) :: rest)
  end.
Definition indexes {A} (l : list A) : list Z := map Z.of_nat (seq 0 (List.length l)).

(** primitive_block_nodes.go:14-36 *)
Definition ToNodes (p : PrimitiveBlock) : res (list HLNode) :=
  foldm (fun ns pg =>
           match pg_Dense pg with
           | None => Ok ns
           | Some d => new <- dense_loop p d (indexes (dn_Id d)) ;; Ok (ns ++ new)
           end) (pblk_PrimitiveGroup p) [].

(** primitive_block_ways.go:15-29, one way *)
Definition to_hl_way (p : PrimitiveBlock) (w : Way) : res HLWay :=
  tags <- tag_loop p (way_Keys w) (way_Vals w) 0 [] ;;
  Ok (mkHWay (way_ID w) tags (map u64 (way_Refs w))).
(** primitive_block_ways.go:11-33 *)
Definition ToWays (p : PrimitiveBlock) : res (list HLWay) :=
  foldm (fun ws pg =>
           new <- mapm (to_hl_way p) (match pg_Ways pg with Some l => l | None => [] end) ;;
           Ok (ws ++ new)) (pblk_PrimitiveGroup p) [].

(** primitive_block_relations.go:18-40, one relation *)
Definition to_hl_rel (p : PrimitiveBlock) (r : Relation) : res HLRelation :=
  tags <- tag_loop p (rel_Keys r) (rel_Vals r) 0 [] ;;
  roles <- mapm (fun role => GetString p (u32 role)) (rel_RolesSID r) ;;
  Ok (mkHRel (rel_ID r) tags roles (rel_MemIDs r) (map s64 (rel_MemberType r))).
(** primitive_block_relations.go:15-45 *)
Definition ToRelations (p : PrimitiveBlock) : res (list HLRelation) :=
  foldm (fun rs pg =>
           new <- mapm (to_hl_rel p) (match pg_Relations pg with Some l => l | None => [] end) ;;
           Ok (rs ++ new)) (pblk_PrimitiveGroup p) [].

(** primitive_block_nodes.go:38-42, primitive_block_ways.go:35-39,
    primitive_block_relations.go:47-54: AddTagsToStringTable *)
Definition nodes_add (ns : list HLNode) (stb : Builder) : res Builder :=
  foldm (fun stb n => AddMap stb (hn_Tags n)) ns stb.
Definition ways_add (ws : list HLWay) (stb : Builder) : res Builder :=
  foldm (fun stb w => AddMap stb (hw_Tags w)) ws stb.
Definition rels_add (rs : list HLRelation) (stb : Builder) : res Builder :=
  foldm (fun stb r => stb <- AddMap stb (hr_Tags r) ;; foldm AddString (hr_Roles r) stb) rs stb.

(** primitive_block_nodes.go:44-68 Nodes.ToPrimitiveGroup ([/] truncates towards zero) *)
Definition nodes_group (ns : list HLNode) (stb : Builder) : res PrimitiveGroup :=
  dn <- foldm (fun dn n =>
          kv <- ToKeyValLinear stb (hn_Tags n) ;;
          Ok (mkDense (dn_Id dn ++ [s64 (hn_Id n)]) (dn_Lat dn ++ [Z.quot (hn_Lat n) 100])
                (dn_Lon dn ++ [Z.quot (hn_Lon n) 100]) (dn_KeyVals dn ++ kv ++ [0]) [] []))
        ns DenseNodes0 ;;
  let dn := if zlen (dn_KeyVals dn) =? zlen (dn_Id dn)
            then mkDense (dn_Id dn) (dn_Lat dn) (dn_Lon dn) [] [] [] else dn in
  Ok (mkGroup None (Some dn) None [] None []).

(** primitive_block_ways.go:41-59 Ways.ToPrimitiveGroup *)
Definition ways_group (ws : list HLWay) (stb : Builder) : res PrimitiveGroup :=
  new <- mapm (fun w =>
           '(ks, vs) <- ToKeyVals stb (hw_Tags w) ;;
           Ok (mkWay (hw_Id w) ks vs (map s64 (hw_Nodes w)))) ws ;;
  Ok (mkGroup None None (Some new) [] None []).

(** primitive_block_relations.go:56-82 Relations.ToPrimitiveBlock *)
Definition rels_group (rs : list HLRelation) (stb : Builder) : res PrimitiveGroup :=
  new <- mapm (fun r =>
           '(ks, vs) <- ToKeyVals stb (hr_Tags r) ;;
           roles <- mapm (fun role => i <- GetIndex stb role ;; Ok (s32 i)) (hr_Roles r) ;;
           Ok (mkRelation (hr_Id r) ks vs roles (hr_Members r) (map u64 (hr_MemberType r)))) rs ;;
  Ok (mkGroup None None None [] (Some new) []).

(** primitive_block.go:85-111 *)
Definition MakePrimitiveBlock (ns : list HLNode) (ws : list HLWay) (rs : list HLRelation)
  : res PrimitiveBlock :=
  let stb := NewStringTableBuilder in
  stb <- nodes_add ns stb ;;
  stb <- ways_add ws stb ;;
  stb <- rels_add rs stb ;;
  stb <- Finalize stb ;;
  g1 <- (if 0 <? zlen ns then g <- nodes_group ns stb ;; Ok [g] else Ok []) ;;
  g2 <- (if 0 <? zlen ws then g <- ways_group ws stb ;; Ok [g] else Ok []) ;;
  g3 <- (if 0 <? zlen rs then g <- rels_group rs stb ;; Ok [g] else Ok []) ;;
  Ok (mkBlock None (Some (ToStringTable stb)) (g1 ++ g2 ++ g3) 100 1000 0 0).
