(** * CtModel: the counting and finding tools (cmd/entitycount, cmd/blockcount,
    cmd/entityfind). *)
From Verif Require Import Base TModel HLModel FrModel ZlModel PlModel.

(** ** cmd/entitycount/entitycount.go *)

(** entitycount.go:23-28 [max] of two uint64 *)
Definition umax (a b : Z) : Z := if b <? a then a else b.

(** entitycount.go:32-40: the local variables of a worker *)
Record totals : Type := mkTot
  { t_block : Z; t_node : Z; t_way : Z; t_relation : Z; t_ref : Z;
    t_maxNode : Z; t_maxWay : Z; t_maxRelation : Z; t_maxRef : Z }.
Definition totals0 : totals := mkTot 0 0 0 0 0 0 0 0 0.

(** the slices of a group; a nil slice has no elements *)
Definition ways_of (g : PrimitiveGroup) : list Way := match pg_Ways g with Some ws => ws | None => [] end.
Definition rels_of (g : PrimitiveGroup) : list Relation := match pg_Relations g with Some rs => rs | None => [] end.

(** entitycount.go:63-68 *)
Definition ec_dense (t : totals) (d : DenseNodes) : totals :=
  fold_left (fun t nid => mkTot (t_block t) (t_node t) (t_way t) (t_relation t) (t_ref t)
                            (umax (u64 nid) (t_maxNode t)) (t_maxWay t) (t_maxRelation t) (t_maxRef t))
    (dn_Id d)
    (mkTot (t_block t) (u64 (t_node t + zlen (dn_Id d))) (t_way t) (t_relation t) (t_ref t)
       (t_maxNode t) (t_maxWay t) (t_maxRelation t) (t_maxRef t)).
(** entitycount.go:71-75 *)
Definition ec_way (t : totals) (w : Way) : totals :=
  mkTot (t_block t) (t_node t) (t_way t) (t_relation t) (u64 (t_ref t + zlen (way_Refs w)))
    (t_maxNode t) (umax (u64 (way_ID w)) (t_maxWay t)) (t_maxRelation t) (umax (t_maxRef t) (zlen (way_Refs w))).
(** entitycount.go:76-78 *)
Definition ec_relation (t : totals) (r : Relation) : totals :=
  mkTot (t_block t) (t_node t) (t_way t) (t_relation t) (t_ref t)
    (t_maxNode t) (t_maxWay t) (umax (u64 (rel_ID r)) (t_maxRelation t)) (t_maxRef t).
(** entitycount.go:62-79: one group *)
Definition ec_group (t : totals) (g : PrimitiveGroup) : totals :=
  let t := match pg_Dense g with Some d => ec_dense t d | None => t end in
  let t := mkTot (t_block t) (t_node t) (u64 (t_way t + zlen (ways_of g))) (u64 (t_relation t + zlen (rels_of g)))
             (t_ref t) (t_maxNode t) (t_maxWay t) (t_maxRelation t) (t_maxRef t) in
  let t := fold_left ec_way (ways_of g) t in
  fold_left ec_relation (rels_of g) t.
(** entitycount.go:42-44 *)
Definition ec_reader : PBReader := mkReader true false false false.
(** entitycount.go:46-81: one block *)
Definition ec_block (envs : Z -> zenv) (t : totals) (data : Block) : res totals :=
  let t := mkTot (u64 (t_block t + 1)) (t_node t) (t_way t) (t_relation t) (t_ref t)
             (t_maxNode t) (t_maxWay t) (t_maxRelation t) (t_maxRef t) in
  if negb (seqb (blk_Type data) tOSMData) then Ok t
  else
    b <- ReadBlob (blk_Data data) Blob0 ;;
    raw <- GetRawData (envs (blk_Index data)) b ;;
    pb <- ReadPrimitiveBlock ec_reader raw PrimitiveBlock0 ;;
    Ok (fold_left ec_group (pblk_PrimitiveGroup pb) t).
(** entitycount.go:31-81: the totals of a worker that received these blocks *)
Definition ec_worker (envs : Z -> zenv) (blocks : list Block) : res totals := foldm (ec_block envs) blocks totals0.
(** The workers of the pipeline: nothing is sent. *)
Definition ec_cfg (envs : Z -> zenv) (rp : bool) : cfg Block totals :=
  mkCfg (ec_block envs totals0) t_block false (fun _ => false) rp.

(** ** Shared counters

    [OAdd k v]: atomic.AddUint64 of cell [k]; [OMax k v]: atomicSetMaximum(v, cell [k])
    (entitycount.go:17-21), which is several atomic operations. *)
Inductive op : Type := OAdd (k : nat) (v : Z) | OMax (k : nat) (v : Z).
(** entitycount.go:84-92: what a worker does to the shared variables at the end *)
Definition ec_merge (t : totals) : list op :=
  [OAdd 0 (t_block t); OAdd 1 (t_node t); OAdd 2 (t_way t); OAdd 3 (t_relation t); OAdd 4 (t_ref t);
   OMax 5 (t_maxNode t); OMax 6 (t_maxWay t); OMax 7 (t_maxRelation t); OMax 8 (t_maxRef t)].

(** The shared variables, and the goroutines: what is left to do, and the value loaded if it is
    inside atomicSetMaximum between the load and the compare-and-swap. *)
Definition mem : Type := nat -> Z.
Definition mset_cell (m : mem) (k : nat) (v : Z) : mem := fun j => if Nat.eqb j k then v else m j.
Definition thread : Type := (list op * option Z)%type.
Inductive mstep : mem * list thread -> mem * list thread -> Prop :=
| m_add : forall m l r k v ops,
    mstep (m, l ++ (OAdd k v :: ops, None) :: r) (mset_cell m k (u64 (m k + v)), l ++ (ops, None) :: r)
(** entitycount.go:18: the load, and new > old *)
| m_load_less : forall m l r k v ops, m k < v ->
    mstep (m, l ++ (OMax k v :: ops, None) :: r) (m, l ++ (OMax k v :: ops, Some (m k)) :: r)
| m_load_enough : forall m l r k v ops, ~ m k < v ->
    mstep (m, l ++ (OMax k v :: ops, None) :: r) (m, l ++ (ops, None) :: r)
(** entitycount.go:18: the compare-and-swap *)
| m_cas : forall m l r k v ops old, m k = old ->
    mstep (m, l ++ (OMax k v :: ops, Some old) :: r) (mset_cell m k v, l ++ (ops, None) :: r)
| m_cas_fails : forall m l r k v ops old, m k <> old ->
    mstep (m, l ++ (OMax k v :: ops, Some old) :: r) (m, l ++ (OMax k v :: ops, None) :: r).
(** [n] steps *)
Inductive msteps : nat -> mem * list thread -> mem * list thread -> Prop :=
| msteps_0 : forall s, msteps 0 s s
| msteps_S : forall n s s' s'', mstep s s' -> msteps n s' s'' -> msteps (S n) s s''.
Definition start (progs : list (list op)) : list thread := map (fun p => (p, None)) progs.
Definition finished (ths : list thread) : Prop := Forall (fun th => fst th = []) ths.
(** entitycount.go:101-103: zero values *)
Definition mem0 : mem := fun _ => 0.

(** ** cmd/blockcount/blockcount.go:14-22 *)
Definition bc_worker (blocks : list Block) : Z := fold_left (fun n _ => u64 (n + 1)) blocks 0.
Definition bc_cfg (rp : bool) : cfg Block unit := mkCfg (fun _ => Ok tt) (fun _ => 0) false (fun _ => false) rp.

(** ** cmd/entityfind/entityfind.go *)
(** entityfind.go:16-23 [isIn] *)
Fixpoint isIn (ids : list Z) (id : Z) : bool :=
  match ids with
  | [] => false
  | id2 :: r => if id2 =? id then true else isIn r id
  end.
(** what is printed (its text is not modelled) *)
Inductive found : Type := FNode (n : HLNode) | FWay (w : HLWay) | FRelation (r : HLRelation).
(** entityfind.go:27 *)
Definition ef_reader : PBReader := mkReader false false false false.
(** entityfind.go:29-66: what is printed for one block *)
Definition ef_block (envs : Z -> zenv) (ids : list Z) (data : Block) : res (list found) :=
  if negb (seqb (blk_Type data) tOSMData) then Ok []
  else
    b <- ReadBlob (blk_Data data) Blob0 ;;
    raw <- GetRawData (envs (blk_Index data)) b ;;
    pb <- ReadPrimitiveBlock ef_reader raw PrimitiveBlock0 ;;
    ns <- ToNodes pb ;;
    let out := map FNode (filter (fun n => isIn ids (u64 (hn_Id n))) ns) in
    ws <- ToWays pb ;;
    let out := out ++ map FWay (filter (fun w => isIn ids (u64 (hw_Id w))) ws) in
    rs <- ToRelations pb ;;
    let out := out ++ map FRelation (filter (fun r => isIn ids (u64 (hr_Id r))) rs) in
    Ok out.
Definition ef_cfg (envs : Z -> zenv) (ids : list Z) (rp : bool) : cfg Block (list found) :=
  mkCfg (ef_block envs ids) (fun _ => 0) false (fun _ => false) rp.
