(** * ZlSpec: streams, payloads and borrow histories. *)
From Verif Require Import Base PbSpec TModel HLModel FrModel FrSpec ZlModel.

(** The bytes a reader delivers until (and with) its first error. *)
Fixpoint stream (evs : list (list Z * bool)) : list Z :=
  match evs with
  | [] => []
  | (seg, err) :: r => seg ++ (if (err : bool) then [] else stream r)
  end.

(** The decompressed payload of a block, decompressed in environment [env]. *)
Definition payload (env : zenv) (b : Block) (raw : list Z) : Prop :=
  exists bl s, ReadBlob (blk_Data b) Blob0 = Ok bl /\ GetRawData env bl = Ok s /\ vis s = raw.

(** The file consists of blobs of these types with these decompressed payloads. *)
Definition contents (envs : Z -> zenv) (file : list Z) (pl : list (list Z * list Z)) : Prop :=
  exists bs, read_file file = Ok bs /\
    Forall2 (fun b p => blk_Type b = fst p /\ payload (envs (blk_Index b)) b (snd p)) bs pl.

(** Histories of the pool: [out] are the borrows not yet returned.  Only borrows not yet
    returned may be returned; wrapped foreign slices may be "returned" at any time; the
    choices of sync.Pool are arbitrary. *)
Inductive history : pstate -> list BorrowedBuffer -> Prop :=
| h_init n : history (mkPool n []) []
| h_get s out sz k def b s' : history s out -> 0 <= sz -> 0 <= def ->
    pool_Get s sz k def = Ok (b, s') -> history s' (b :: out)
| h_put s o1 b o2 : history s (o1 ++ b :: o2) -> history (pool_Put s b) (o1 ++ o2)
| h_put_foreign s out st len : history s out -> history (pool_Put s (NonBorrowedBuffer st len)) out
| h_drop s out k : history s out -> history (pool_drop s k) out.
