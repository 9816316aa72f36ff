(** * Base: the fragment of Go's runtime semantics the model relies on.

    Nothing here models a particular function of /repo; it fixes how Go integers,
    panics, slices and loops are represented.  See DESIGN.md section 1. *)

From Coq Require Export String.
From Coq Require Export List ZArith Lia Bool.
From Coq Require Export ZifyBool ZifyNat.
Export ListNotations.
Global Open Scope Z_scope.
Global Open Scope list_scope.

(** [simpl] must not unfold integer arithmetic (proof engineering only). *)
Global Arguments Z.add : simpl never.
Global Arguments Z.sub : simpl never.
Global Arguments Z.mul : simpl never.
Global Arguments Z.opp : simpl never.
Global Arguments Z.div : simpl never.
Global Arguments Z.modulo : simpl never.
Global Arguments Z.pow : simpl never.
Global Arguments Z.of_nat : simpl never.
Global Arguments Z.to_nat : simpl never.
Global Arguments Z.shiftl : simpl never.
Global Arguments Z.shiftr : simpl never.
Global Arguments Z.land : simpl never.
Global Arguments Z.lor : simpl never.
Global Arguments Z.lxor : simpl never.
Global Arguments Z.leb : simpl never.
Global Arguments Z.ltb : simpl never.
Global Arguments Z.eqb : simpl never.

(** ** Machine integers.  A Go value of an integer type is its mathematical value. *)

Definition u8  (x : Z) : Z := x mod 2^8.
Definition u32 (x : Z) : Z := x mod 2^32.
Definition u64 (x : Z) : Z := x mod 2^64.
Definition s32 (x : Z) : Z := (x + 2^31) mod 2^32 - 2^31.
Definition s64 (x : Z) : Z := (x + 2^63) mod 2^64 - 2^63.

Definition is_u8  (x : Z) : Prop := 0 <= x < 2^8.
Definition is_u32 (x : Z) : Prop := 0 <= x < 2^32.
Definition is_u64 (x : Z) : Prop := 0 <= x < 2^64.
Definition is_s32 (x : Z) : Prop := -2^31 <= x < 2^31.
Definition is_s64 (x : Z) : Prop := -2^63 <= x < 2^63.

(** ** Outcomes of a Go function. *)

Inductive panic : Type :=
| IndexOutOfRange            (* runtime error: index out of range *)
| SliceOutOfRange            (* runtime error: slice bounds out of range *)
| NilDeref                   (* runtime error: nil pointer dereference *)
| DivideByZero               (* runtime error: integer divide by zero *)
| MakeSlice                  (* runtime error: makeslice: len out of range *)
| NegativeShift              (* runtime error: negative shift amount *)
| IOError                    (* panic(err) for an error returned by the OS / a library *)
| PanicMsg (msg : string).   (* explicit panic("...") in the source *)

Inductive res (A : Type) : Type :=
| Ok (a : A)                 (* the call returns [a] *)
| Panic (p : panic)          (* the call panics *)
| Diverge.                   (* the call never returns *)
Arguments Ok {A} a.
Arguments Panic {A} p.
Arguments Diverge {A}.

Definition bind {A B} (m : res A) (k : A -> res B) : res B :=
  match m with
  | Ok a => k a
  | Panic p => Panic p
  | Diverge => Diverge
  end.

Notation "x <- m ;; k" := (bind m (fun x => k))
  (at level 61, m at next level, right associativity).
Notation "' p <- m ;; k" := (bind m (fun x => match x with p => k end))
  (at level 61, p pattern, m at next level, right associativity).

(** ** Byte slices that are read.

    [vis] are the bytes below [len], [ext] the bytes between [len] and [cap].
    Go bounds [b[i]] by [len b] but [b[i:j]] by [cap b]. *)

Record slice : Type := mkslice { vis : list Z; ext : list Z }.

Definition slen (b : slice) : Z := Z.of_nat (List.length (vis b)).
Definition scap (b : slice) : Z := slen b + Z.of_nat (List.length (ext b)).

(** A slice whose capacity equals its length (e.g. a freshly mmapped file). *)
Definition exact (l : list Z) : slice := mkslice l [].

(** [b[i]] *)
Definition sidx (b : slice) (i : Z) : res Z :=
  if (0 <=? i) && (i <? slen b)
  then Ok (nth (Z.to_nat i) (vis b) 0)
  else Panic IndexOutOfRange.

(** [b[i:j]] *)
Definition sslice (b : slice) (i j : Z) : res slice :=
  if (0 <=? i) && (i <=? j) && (j <=? scap b)
  then
    let all := vis b ++ ext b in
    Ok (mkslice (firstn (Z.to_nat (j - i)) (skipn (Z.to_nat i) all))
                (skipn (Z.to_nat j) all))
  else Panic SliceOutOfRange.

(** ** Slices of other element types: plain lists indexed by a Go int. *)

Definition zlen {A} (l : list A) : Z := Z.of_nat (List.length l).

Definition lidx {A} (l : list A) (i : Z) : res A :=
  if (0 <=? i) && (i <? zlen l)
  then match nth_error l (Z.to_nat i) with
       | Some a => Ok a
       | None => Panic IndexOutOfRange
       end
  else Panic IndexOutOfRange.

(** [l[i:j]] of a slice whose capacity equals its length. *)
Definition lslice {A} (l : list A) (i j : Z) : res (list A) :=
  if (0 <=? i) && (i <=? j) && (j <=? zlen l)
  then Ok (firstn (Z.to_nat (j - i)) (skipn (Z.to_nat i) l))
  else Panic SliceOutOfRange.

(** ** Loops: [for cond { body }] on explicit fuel.  [Diverge] when exhausted. *)

Fixpoint loop {St : Type} (fuel : nat) (cond : St -> bool) (body : St -> res St) (s : St)
  : res St :=
  if cond s then
    match fuel with
    | O => Diverge
    | S n => s' <- body s ;; loop n cond body s'
    end
  else Ok s.

(** Monadic fold: [for _, a := range l { s = f(s, a) }]. *)
Fixpoint foldm {A St : Type} (f : St -> A -> res St) (l : list A) (s : St) : res St :=
  match l with
  | [] => Ok s
  | a :: l' => s' <- f s a ;; foldm f l' s'
  end.

(** Monadic map in order. *)
Fixpoint mapm {A B : Type} (f : A -> res B) (l : list A) : res (list B) :=
  match l with
  | [] => Ok []
  | a :: l' => b <- f a ;; bs <- mapm f l' ;; Ok (b :: bs)
  end.

(** [b[i] = x] on a list (used only for in-range back-patching). *)
Fixpoint upd {A} (l : list A) (i : nat) (x : A) : list A :=
  match l, i with
  | [], _ => []
  | _ :: t, O => x :: t
  | h :: t, S j => h :: upd t j x
  end.

Definition lset (l : list Z) (i : Z) (x : Z) : res (list Z) :=
  if (0 <=? i) && (i <? zlen l)
  then Ok (upd l (Z.to_nat i) x)
  else Panic IndexOutOfRange.

(** Go string literals as byte lists. *)
Fixpoint bytes_of (s : string) : list Z :=
  match s with
  | EmptyString => []
  | String c s' => Z.of_nat (Ascii.nat_of_ascii c) :: bytes_of s'
  end.
