(** * SlSpec: what it means that a status line is right. *)
From Verif Require Import Base FrModel ZlModel TModel HLModel TfModel RwModel PgModel SlModel.

(** An update of a widget made while a goroutine performs the deeds [ds]: it begins when [m] of them have been performed and ends when [m'] have;
    every load reads the record as it is after some number of deeds, and this number does not go back. *)
Inductive look (ds : list deed) : nat -> update -> nat -> line -> Prop :=
| look_show : forall m l, look ds m (Show l) m l
| look_load : forall m n m' c k l, (m <= n <= List.length ds)%nat -> look ds n (k (status_at ds n c)) m' l -> look ds m (Load c k) m' l.

(** After [n] deeds the goroutine is doing [w]. *)
Definition doing (ds : list deed) (n : nat) (w : work) : Prop :=
  exists before after, ds = before ++ Doing w :: after /\ n = S (List.length before).

(** The works among the deeds that have a property of interest (a word, a number, ...), and this property. *)
Fixpoint told_of {B} (f : work -> option B) (ds : list deed) : list B :=
  match ds with
  | [] => []
  | Doing w :: r => match f w with Some v => v :: told_of f r | None => told_of f r end
  | _ :: r => told_of f r
  end.
Definition first_some {B} (l : list B) : option B := match l with [] => None | v :: _ => Some v end.
(** After [n] deeds, [v] is the property of the work that was begun last, or else of the one that comes next. *)
Definition about {B} (f : work -> option B) (ds : list deed) (n : nat) (v : B) : Prop :=
  first_some (rev (told_of f (firstn n ds))) = Some v \/ first_some (told_of f (skipn n ds)) = Some v.

(** The number of the block at work. *)
Definition number (w : work) : option Z :=
  match w with
  | Decoding b | Decompressing b | Processing b | Rewriting b _ _ | Encoding b | Sending b | Writing b => Some b
  | _ => None
  end.

(** What the lines of the workers of the tools say: the words for what is done, and whether the block's number follows. *)
Definition dc_word (w : work) : string :=
  match w with
  | Decoding _ => "Worker: decoding blob "
  | Decompressing _ => "Worker: decompressing blob "
  | Encoding _ => "Worker: encoding blob "
  | Sending _ => "Worker: sending block "
  | _ => "Worker: waiting for block"
  end.
Definition ix_word (w : work) : string :=
  match w with
  | Decoding _ => "Worker: decoding block "
  | Processing _ => "Worker: processing block "
  | Sending _ => "Worker: sending block "
  | _ => "Worker: waiting for block"
  end.
Definition rw_word (w : work) : string :=
  match w with
  | Decoding _ => "Worker: decoding block "
  | Rewriting _ _ _ => "Worker: working on block "
  | Sending _ => "Worker: sending block "
  | _ => "Worker: waiting for block"
  end.
Definition tf_word (w : work) : string :=
  match w with
  | Decoding _ => "Worker: decoding block "
  | Processing _ => "Worker: processing block "
  | Encoding _ => "Worker: encoding block "
  | Sending _ | Passing _ => "Worker: sending block "
  | _ => "Worker: waiting for block"
  end.
Definition waiting_word : string := "Worker: waiting for block".
Definition working_word : string := "Worker: working on block ".

(** A line that says what is done and, unless the goroutine waits ([wait]: the words for that), with which block. *)
Definition said_by (wait : string) (word : work -> string) (w : work) : list Z :=
  bytes_of (word w) ++ (if String.eqb (word w) wait then [] else match number w with Some b => decimal 20 b | None => [] end).
Definition said : (work -> string) -> work -> list Z := said_by waiting_word.
Definition f_word (word : work -> string) (w : work) : option string := Some (word w).

(** The way at work and the number of ways of its block (as uint64 values). *)
Definition way_at (w : work) : option Z := match w with Rewriting _ i _ => Some (u64 i) | _ => None end.
Definition way_max (w : work) : option Z := match w with Rewriting _ _ n => Some (u64 n) | _ => None end.
(** The line of a worker of the rewriter that is at work on ways. *)
Definition way_text (b i n : Z) : list Z :=
  bytes_of "Worker: working on block " ++ decimal 20 b ++ bytes_of ", way " ++ decimal 20 i ++ bytes_of "/" ++ decimal 20 n.
Definition way_line (view : bool) (b i n : Z) : line :=
  if view then Bar (way_text b i n) (PgModel.fraction i n) else Text (way_text b i n).
(** The block, the way and the number of ways at work. *)
Definition rewriting (w : work) : option (Z * Z * Z) := match w with Rewriting b i n => Some (b, i, n) | _ => None end.
(** Between [m] and [m'] deeds the goroutine does not go back to waiting for the next block. *)
Definition same_block (ds : list deed) (m m' : nat) : Prop := ~ In (Doing Waiting) (firstn (m' - m) (skipn m ds)).
(** The line of a worker of the rewriter that is doing [w]. *)
Definition rw_line (view : bool) (w : work) : line :=
  match w with Rewriting b i n => way_line view b (u64 i) (u64 n) | _ => Text (said rw_word w) end.

(** A decimal number as it is shown. *)
Definition shown_number (n : Z) : list Z := decimal 20 n.

(** ** The tag filter *)
(** The nodes of a block (none, if it is not OSMData or cannot be read), those that keep a tag, and the others. *)
Definition nodes_in (x : zenv * Block) : list HLNode :=
  let (env, data) := x in
  if negb (seqb (blk_Type data) tOSMData) then []
  else match (b <- ReadBlob (blk_Data data) Blob0 ;; raw <- GetRawData env b ;; pb <- ReadPrimitiveBlock tf_reader raw PrimitiveBlock0 ;; ToNodes pb) with
       | Ok nodes => nodes
       | _ => []
       end.
Definition keeps_a_tag (n : HLNode) : bool := negb (zlen (filter_tags (hn_Tags n)) =? 0).
Definition kept_in (x : zenv * Block) : Z := zlen (filter keeps_a_tag (nodes_in x)).
Definition dropped_in (x : zenv * Block) : Z := zlen (filter (fun n => negb (keeps_a_tag n)) (nodes_in x)).
Definition sum_of (f : zenv * Block -> Z) (l : list (zenv * Block)) : Z := fold_right (fun x n => f x + n) 0 l.
(** After [n] deeds: how often the worker has begun to wait for a block. *)
Definition waits (ds : list deed) (n : nat) : nat :=
  List.length (filter (fun d => match d with Doing Waiting => true | _ => false end) (firstn n ds)).
(** The blocks whose nodes have been counted when the worker, which has begun to wait for [p] blocks, is doing [w]. *)
Definition counted (w : work) (p : nat) : nat := match w with Encoding _ | Sending _ => p | _ => (p - 1)%nat end.
(** The number of the block that was begun last; 0 before the first. *)
Definition last_number (ds : list deed) (n : nat) : Z :=
  match first_some (rev (told_of number (firstn n ds))) with Some b => b | None => 0 end.
Definition tf_text (word : string) (b kept dropped : Z) : list Z :=
  bytes_of word ++ (if String.eqb word waiting_word then [] else
    decimal 20 b ++ bytes_of ", " ++ decimal 20 kept ++ bytes_of " kept, " ++ decimal 20 dropped ++ bytes_of " dropped").

(** ** The writers *)
Definition writer_waiting : string := "Writer: waiting for block".
(** [t]: the tool's words for writing a block *)
Definition writer_word (t : string) (w : work) : string := match w with Writing _ => t | _ => writer_waiting end.
Definition writer_said (t : string) (w : work) : list Z := said_by writer_waiting (writer_word t) w.
