(** * IoModel: internal/iio/wrappers.go and internal/iunsafe/slices.go. *)
From Verif Require Import Base.

(** An open file: its contents and the position of the next read or write.  A position
    beyond the end does not occur in this program and is not modelled. *)
Record file : Type := mkFile { f_data : list Z; f_pos : Z }.

(** [c] written at the current position *)
Definition f_put (f : file) (c : list Z) : file :=
  mkFile (firstn (Z.to_nat (f_pos f)) (f_data f) ++ c ++
          skipn (Z.to_nat (f_pos f) + List.length c) (f_data f)) (f_pos f + zlen c).

(** What the operating system answers.  Calls are numbered in the order they are made:
    [os_write k n] is the number of bytes call [k] writes if it is a write of [n] bytes (cut
    to 0..n) and whether it fails; [os_read k] the number of bytes it reads (cut to
    the size of the buffer and to what is left) and its error; [os_fail k] whether call [k]
    fails if it is any other call (create, seek, close, remove); [os_cancelled k] whether
    the context is found cancelled. *)
Inductive read_err : Type := NoErr | EOF | OtherErr.
Record os : Type := mkOS
  { os_write : nat -> Z -> Z * bool; os_read : nat -> Z * read_err; os_fail : nat -> bool;
    os_cancelled : nat -> bool }.

Definition clip (n hi : Z) : Z := Z.max 0 (Z.min n hi).

(** os.File.Write: bytes written, error, file afterwards. *)
Definition File_Write (o : os) (k : nat) (f : file) (buf : list Z) : Z * bool * file :=
  let '(n, err) := os_write o k (zlen buf) in
  let n := clip n (zlen buf) in
  (n, err, f_put f (firstn (Z.to_nat n) buf)).

(** The outcome of a call that works on files: a panic leaves the file as it is then. *)
Definition outcome (A : Type) : Type := (nat * file * res A)%type.   (* next call number *)

(** wrappers.go:79-92 [FWrite]. *)
Fixpoint fwrite_loop (fuel : nat) (o : os) (k : nat) (f : file) (remaining : Z) (buf : list Z)
  : outcome unit :=
  if 0 <? remaining then
    match fuel with
    | O => (k, f, Diverge)
    | S fuel =>
        let '(n, err, f) := File_Write o k f buf in
        let k := S k in
        if err : bool then (k, f, Panic IOError)
        else if n =? 0 then (k, f, Panic (PanicMsg "zero write"))
        else fwrite_loop fuel o k f (remaining - n) (skipn (Z.to_nat n) buf)
    end
  else (k, f, Ok tt).
Definition FWrite (o : os) (k : nat) (f : file) (buf : list Z) : outcome unit :=
  fwrite_loop (S (List.length buf)) o k f (zlen buf) buf.

(** wrappers.go:43-49 [FRead] into a buffer of [size] bytes: the bytes read. *)
Definition FRead (o : os) (k : nat) (f : file) (size : Z) : outcome (list Z) :=
  let '(n, err) := os_read o k in
  let left := skipn (Z.to_nat (f_pos f)) (f_data f) in
  let n := clip n (Z.min size (zlen left)) in
  let f' := mkFile (f_data f) (f_pos f + n) in
  match err with
  | OtherErr => (S k, f', Panic IOError)
  | _ => (S k, f', Ok (firstn (Z.to_nat n) left))
  end.

(** wrappers.go:94-98 [FCopy]: both files afterwards and the number of bytes. *)
Definition FCopy (o : os) (k : nat) (fDst fSrc : file) (size : Z) : nat * file * file * res Z :=
  match FRead o k fSrc size with
  | (k, fSrc, Ok buf) =>
      match FWrite o k fDst buf with
      | (k, fDst, Ok _) => (k, fDst, fSrc, Ok (zlen buf))
      | (k, fDst, Panic p) => (k, fDst, fSrc, Panic p)
      | (k, fDst, Diverge) => (k, fDst, fSrc, Diverge)
      end
  | (k, fSrc, Panic p) => (k, fDst, fSrc, Panic p)
  | (k, fSrc, Diverge) => (k, fDst, fSrc, Diverge)
  end.

(** The copy loop of cmd/nodeindex/indexer/nodeindexer_writer.go:54-64 and
    cmd/wayindex/wayindexer/wayindexer_writer.go:57-69 (progress left out). *)
Fixpoint copy_loop (fuel : nat) (o : os) (k : nat) (fDst fSrc : file) (size : Z)
  : nat * file * file * res unit :=
  match fuel with
  | O => (k, fDst, fSrc, Diverge)
  | S fuel =>
      if os_cancelled o k then (S k, fDst, fSrc, Ok tt)
      else
        match FCopy o (S k) fDst fSrc size with
        | (k, fDst, fSrc, Ok n) =>
            if n =? 0 then (k, fDst, fSrc, Ok tt) else copy_loop fuel o k fDst fSrc size
        | (k, fDst, fSrc, Panic p) => (k, fDst, fSrc, Panic p)
        | (k, fDst, fSrc, Diverge) => (k, fDst, fSrc, Diverge)
        end
  end.
Definition copyBufferSize : Z := 1048576.

(** ** iunsafe/slices.go: memory reinterpreted, on a little endian machine *)

(** the eight bytes of a 64-bit word in memory *)
Definition le64 (w : Z) : list Z :=
  [u8 w; u8 (Z.shiftr w 8); u8 (Z.shiftr w 16); u8 (Z.shiftr w 24);
   u8 (Z.shiftr w 32); u8 (Z.shiftr w 40); u8 (Z.shiftr w 48); u8 (Z.shiftr w 56)].
(** the uint64 in eight bytes *)
Definition le64_get (b : list Z) : Z :=
  match b with
  | [a; b; c; d; e; f; g; h] =>
      a + 2^8 * (b + 2^8 * (c + 2^8 * (d + 2^8 * (e + 2^8 * (f + 2^8 * (g + 2^8 * h))))))
  | _ => 0
  end.

(** slices.go:30-51 [Int64SliceAsByteSlice], [Uint64SliceAsByteSlice] *)
Definition SliceAsByteSlice (ws : list Z) : list Z := flat_map le64 ws.

(** memory cut into [n] pieces of [size] bytes *)
Fixpoint pieces (size n : nat) (b : list Z) : list (list Z) :=
  match n with
  | O => []
  | S n => firstn size b :: pieces size n (skipn size b)
  end.

(** slices.go:19-28 [ByteSliceAsInt64Slice]: Len/8 words. *)
Definition ByteSliceAsInt64Slice (b : list Z) : list Z :=
  map (fun p => s64 (le64_get p)) (pieces 8 (Z.to_nat (zlen b / 8)) b).
(** slices.go:53-74 [ByteSliceAsArbSlice] for 8-byte unsigned elements *)
Definition ByteSliceAsUint64Slice (b : list Z) : list Z :=
  map le64_get (pieces 8 (Z.to_nat (zlen b / 8)) b).
(** slices.go:53-74 for a struct of two 8-byte unsigned fields *)
Definition ByteSliceAsPairSlice (b : list Z) : list (Z * Z) :=
  map (fun p => (le64_get (firstn 8 p), le64_get (skipn 8 p))) (pieces 16 (Z.to_nat (zlen b / 16)) b).

(** wrappers.go:12-28 [FWriteSliceI64], [FWriteSliceU64]: one write. *)
Definition FWriteSlice (o : os) (k : nat) (f : file) (data : list Z) : outcome unit :=
  let b := SliceAsByteSlice data in
  let '(n, err, f) := File_Write o k f b in
  if err : bool then (S k, f, Panic IOError)
  else if n =? zlen b then (S k, f, Ok tt)
  else (S k, f, Panic (PanicMsg "torn write")).

(** wrappers.go:58-64 [MMapMap]: the file's bytes; mapping an empty file fails. *)
Definition MMapMap (contents : list Z) : res (list Z) :=
  match contents with [] => Panic IOError | _ => Ok contents end.

(** ** The two files of an index writer

    cmd/nodeindex/indexer/nodeindexer_writer.go and cmd/wayindex/wayindexer/
    wayindexer_writer.go write an index file and a temporary file of locations.  A
    computation on them: the state afterwards and the result; after a panic the state is
    what a crashed process leaves behind. *)
Record wstate : Type := mkW { w_k : nat; w_idx : file; w_loc : file }.
Definition io (A : Type) : Type := wstate -> wstate * res A.
Definition io_bind {A B} (m : io A) (f : A -> io B) : io B := fun w =>
  match m w with
  | (w, Ok a) => f a w
  | (w, Panic p) => (w, Panic p)
  | (w, Diverge) => (w, Diverge)
  end.
Notation "x <~ m ;; k" := (io_bind m (fun x => k)) (at level 61, m at next level, right associativity).
Definition io_lift {A} (r : res A) : io A := fun w => (w, r).

(** os.Create, Close, os.Remove: no effect on the contents; may fail. *)
Definition io_call (o : os) : io unit := fun w =>
  (mkW (S (w_k w)) (w_idx w) (w_loc w), if os_fail o (w_k w) then Panic IOError else Ok tt).
(** wrappers.go:12-28 and 79-92 on the index file and on the location file *)
Definition idx_WriteSlice (o : os) (data : list Z) : io unit := fun w =>
  let '(k, f, r) := FWriteSlice o (w_k w) (w_idx w) data in (mkW k f (w_loc w), r).
Definition loc_WriteSlice (o : os) (data : list Z) : io unit := fun w =>
  let '(k, f, r) := FWriteSlice o (w_k w) (w_loc w) data in (mkW k (w_idx w) f, r).
Definition loc_Write (o : os) (buf : list Z) : io unit := fun w =>
  let '(k, f, r) := FWrite o (w_k w) (w_loc w) buf in (mkW k (w_idx w) f, r).
(** wrappers.go:30-36 [FSeek(f, 0, io.SeekStart)] *)
Definition loc_rewind (o : os) : io unit := fun w =>
  if os_fail o (w_k w) then (mkW (S (w_k w)) (w_idx w) (w_loc w), Panic IOError)
  else (mkW (S (w_k w)) (w_idx w) (mkFile (f_data (w_loc w)) 0), Ok tt).
Definition idx_rewind (o : os) : io unit := fun w =>
  if os_fail o (w_k w) then (mkW (S (w_k w)) (w_idx w) (w_loc w), Panic IOError)
  else (mkW (S (w_k w)) (mkFile (f_data (w_idx w)) 0) (w_loc w), Ok tt).
(** the copy loop; it ends within as many rounds as there are bytes (C69) *)
Definition io_copy (o : os) : io unit := fun w =>
  let '(k, fd, fs, r) := copy_loop (S (List.length (f_data (w_loc w)))) o (w_k w) (w_idx w) (w_loc w) copyBufferSize in
  (mkW k fd fs, r).
(** both files just created *)
Definition w0 : wstate := mkW 0 (mkFile [] 0) (mkFile [] 0).
