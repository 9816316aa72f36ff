(** * MtModel: internal/morton/morton.go. *)
From Verif Require Import Base.

(** morton.go:5-19: the table entry for [i]. *)
Definition morton_entry (i : Z) : Z :=
  let o := 0 in
  let o := Z.lor o (Z.shiftl (Z.land i 1) 0) in
  let o := Z.lor o (Z.shiftl (Z.land i 2) 1) in
  let o := Z.lor o (Z.shiftl (Z.land i 4) 2) in
  let o := Z.lor o (Z.shiftl (Z.land i 8) 3) in
  let o := Z.lor o (Z.shiftl (Z.land i 16) 4) in
  let o := Z.lor o (Z.shiftl (Z.land i 32) 5) in
  let o := Z.lor o (Z.shiftl (Z.land i 64) 6) in
  Z.lor o (Z.shiftl (Z.land i 128) 7).
Definition mortonTable256 : list Z := map morton_entry (map Z.of_nat (seq 0 256)).

(** morton.go:21-25.  [x], [y] are int32; the shifts of uint64 values are reduced modulo
    2^64. *)
Definition interleaveMorton16 (x y : Z) : res Z :=
  a <- lidx mortonTable256 (Z.land y 255) ;;
  b <- lidx mortonTable256 (Z.land x 255) ;;
  c <- lidx mortonTable256 (Z.shiftr y 8) ;;
  d <- lidx mortonTable256 (Z.shiftr x 8) ;;
  let lo := Z.lor (u64 (Z.shiftl a 1)) b in
  let hi := Z.lor (u64 (Z.shiftl c 1)) d in
  Ok (Z.lor lo (u64 (Z.shiftl hi 16))).

(** morton.go:27-31.  [evens], [odds] are int32, [&] and [>>] on them as on integers. *)
Definition Encode (evens odds : Z) : res Z :=
  lo <- interleaveMorton16 (Z.land evens 65535) (Z.land odds 65535) ;;
  hi <- interleaveMorton16 (Z.land (Z.shiftr evens 16) 65535) (Z.land (Z.shiftr odds 16) 65535) ;;
  Ok (Z.lor lo (u64 (Z.shiftl hi 32))).

(** morton.go:36-46: one iteration, on uint32 [e], [o] and uint64 [x]. *)
Definition decode_step (s : Z * Z * Z) : Z * Z * Z :=
  let '(e, o, x) := s in
  let e := Z.shiftr e 1 in
  let o := Z.shiftr o 1 in
  let e := if negb (Z.land x 1 =? 0) then Z.lor e 2147483648 else e in
  let o := if negb (Z.land x 2 =? 0) then Z.lor o 2147483648 else o in
  (e, o, Z.shiftr x 2).
Fixpoint decode_loop (n : nat) (s : Z * Z * Z) : Z * Z * Z :=
  match n with O => s | S n => decode_loop n (decode_step s) end.
(** morton.go:33-48 *)
Definition Decode (x : Z) : Z * Z := let '(e, o, _) := decode_loop 32 (0, 0, x) in (e, o).

(** morton.go:50-60 *)
Definition DecodeLocation (x : Z) : Z * Z :=
  let '(e, o) := Decode x in
  let lon := s32 e in
  let lat := s32 o in
  let lat := s32 (Z.shiftl lat 1) in
  let lat := Z.shiftr lat 1 in
  (lon, lat).

(** cmd/nodeindex/indexer/nodeindexer_worker.go:84:
    int64(morton.Encode(lon, lat|math.MinInt32)) for int32 [lon], [lat]. *)
Definition location (lon lat : Z) : res Z :=
  x <- Encode lon (Z.lor lat (-2147483648)) ;; Ok (s64 x).
