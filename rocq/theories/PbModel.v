(** * PbModel: executable model of /repo/internal/pb (protobuf wire codecs).

    Readers take a [slice] and the cursor [*next] and return the value together
    with the new cursor.  Writers take the output buffer (a list of bytes) and
    return the extended buffer; append aliasing is not modelled. *)

From Verif Require Import Base.

(** ** varint.go *)

(** A single byte of a multi-byte varint: [byte((v>>k)&0x7f|0x80)].
    Go precedence: [&] binds tighter than [|].  internal/pb/varint.go:18-87. *)
Definition cont (v k : Z) : Z := u8 (Z.lor (Z.land (Z.shiftr v k) 0x7f) 0x80).

(** The last byte of a multi-byte varint: [byte(v>>k)].  internal/pb/varint.go:19-76. *)
Definition fin (v k : Z) : Z := u8 (Z.shiftr v k).

(** internal/pb/varint.go:9-90 [EncodeVarInt], the ten-way switch. *)
Definition EncodeVarInt (b : list Z) (v : Z) : list Z :=
  if v <? Z.shiftl 1 7 then b ++ [u8 v]
  else if v <? Z.shiftl 1 14 then b ++ [cont v 0; fin v 7]
  else if v <? Z.shiftl 1 21 then b ++ [cont v 0; cont v 7; fin v 14]
  else if v <? Z.shiftl 1 28 then b ++ [cont v 0; cont v 7; cont v 14; fin v 21]
  else if v <? Z.shiftl 1 35 then
    b ++ [cont v 0; cont v 7; cont v 14; cont v 21; fin v 28]
  else if v <? Z.shiftl 1 42 then
    b ++ [cont v 0; cont v 7; cont v 14; cont v 21; cont v 28; fin v 35]
  else if v <? Z.shiftl 1 49 then
    b ++ [cont v 0; cont v 7; cont v 14; cont v 21; cont v 28; cont v 35; fin v 42]
  else if v <? Z.shiftl 1 56 then
    b ++ [cont v 0; cont v 7; cont v 14; cont v 21; cont v 28; cont v 35; cont v 42;
          fin v 49]
  else if v <? Z.shiftl 1 63 then
    b ++ [cont v 0; cont v 7; cont v 14; cont v 21; cont v 28; cont v 35; cont v 42;
          cont v 49; fin v 56]
  else
    b ++ [cont v 0; cont v 7; cont v 14; cont v 21; cont v 28; cont v 35; cont v 42;
          cont v 49; cont v 56; 1].

(** internal/pb/varint.go:92-173 [DecodeVarInt]; returns (v, new *s). *)
Definition DecodeVarInt (b : slice) (s : Z) : res (Z * Z) :=
  let start := s in
  v <- sidx b start ;;
  if v <? 0x80 then Ok (v, s64 (s + 1)) else
  let v := u64 (v - 0x80) in

  y <- sidx b (s64 (start + 1)) ;;
  let v := u64 (v + u64 (Z.shiftl y 7)) in
  if y <? 0x80 then Ok (v, s64 (s + 2)) else
  let v := u64 (v - Z.shiftl 0x80 7) in

  y <- sidx b (s64 (start + 2)) ;;
  let v := u64 (v + u64 (Z.shiftl y 14)) in
  if y <? 0x80 then Ok (v, s64 (s + 3)) else
  let v := u64 (v - Z.shiftl 0x80 14) in

  y <- sidx b (s64 (start + 3)) ;;
  let v := u64 (v + u64 (Z.shiftl y 21)) in
  if y <? 0x80 then Ok (v, s64 (s + 4)) else
  let v := u64 (v - Z.shiftl 0x80 21) in

  y <- sidx b (s64 (start + 4)) ;;
  let v := u64 (v + u64 (Z.shiftl y 28)) in
  if y <? 0x80 then Ok (v, s64 (s + 5)) else
  let v := u64 (v - Z.shiftl 0x80 28) in

  y <- sidx b (s64 (start + 5)) ;;
  let v := u64 (v + u64 (Z.shiftl y 35)) in
  if y <? 0x80 then Ok (v, s64 (s + 6)) else
  let v := u64 (v - Z.shiftl 0x80 35) in

  y <- sidx b (s64 (start + 6)) ;;
  let v := u64 (v + u64 (Z.shiftl y 42)) in
  if y <? 0x80 then Ok (v, s64 (s + 7)) else
  let v := u64 (v - Z.shiftl 0x80 42) in

  y <- sidx b (s64 (start + 7)) ;;
  let v := u64 (v + u64 (Z.shiftl y 49)) in
  if y <? 0x80 then Ok (v, s64 (s + 8)) else
  let v := u64 (v - Z.shiftl 0x80 49) in

  y <- sidx b (s64 (start + 8)) ;;
  let v := u64 (v + u64 (Z.shiftl y 56)) in
  if y <? 0x80 then Ok (v, s64 (s + 9)) else
  let v := u64 (v - Z.shiftl 0x80 56) in

  y <- sidx b (s64 (start + 9)) ;;
  let v := u64 (v + u64 (Z.shiftl y 63)) in
  if y <? 2 then Ok (v, s64 (s + 10)) else
  Panic (PanicMsg "overflow").

(** internal/pb/varint.go:175-177 [DecodeZigZag]:
    [int64(x>>1) ^ int64(x)<<63>>63]; in Go [^] binds looser than the shifts. *)
Definition DecodeZigZag (x : Z) : Z :=
  Z.lxor (s64 (Z.shiftr x 1)) (Z.shiftr (s64 (Z.shiftl (s64 x) 63)) 63).

(** internal/pb/varint.go:179-181 [EncodeZigZag]:
    [uint64(x<<1) ^ uint64(x>>63)]. *)
Definition EncodeZigZag (x : Z) : Z :=
  Z.lxor (u64 (s64 (Z.shiftl x 1))) (u64 (Z.shiftr x 63)).

(** ** pb.go *)

(** internal/pb/pb.go:5-8 *)
Definition PbVarInt : Z := 0.
Definition PbFixedBytes : Z := 2.

(** internal/pb/pb.go:10-12 [MakeIdType]. *)
Definition MakeIdType (id t : Z) : Z := Z.lor (u64 (Z.shiftl id 3)) t.

(** internal/pb/varint.go:3-7 [EncodeIdVarInt]. *)
Definition EncodeIdVarInt (buf : list Z) (id v : Z) : list Z :=
  let buf := EncodeVarInt buf (MakeIdType id PbVarInt) in
  EncodeVarInt buf v.

(** ** buffer.go *)

(** internal/pb/buffer.go:7-12 [ReadBytes]; 3-5 [DecodeBytes] is the same function.
    The slice expression is bounded by the *capacity* of [buf]. *)
Definition ReadBytes (buf : slice) (next : Z) : res (slice * Z) :=
  '(l, next) <- DecodeVarInt buf next ;;
  let byteLength := s64 l in
  out <- sslice buf next (s64 (next + byteLength)) ;;
  Ok (out, s64 (next + byteLength)).

Definition DecodeBytes := ReadBytes.

(** internal/pb/buffer.go:14-22 [EncodeBuffer] (the capacity test has an empty body). *)
Definition EncodeBuffer (bufOutput bufInput : list Z) : list Z :=
  let bufOutput := EncodeVarInt bufOutput (u64 (zlen bufInput)) in
  bufOutput ++ bufInput.

(** internal/pb/buffer.go:24-27 [SkipBytes]: no bounds check at all. *)
Definition SkipBytes (buf : slice) (next : Z) : res Z :=
  '(l, next) <- DecodeVarInt buf next ;;
  let byteLength := s64 l in
  Ok (s64 (next + byteLength)).

(** internal/pb/buffer.go:29-33 [EncodeIdBuffer]. *)
Definition EncodeIdBuffer (bufOutput : list Z) (id : Z) (bufInput : list Z) : list Z :=
  let bufOutput := EncodeVarInt bufOutput (MakeIdType id PbFixedBytes) in
  EncodeBuffer bufOutput bufInput.

(** internal/pb/buffer.go:40-42 [DecodeString] (copies the visible bytes). *)
Definition DecodeString (buf : slice) (next : Z) : res (list Z * Z) :=
  '(b, next) <- DecodeBytes buf next ;; Ok (vis b, next).

(** internal/pb/buffer.go:44-46 [EncodeString]. *)
Definition EncodeString (bufOutput s : list Z) : list Z := EncodeBuffer bufOutput s.

(** ** 32.go / 64.go: scalars *)

(** internal/pb/32.go:3-5 [DecodeS32]. *)
Definition DecodeS32 (buf : slice) (next : Z) : res (Z * Z) :=
  '(v, next) <- DecodeVarInt buf next ;; Ok (s32 (DecodeZigZag v), next).
(** internal/pb/32.go:7-9 [DecodeI32]. *)
Definition DecodeI32 (buf : slice) (next : Z) : res (Z * Z) :=
  '(v, next) <- DecodeVarInt buf next ;; Ok (s32 v, next).
(** internal/pb/32.go:11-13 [DecodeU32]. *)
Definition DecodeU32 (buf : slice) (next : Z) : res (Z * Z) :=
  '(v, next) <- DecodeVarInt buf next ;; Ok (u32 v, next).
(** internal/pb/64.go:6-8 [DecodeS64]. *)
Definition DecodeS64 (buf : slice) (next : Z) : res (Z * Z) :=
  '(v, next) <- DecodeVarInt buf next ;; Ok (DecodeZigZag v, next).
(** internal/pb/64.go:11-13 [DecodeI64]. *)
Definition DecodeI64 (buf : slice) (next : Z) : res (Z * Z) :=
  '(v, next) <- DecodeVarInt buf next ;; Ok (s64 v, next).
(** internal/pb/64.go:16-18 [DecodeU64]. *)
Definition DecodeU64 (buf : slice) (next : Z) : res (Z * Z) := DecodeVarInt buf next.

(** ** Packed decoders.

    All of them are [output := make([]T, len(innerBuf)); for innerNext <
    len(innerBuf) { output[idx] = conv(...); idx++ }; return output[:idx]].
    The state is (innerNext, acc, output so far); [idx] is the length of the output
    so far and the store [output[idx] = ...] is in range iff idx < len(innerBuf).
    [f acc raw] gives the new accumulator and the stored value. *)

Definition packed_state : Type := (Z * Z * list Z)%type.

Definition packed_body (checked : bool) (f : Z -> Z -> Z * Z) (innerBuf : slice)
    (st : packed_state) : res packed_state :=
  let '(innerNext, acc, output) := st in
  '(raw, innerNext) <- DecodeVarInt innerBuf innerNext ;;
  let '(acc, value) := f acc raw in
  if checked && negb (zlen output <? slen innerBuf) then Panic IndexOutOfRange else
  Ok (innerNext, acc, output ++ [value]).

Definition packed_cond (innerBuf : slice) (st : packed_state) : bool :=
  let '(innerNext, _, _) := st in innerNext <? slen innerBuf.

Definition packed_loop (checked : bool) (f : Z -> Z -> Z * Z) (innerBuf : slice)
  : res (list Z) :=
  '(_, _, output) <- loop (S (List.length (vis innerBuf)))
                          (packed_cond innerBuf) (packed_body checked f innerBuf)
                          (0, 0, []) ;;
  Ok output.

Definition decode_packed (checked : bool) (f : Z -> Z -> Z * Z) (buf : slice) (next : Z)
  : res (list Z * Z) :=
  '(innerBuf, next) <- DecodeBytes buf next ;;
  output <- packed_loop checked f innerBuf ;;
  Ok (output, next).

(** internal/pb/32.go:15-24 [DecodeS32Packed]. *)
Definition DecodeS32Packed :=
  decode_packed true (fun acc raw => (acc, s32 (DecodeZigZag raw))).
(** internal/pb/32.go:46-55 [DecodeI32Packed]. *)
Definition DecodeI32Packed := decode_packed true (fun acc raw => (acc, s32 raw)).
(** internal/pb/32.go:75-84 [DecodeU32Packed]. *)
Definition DecodeU32Packed := decode_packed true (fun acc raw => (acc, u32 raw)).
(** internal/pb/64.go:20-31 [DecodeS64PackedDelta]: [last += zigzag; output[idx] = last]. *)
Definition DecodeS64PackedDelta :=
  decode_packed true (fun last raw =>
    let last := s64 (last + DecodeZigZag raw) in (last, last)).
(** internal/pb/64.go:83-92 [DecodeS64Packed]. *)
Definition DecodeS64Packed := decode_packed true (fun acc raw => (acc, DecodeZigZag raw)).
(** internal/pb/64.go:94-101 [DecodeU64Packed] (grows with append, no fixed output). *)
Definition DecodeU64Packed := decode_packed false (fun acc raw => (acc, raw)).

(** ** Packed encoders (without the length prefix). *)

(** The loop [for _, value := range values { buf = EncodeVarInt(buf, conv(value)) }]. *)
Definition enc_values (conv : Z -> Z) (buf values : list Z) : list Z :=
  fold_left (fun buf value => EncodeVarInt buf (conv value)) values buf.

(** internal/pb/64.go:72-81 [EncodeS64PackedDeltaFunc]; the loop is shared with
    64.go:51-59 and 64.go:61-70: [EncodeZigZag(value-last)]. *)
Definition enc_deltas (buf values : list Z) : list Z :=
  fst (fold_left
         (fun '(buf, last) value =>
            (EncodeVarInt buf (EncodeZigZag (s64 (value - last))), value))
         values (buf, 0)).

Definition EncodeS64PackedDeltaFunc (values : list Z) (buf : list Z) : list Z :=
  enc_deltas buf values.
(** internal/pb/64.go:61-70 [EncodeS64PackedDelta]. *)
Definition EncodeS64PackedDelta (buf values : list Z) : list Z :=
  EncodeBuffer buf (enc_deltas [] values).
(** internal/pb/64.go:51-59 [EncodeS64PackedDeltaZero]. *)
Definition EncodeS64PackedDeltaZero (buf values : list Z) : list Z :=
  enc_deltas buf values ++ [0].
(** internal/pb/64.go:103-110 [EncodeU64Packed]. *)
Definition EncodeU64Packed (values : list Z) (buf : list Z) : list Z :=
  enc_values (fun v => v) buf values.
(** internal/pb/32.go:86-93 [EncodeU32PackedFunc]. *)
Definition EncodeU32PackedFunc (values : list Z) (buf : list Z) : list Z :=
  enc_values u64 buf values.
(** internal/pb/32.go:66-73 [EncodeI32PackedFunc]: [uint64(value)] sign-extends. *)
Definition EncodeI32PackedFunc (values : list Z) (buf : list Z) : list Z :=
  enc_values u64 buf values.
(** internal/pb/32.go:57-64 [EncodeI32Packed]. *)
Definition EncodeI32Packed (buf values : list Z) : list Z :=
  EncodeBuffer buf (enc_values u64 [] values).
(** internal/pb/32.go:37-44 [EncodeS32Packed]. *)
Definition EncodeS32Packed (buf values : list Z) : list Z :=
  EncodeBuffer buf (enc_values EncodeZigZag [] values).
(** internal/pb/32.go:26-35 [EncodeS32PackedDelta]: [value-last] wraps at 32 bits. *)
Definition EncodeS32PackedDelta (buf values : list Z) : list Z :=
  EncodeBuffer buf
    (fst (fold_left
            (fun '(b, last) value =>
               (EncodeVarInt b (EncodeZigZag (s32 (value - last))), value))
            values ([], 0))).

(** internal/pb/64.go:35-47 [DecodeS64PackedDeltaZero].  State of the loop:
    (next, last, output, returned?). *)
Definition dz_state : Type := (Z * Z * list Z * bool)%type.

Definition dz_body (buf : slice) (st : dz_state) : res dz_state :=
  let '(next, last, output, _) := st in
  '(nextDelta, next) <- DecodeVarInt buf next ;;
  if nextDelta =? 0 then Ok (next, last, output, true) else
  let last := s64 (last + DecodeZigZag nextDelta) in
  Ok (next, last, output ++ [last], false).

Definition dz_cond (buf : slice) (st : dz_state) : bool :=
  let '(next, _, _, returned) := st in negb returned && (next <? slen buf).

Definition DecodeS64PackedDeltaZero (buf : slice) : res (list Z) :=
  '(_, _, output, returned) <-
     loop (S (List.length (vis buf))) (dz_cond buf) (dz_body buf) (0, 0, [], false) ;;
  if (returned : bool) then Ok output else Panic (PanicMsg "ran out of data").

(** ** embed.go *)

(** internal/pb/embed.go:3 [Embedder]. *)
Definition Embedder : Type := list Z -> res (list Z).

(** internal/pb/embed.go:45-59 [Reserve128 ... Reserve268435456]. *)
Definition Reserve (n : nat) (b : list Z) : list Z := b ++ repeat 0 n.

(** internal/pb/embed.go:61-66 [EmbedInt128]; [b] is [buf[startIndex:]], written in
    place, so the model takes the whole buffer and the start index. *)
Definition EmbedInt128 (buf : list Z) (i v : Z) : res (list Z) :=
  if 128 <=? v then Panic (PanicMsg "128 overflow") else
  lset buf i (u8 v).

(** internal/pb/embed.go:68-74 [EmbedInt16384]. *)
Definition EmbedInt16384 (buf : list Z) (i v : Z) : res (list Z) :=
  if 16384 <=? v then Panic (PanicMsg "16384 overflow") else
  buf <- lset buf i (cont v 0) ;;
  lset buf (i + 1) (fin v 7).

(** internal/pb/embed.go:76-83 [EmbedInt2097152]. *)
Definition EmbedInt2097152 (buf : list Z) (i v : Z) : res (list Z) :=
  if 2097152 <=? v then Panic (PanicMsg "2097152 overflow") else
  buf <- lset buf i (cont v 0) ;;
  buf <- lset buf (i + 1) (cont v 7) ;;
  lset buf (i + 2) (fin v 14).

(** internal/pb/embed.go:85-93 [EmbedInt268435456]. *)
Definition EmbedInt268435456 (buf : list Z) (i v : Z) : res (list Z) :=
  if 268435456 <=? v then Panic (PanicMsg "268435456 overflow") else
  buf <- lset buf i (cont v 0) ;;
  buf <- lset buf (i + 1) (cont v 7) ;;
  buf <- lset buf (i + 2) (cont v 14) ;;
  lset buf (i + 3) (fin v 21).

(** internal/pb/embed.go:5-43: the common shape of the four Embed functions;
    [n] is [sizeOfReservation]. *)
Definition embed (n : nat) (patch : list Z -> Z -> Z -> res (list Z))
    (id : Z) (e : Embedder) (buf : list Z) : res (list Z) :=
  let buf := EncodeVarInt buf (MakeIdType id PbFixedBytes) in
  let startIndex := zlen buf in
  let buf := Reserve n buf in
  buf <- e buf ;;
  patch buf startIndex (zlen buf - (startIndex + Z.of_nat n)).

(** internal/pb/embed.go:5-13 [Embed128]. *)
Definition Embed128 := embed 1 EmbedInt128.
(** internal/pb/embed.go:15-23 [Embed16384]. *)
Definition Embed16384 := embed 2 EmbedInt16384.
(** internal/pb/embed.go:25-33 [Embed2097152]. *)
Definition Embed2097152 := embed 3 EmbedInt2097152.
(** internal/pb/embed.go:35-43 [Embed268435456]. *)
Definition Embed268435456 := embed 4 EmbedInt268435456.
