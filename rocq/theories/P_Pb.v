(** * P_Pb: property theorems (generated from PbThms.v by tools/gen_props.py). *)
From Verif Require Import Base BaseLemmas PbModel PbSpec PbProofs PbProofs2 PbThms.

(** C01. [v] is appended to [pre]; whatever follows ([post], and [e] beyond the
    length of the slice), decoding at the end of [pre] gives [v] and leaves the
    cursor right after the encoding. *)
Theorem C01_varint_roundtrip : forall pre post e v,
  is_u64 v -> bytes pre -> bytes post -> zlen (EncodeVarInt pre v ++ post) < 2^63 ->
  DecodeVarInt (mkslice (EncodeVarInt pre v ++ post) e) (zlen pre)
    = Ok (v, zlen (EncodeVarInt pre v))
  /\ firstn (List.length pre) (EncodeVarInt pre v) = pre.
Proof. exact pC01_varint_roundtrip. Qed.
Print Assumptions C01_varint_roundtrip.

Example C01_ex :
  is_u64 (2^64 - 1) /\ bytes [255; 0] /\ bytes [7] /\
  zlen (EncodeVarInt [255; 0] (2^64 - 1) ++ [7]) < 2^63 /\
  DecodeVarInt (mkslice (EncodeVarInt [255; 0] (2^64 - 1) ++ [7]) [9]) 2 = Ok (2^64 - 1, 12).
Proof. exact pC01_ex. Qed.

(** C02. The encoding appends one varint with value [v], 1 to 10 bytes long, and
    no varint with that value is shorter. *)
Theorem C02_varint_canonical : forall b v, is_u64 v ->
  exists bs, EncodeVarInt b v = b ++ bs /\ is_varint bs /\ leb_value bs = v /\
    (1 <= List.length bs <= 10)%nat /\
    (forall bs', is_varint bs' -> leb_value bs' = v ->
                 (List.length bs <= List.length bs')%nat).
Proof. exact pC02_varint_canonical. Qed.
Print Assumptions C02_varint_canonical.

(** C02, uniqueness: the shortest varint of a value is unique, so these are the
    bytes any canonical protobuf writer emits. *)
Theorem C02_varint_canonical_unique : forall v bs, is_u64 v ->
  is_varint bs -> leb_value bs = v ->
  List.length bs = List.length (EncodeVarInt [] v) -> bs = EncodeVarInt [] v.
Proof. exact pC02_varint_canonical_unique. Qed.
Print Assumptions C02_varint_canonical_unique.

Example C02_ex : EncodeVarInt [] 300 = [172; 2] /\ leb_value [172; 2] = 300 /\
  List.length (EncodeVarInt [] (2^63)) = 10%nat.
Proof. exact pC02_ex. Qed.

(** C03. Success: exactly when a varint of at most ten bytes and value below 2^64
    starts at the cursor. *)
Theorem C03_decode_success : forall b s v n, bytes (vis b) -> slen b < 2^63 ->
  (DecodeVarInt b s = Ok (v, n) <->
   0 <= s /\ exists bs post, skipn (Z.to_nat s) (vis b) = bs ++ post /\
     is_varint bs /\ (List.length bs <= 10)%nat /\ leb_value bs = v /\ v < 2^64 /\
     n = s + zlen bs).
Proof. exact pC03_decode_success. Qed.
Print Assumptions C03_decode_success.

(** C03. Out-of-range panic: exactly when the cursor is outside the buffer or the
    buffer ends inside the varint (fewer than ten bytes left, all continuations). *)
Theorem C03_decode_truncated : forall b s, bytes (vis b) -> slen b < 2^63 ->
  (DecodeVarInt b s = Panic IndexOutOfRange <->
   s < 0 \/ slen b <= s \/
   (0 <= s < slen b /\ slen b - s <= 9 /\
    Forall (fun y => 128 <= y) (skipn (Z.to_nat s) (vis b)))).
Proof. exact pC03_decode_truncated. Qed.
Print Assumptions C03_decode_truncated.

(** C03. Overflow panic: exactly when nine continuation bytes are followed by a
    tenth byte greater than one. *)
Theorem C03_decode_overflow : forall b s, bytes (vis b) -> slen b < 2^63 ->
  (DecodeVarInt b s = Panic (PanicMsg "overflow") <->
   0 <= s /\ exists cs y post, skipn (Z.to_nat s) (vis b) = cs ++ y :: post /\
     List.length cs = 9%nat /\ Forall (fun y => 128 <= y) cs /\ 2 <= y).
Proof. exact pC03_decode_overflow. Qed.
Print Assumptions C03_decode_overflow.

(** C03. There is no fourth outcome. *)
Theorem C03_decode_outcomes : forall b s, bytes (vis b) -> slen b < 2^63 ->
  (exists v n, DecodeVarInt b s = Ok (v, n)) \/
  DecodeVarInt b s = Panic IndexOutOfRange \/ DecodeVarInt b s = Panic (PanicMsg "overflow").
Proof. exact pC03_decode_outcomes. Qed.
Print Assumptions C03_decode_outcomes.

Example C03_ex :
  DecodeVarInt (exact [0x80; 0x80; 0]) 0 = Ok (0, 3) /\
  DecodeVarInt (mkslice [0x80; 0x80] [1]) 0 = Panic IndexOutOfRange /\
  DecodeVarInt (exact (repeat 0xff 10)) 0 = Panic (PanicMsg "overflow") /\
  DecodeVarInt (exact [1]) (-1) = Panic IndexOutOfRange.
Proof. exact pC03_ex. Qed.

(** C04. *)
Theorem C04_zigzag :
  (forall n, is_s64 n -> EncodeZigZag n = (if n <? 0 then -2 * n - 1 else 2 * n)) /\
  (forall n, is_s64 n -> is_u64 (EncodeZigZag n) /\ DecodeZigZag (EncodeZigZag n) = n) /\
  (forall u, is_u64 u -> is_s64 (DecodeZigZag u) /\ EncodeZigZag (DecodeZigZag u) = u).
Proof. exact pC04_zigzag. Qed.
Print Assumptions C04_zigzag.

Example C04_ex : is_s64 (-2^63) /\ EncodeZigZag (-2^63) = 2^64 - 1 /\ DecodeZigZag (2^64-1) = -2^63.
Proof. exact pC04_ex. Qed.

(** C05.  Each scalar written in the wire form of its type is read back unchanged,
    and the cursor ends after it. *)
Theorem C05_scalar_roundtrip : forall pre post e,
  bytes pre -> bytes post ->
  let at_ := fun (f : slice -> Z -> res (Z * Z)) raw x =>
    zlen (EncodeVarInt pre raw ++ post) < 2^63 ->
    f (mkslice (EncodeVarInt pre raw ++ post) e) (zlen pre)
      = Ok (x, zlen (EncodeVarInt pre raw)) in
  (forall x, is_s32 x -> at_ DecodeS32 (EncodeZigZag x) x) /\
  (forall x, is_s32 x -> at_ DecodeI32 (u64 x) x) /\
  (forall x, is_u32 x -> at_ DecodeU32 (u64 x) x) /\
  (forall x, is_s64 x -> at_ DecodeS64 (EncodeZigZag x) x) /\
  (forall x, is_s64 x -> at_ DecodeI64 (u64 x) x) /\
  (forall x, is_u64 x -> at_ DecodeU64 x x).
Proof. exact pC05_scalar_roundtrip. Qed.
Print Assumptions C05_scalar_roundtrip.

(** C05, narrowing: on any input the 32-bit decoders return the value the 64-bit
    decoder returns, reduced to its low 32 bits. *)
Theorem C05_narrowing : forall b s v n, DecodeU64 b s = Ok (v, n) ->
  DecodeU32 b s = Ok (v mod 2^32, n) /\
  (exists w, DecodeI32 b s = Ok (w, n) /\ is_s32 w /\ w mod 2^32 = v mod 2^32) /\
  (exists w, DecodeS32 b s = Ok (w, n) /\ is_s32 w /\
             w mod 2^32 = DecodeZigZag v mod 2^32).
Proof. exact pC05_narrowing. Qed.
Print Assumptions C05_narrowing.

Example C05_ex :
  EncodeVarInt [] (u64 (-1)) = repeat 255 9 ++ [1] /\
  DecodeI32 (exact (EncodeVarInt [] (u64 (-1)))) 0 = Ok (-1, 10) /\
  DecodeU32 (exact (EncodeVarInt [] (2^32 + 5))) 0 = Ok (5, 5).
Proof. exact pC05_ex. Qed.

(** C06. Packed lists: writing then reading gives the list back, the cursor ends
    right after the field, for any bytes around it. [fits] only says the whole
    buffer is a Go slice (length below 2^63). *)
Theorem C06_packed_roundtrip : forall pre post e,
  bytes pre -> bytes post ->
  let rt := fun (dec : slice -> Z -> res (list Z * Z)) (w l : list Z) =>
    zlen (w ++ post) < 2^63 -> dec (mkslice (w ++ post) e) (zlen pre) = Ok (l, zlen w) in
  (forall l, Forall is_s64 l -> rt DecodeS64PackedDelta (EncodeS64PackedDelta pre l) l) /\
  (forall l, Forall is_s32 l -> rt DecodeI32Packed (EncodeI32Packed pre l) l) /\
  (forall l, Forall is_s32 l -> rt DecodeS32Packed (EncodeS32Packed pre l) l) /\
  (forall l, Forall is_u32 l ->
     rt DecodeU32Packed (EncodeBuffer pre (EncodeU32PackedFunc l [])) l) /\
  (forall l, Forall is_s32 l ->
     rt DecodeI32Packed (EncodeBuffer pre (EncodeI32PackedFunc l [])) l) /\
  (forall l, Forall is_u64 l ->
     rt DecodeU64Packed (EncodeBuffer pre (EncodeU64Packed l [])) l) /\
  (forall l, Forall is_s64 l ->
     rt DecodeS64PackedDelta (EncodeBuffer pre (EncodeS64PackedDeltaFunc l [])) l).
Proof. exact pC06_packed_roundtrip. Qed.
Print Assumptions C06_packed_roundtrip.

(** C06. On arbitrary bytes the packed decoders never store outside the output they
    preallocated: removing the bounds check on the store changes nothing (so an
    out-of-range panic can only come from a truncated varint), and they terminate. *)
Theorem C06_packed_in_bounds : forall f buf next,
  go_slice buf ->
  decode_packed true f buf next = decode_packed false f buf next /\
  decode_packed true f buf next <> Diverge.
Proof. exact pC06_packed_in_bounds. Qed.
Print Assumptions C06_packed_in_bounds.

Example C06_ex :
  Forall is_s64 [2^63 - 1; -2^63; 0] /\
  DecodeS64PackedDelta (exact (EncodeS64PackedDelta [9] [2^63 - 1; -2^63; 0] ++ [1])) 1
  = Ok ([2^63 - 1; -2^63; 0], zlen (EncodeS64PackedDelta [9] [2^63 - 1; -2^63; 0])).
Proof. exact pC06_ex. Qed.

(** C07. *)
Theorem C07_delta_zero : forall values rest e,
  Forall is_s64 values -> bytes rest ->
  zlen (EncodeS64PackedDeltaZero [] values ++ rest) < 2^63 ->
  DecodeS64PackedDeltaZero (mkslice (EncodeS64PackedDeltaZero [] values ++ rest) e)
  = Ok (until_repeat 0 values).
Proof. exact pC07_delta_zero. Qed.
Print Assumptions C07_delta_zero.

(** C07. Lists without sequential duplicates and not starting with 0 round-trip. *)
Theorem C07_delta_zero_roundtrip : forall values rest e,
  Forall is_s64 values -> bytes rest ->
  zlen (EncodeS64PackedDeltaZero [] values ++ rest) < 2^63 ->
  (forall l1 x y l2, 0 :: values = l1 ++ x :: y :: l2 -> x <> y) ->
  DecodeS64PackedDeltaZero (mkslice (EncodeS64PackedDeltaZero [] values ++ rest) e)
  = Ok values.
Proof. exact pC07_delta_zero_roundtrip. Qed.
Print Assumptions C07_delta_zero_roundtrip.

(** C07. The decoder returns or panics on every byte sequence. *)
Theorem C07_terminates : forall buf, go_slice buf -> DecodeS64PackedDeltaZero buf <> Diverge.
Proof. exact pC07_terminates. Qed.
Print Assumptions C07_terminates.

Example C07_ex :
  DecodeS64PackedDeltaZero (mkslice (EncodeS64PackedDeltaZero [] [5; 7; 7; 8] ++ [1; 2]) [3])
  = Ok [5; 7] /\
  DecodeS64PackedDeltaZero (exact (EncodeS64PackedDeltaZero [] [-5; 7; -2^63])) = Ok [-5; 7; -2^63].
Proof. exact pC07_ex. Qed.

(** C08. *)
Theorem C08_bytes_roundtrip : forall pre p post e,
  bytes pre -> bytes p -> bytes post -> zlen (EncodeBuffer pre p ++ post) < 2^63 ->
  (exists x, ReadBytes (mkslice (EncodeBuffer pre p ++ post) e) (zlen pre)
             = Ok (mkslice p x, zlen (EncodeBuffer pre p))) /\
  DecodeString (mkslice (EncodeString pre p ++ post) e) (zlen pre)
    = Ok (p, zlen (EncodeString pre p)).
Proof. exact pC08_bytes_roundtrip. Qed.
Print Assumptions C08_bytes_roundtrip.

Example C08_ex :
  DecodeString (mkslice (EncodeString [1;2] [104; 105] ++ [7]) []) 2 = Ok ([104; 105], 5).
Proof. exact pC08_ex. Qed.

(** C09. [e] appends [p] to the buffer it is given.  The four embedding functions
    (n reserved bytes, limit 128^n) write key, an n-byte varint whose value is
    [zlen p], then [p]; they panic exactly when [p] does not fit. *)
Theorem C09_embed : forall id (e : Embedder) buf p,
  (forall b, e b = Ok (b ++ p)) ->
  let key := EncodeVarInt [] (MakeIdType id PbFixedBytes) in
  let spec := fun (emb : Z -> Embedder -> list Z -> res (list Z)) n limit msg =>
    (zlen p < limit -> exists L, emb id e buf = Ok (buf ++ key ++ L ++ p) /\
       is_varint L /\ List.length L = n /\ leb_value L = zlen p) /\
    (limit <= zlen p -> emb id e buf = Panic (PanicMsg msg)) in
  spec Embed128 1%nat 128 "128 overflow"%string /\
  spec Embed16384 2%nat 16384 "16384 overflow"%string /\
  spec Embed2097152 3%nat 2097152 "2097152 overflow"%string /\
  spec Embed268435456 4%nat 268435456 "268435456 overflow"%string.
Proof. exact pC09_embed. Qed.
Print Assumptions C09_embed.

(** C09. An embedded field is read back as exactly its payload. *)
Theorem C09_embed_read : forall pre key L p post e,
  bytes pre -> bytes p -> bytes post -> is_u64 key ->
  is_varint L -> (List.length L <= 10)%nat -> leb_value L = zlen p ->
  let w := pre ++ EncodeVarInt [] key ++ L ++ p in
  zlen (w ++ post) < 2^63 ->
  exists n x, DecodeVarInt (mkslice (w ++ post) e) (zlen pre) = Ok (key, n) /\
    ReadBytes (mkslice (w ++ post) e) n = Ok (mkslice p x, zlen w).
Proof. exact pC09_embed_read. Qed.
Print Assumptions C09_embed_read.

Example C09_ex :
  Embed16384 3 (fun b => Ok (b ++ [65; 66; 67])) [1] = Ok [1; 26; 131; 0; 65; 66; 67] /\
  Embed128 1 (fun b => Ok (b ++ repeat 0 128)) [] = Panic (PanicMsg "128 overflow").
Proof. exact pC09_ex. Qed.
