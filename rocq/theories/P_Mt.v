(** * P_Mt: property theorems (generated from MtThms.v by tools/gen_props.py). *)
From Verif Require Import Base MtModel MtSpec MtThms.

(** C41.  For every pair of int32: encoding succeeds, the code has the documented bit
    layout and decodes to the two values; and every uint64 is the code of what it decodes
    to. *)
Theorem C41_layout : forall e o, is_s32 e -> is_s32 o ->
  exists x, Encode e o = Ok x /\ interleaves e o x /\ Decode x = (u32 e, u32 o).
Proof. exact pC41_layout. Qed.
Print Assumptions C41_layout.

Theorem C41_surjective : forall x, is_u64 x -> exists e o, Decode x = (e, o) /\ is_u32 e /\ is_u32 o /\ Encode (s32 e) (s32 o) = Ok x.
Proof. exact pC41_surjective. Qed.
Print Assumptions C41_surjective.

Example C41_ex : Encode 3 (-1) = Ok 12297829382473034415 /\ Decode 12297829382473034415 = (3, 4294967295).
Proof. exact pC41_ex. Qed.

(** C42.  For every longitude and latitude: the stored location exists, is negative (so
    neither zero nor a positive id), and decodes to the same longitude and latitude. *)
Theorem C42_location : forall lon lat, is_s32 lon -> valid_lat lat ->
  exists x, location lon lat = Ok x /\ - 2^63 <= x < 0 /\ DecodeLocation (u64 x) = (lon, lat).
Proof. exact pC42_location. Qed.
Print Assumptions C42_location.

Example C42_ex : valid_lat (-338568000) /\ location 1512153000 (-338568000) = Ok (-5057922795850832832) /\ DecodeLocation (u64 (-5057922795850832832)) = (1512153000, -338568000).
Proof. exact pC42_ex. Qed.

(** C43.  The stored location has the longitude in its even bits and, in its odd bits, the
    low 31 bits of the latitude with bit 31 set: ENCODING.md without its shift. *)
Theorem C43_layout_partial : forall lon lat, is_s32 lon -> valid_lat lat ->
  exists x, location lon lat = Ok x /\ interleaves lon (Z.lor (Z.land lat (2^31 - 1)) (2^31)) (u64 x).
Proof. exact pC43_layout_partial. Qed.
Print Assumptions C43_layout_partial.

(** C43 as documented is false of the code: latitude 0.0000002 is stored differently. *)
Theorem C43_documented_refuted :
  exists lon lat x, valid_lon lon /\ valid_lat lat /\ location lon lat = Ok x /\ ~ documented_location lon lat x.
Proof. exact pC43_documented_refuted. Qed.
Print Assumptions C43_documented_refuted.
