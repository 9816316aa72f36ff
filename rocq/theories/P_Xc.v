(** * P_Xc: property theorems (generated from XcThms.v by tools/gen_props.py). *)
From Verif Require Import Base PbSpec PbModel TModel HLModel MtModel MtSpec MtThms NiModel NiSpec NiThms WiModel WiSpec WiThms TrModel TrSpec TrThms XcThms.

(** C44, exactly: for every count and every offset of 64 bits, packing refuses or both are read
    back as they were, except for the count 2^24 with an offset below 2^40. *)
Theorem C44_exact : forall count offset, is_u64 count -> is_u64 offset ->
  ((exists m, NewCountOffset count offset = Panic (PanicMsg m)) \/
   (exists w, NewCountOffset count offset = Ok w /\ is_u64 w /\ co_Count w = count /\ co_Offset w = offset) <->
   ~ (count = 2^24 /\ offset < 2^40)).
Proof. exact pC44_exact. Qed.
Print Assumptions C44_exact.

(** Both sides: 2^24 at offset 5, and one less. *)
Example C44_exact_ex : is_u64 (2^24) /\ is_u64 5 /\ (2^24 = 2^24 /\ 5 < 2^40) /\ exists w, NewCountOffset (2^24 - 1) 5 = Ok w /\ co_Count w = 2^24 - 1 /\ co_Offset w = 5.
Proof. exact pC44_exact_ex. Qed.

(** C55, exactly: for every way id and offset of 64 bits, signed, packing refuses or both are read
    back as they were, if and only if one is above its limit or both are in range: the id from 0 up to
    (not including) 2^31, the offset from 0 up to (not including) 2^33. *)
Theorem C55_exact : forall id off, is_s64 id -> is_s64 off ->
  ((exists p, MakeIndexData id off = Panic p) \/
   (exists d, MakeIndexData id off = Ok d /\ is_u64 d /\ wd_WayID d = id /\ wd_Offset d = off) <->
   (2^31 < id \/ 2^33 < off) \/ (0 <= id < 2^31 /\ 0 <= off < 2^33)).
Proof. exact pC55_exact. Qed.
Print Assumptions C55_exact.

Example C55_exact_ex : is_s64 (2^31) /\ ~ ((2^31 < 2^31 \/ 2^33 < 5) \/ (0 <= 2^31 < 2^31 /\ 0 <= 5 < 2^33)) /\ (0 <= 2^31 - 1 < 2^31 /\ 0 <= 2^33 - 1 < 2^33).
Proof. exact pC55_exact_ex. Qed.

(** C75, exactly: for every text, width and number of highlighted characters, the characters shown
    are those of the padded text (for width 0, of the text) if and only if part of the line and not all of
    it is to be highlighted (counting the empty part), or the text has no percent sign. *)
Theorem C75_exact : forall s w pre, exists m, MarkupAsProgress s w pre = Ok m /\
  (map fst (show N_style m) = (if w =? 0 then s else padded s w) <->
   (w <> 0 /\ 0 <= pre < Z.max (zlen s) w) \/ ~ In 37 s).
Proof. exact pC75_exact. Qed.
Print Assumptions C75_exact.

(** Both sides: "at 100%" at full progress, and halfway. *)
Example C75_exact_ex : In 37 (bytes_of "at 100%") /\ ~ (8 <> 0 /\ 0 <= 8 < Z.max (zlen (bytes_of "at 100%")) 8) /\
  exists m, MarkupAsProgress (bytes_of "at 100%") 8 4 = Ok m /\ map fst (show N_style m) = bytes_of "at 100% ".
Proof. exact pC75_exact_ex. Qed.

(** C43, exactly: for valid latitudes, the stored location is that of ENCODING.md if and only if the
    latitude is 0 or one unit (0.0000001 degrees) south of it. *)
Theorem C43_exact : forall lon lat, is_s32 lon -> valid_lat lat ->
  exists x, location lon lat = Ok x /\ (documented_location lon lat x <-> lat = 0 \/ lat = -1).
Proof. exact pC43_exact. Qed.
Print Assumptions C43_exact.

Example C43_exact_ex : is_s32 15 /\ valid_lat (-1) /\ valid_lat 2 /\ exists x, location 15 (-1) = Ok x /\ x < 0.
Proof. exact pC43_exact_ex. Qed.
