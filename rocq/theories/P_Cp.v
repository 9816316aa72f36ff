(** * P_Cp: property theorems (generated from CpThms.v by tools/gen_props.py). *)
From Verif Require Import Base BaseLemmas PbModel PbSpec PbProofs PbProofs2 TModel TSpec CpSpec TProofs TMsg TMsg2 T2Proofs T2Items T2Thms CpThms.

(** C10, with any bytes [e] behind the message: whenever a reader accepts a message, either
    the message is sound (and then ways, relations, dense sections, string tables and
    blob headers are read exactly as if nothing lay behind it), or it is sound up to one
    last field that claims more bytes than are left.  So the only way to read a
    neighbour's bytes is through the last field of a message.  Missing: rejection in
    that case (see the refutation); lengths of 2^63 and more in ways, relations, dense
    sections and groups, which may be negative as Go ints. *)
Theorem C10_capacity_partial : forall v e, bytes v -> bytes e -> zlen v + zlen e < 2^63 ->
  (forall st r, ReadStringTable (mkslice v e) st = Ok r -> sound v /\ ReadStringTable (exact v) st = Ok r \/ overruns v) /\
  (forall r, ReadBlobHeader (mkslice v e) = Ok r -> sound v /\ ReadBlobHeader (exact v) = Ok r \/ overruns v) /\
  (forall st r, ReadBlob (mkslice v e) st = Ok r -> sound v \/ overruns v) /\
  (forall pbr st r, ReadPrimitiveBlock pbr (mkslice v e) st = Ok r -> sound v \/ overruns v) /\
  (no_huge v ->
    (forall st r, ReadWay (mkslice v e) st = Ok r -> sound v /\ ReadWay (exact v) st = Ok r \/ overruns v) /\
    (forall st r, ReadRelation (mkslice v e) st = Ok r -> sound v /\ ReadRelation (exact v) st = Ok r \/ overruns v) /\
    (forall st r, ReadDenseNodes (mkslice v e) st = Ok r -> sound v /\ ReadDenseNodes (exact v) st = Ok r \/ overruns v) /\
    (forall pbr st r, ReadPrimitiveGroup pbr (mkslice v e) st = Ok r -> sound v \/ overruns v)).
Proof. exact pC10_capacity_partial. Qed.
Print Assumptions C10_capacity_partial.

Example C10_capacity_ex :
  (exists r, ReadWay (mkslice [8; 5; 66; 1; 6] [42; 1; 0]) Way0 = Ok r) /\ no_huge [8; 5; 66; 1; 6] /\ sound [8; 5; 66; 1; 6] /\
  (exists r, ReadWay (mkslice [66; 3] [42; 1; 0]) Way0 = Ok r) /\ overruns [66; 3].
Proof. exact pC10_capacity_ex. Qed.

(** C10, whole blocks and groups: what is read from any slice (with or without bytes behind
    it) is what readers that keep to the extent of every nested message would read, unless
    some nested message overruns its own extent with its last field.  Missing: rejection
    in that case (see the refutation), and lengths of 2^63 and more. *)
Theorem C10_isolated_partial : forall pbr b st r, go_slice b -> no_huge (vis b) ->
  (ReadPrimitiveBlock pbr b st = Ok r -> iso_ReadPrimitiveBlock pbr (exact (vis b)) st = Ok r \/ overrun_in (vis b)) /\
  (forall st r, ReadPrimitiveGroup pbr b st = Ok r -> iso_ReadPrimitiveGroup pbr (exact (vis b)) st = Ok r \/ overrun_in (vis b)).
Proof. exact pC10_isolated_partial. Qed.
Print Assumptions C10_isolated_partial.

Example C10_isolated_ex :
  let pbr := mkReader false false false false in
  let good := [26; 4; 8; 5; 66; 0] in
  go_slice (mkslice good [7]) /\ no_huge good /\
  (exists r, ReadPrimitiveGroup pbr (mkslice good [7]) PrimitiveGroup0 = Ok r /\ iso_ReadPrimitiveGroup pbr (exact good) PrimitiveGroup0 = Ok r) /\
  (exists p, iso_ReadPrimitiveGroup pbr (exact [26; 2; 66; 3; 42; 1; 0]) PrimitiveGroup0 = Panic p) /\
  overrun_in [26; 2; 66; 3; 42; 1; 0].
Proof. exact pC10_isolated_ex. Qed.

(** The other direction: whatever the isolated readers accept is read the same way by the
    code, from any slice with the same bytes. *)
Theorem C10_isolated_accepted : forall (pbr : PBReader) (v e : list Z),
  (forall st r, iso_ReadPrimitiveBlock pbr (exact v) st = Ok r -> ReadPrimitiveBlock pbr (mkslice v e) st = Ok r) /\
  (forall st r, iso_ReadPrimitiveGroup pbr (exact v) st = Ok r -> ReadPrimitiveGroup pbr (mkslice v e) st = Ok r).
Proof. exact pC10_isolated_accepted. Qed.
Print Assumptions C10_isolated_accepted.
