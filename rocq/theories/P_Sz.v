(** * P_Sz: property theorems (generated from SzThms.v by tools/gen_props.py). *)
From Verif Require Import Base BaseLemmas PbModel PbSpec PbProofs PbProofs2 TModel TSpec SzSpec TProofs TMsg TMsg2 T2Thms SzThms.

(** C16, exactly: a group can be written if and only if every way of it needs fewer than
    16384 bytes, every relation fewer than 2097152 (and its keys and its values fewer
    than 16384 each), the dense section fewer than 268435456 (and its ids, latitudes and
    longitudes fewer than 2097152 each); otherwise the writer panics. *)
Theorem C16_exact : forall g buf, group_typed g ->
  ((exists out, PrimitiveGroup_Write g buf = Ok out) <-> group_writable g) /\
  (~ group_writable g <-> exists p, PrimitiveGroup_Write g buf = Panic p).
Proof. exact pC16_exact. Qed.
Print Assumptions C16_exact.

Theorem C16_any_refs : forall ws buf,
  (forall w, In w ws -> way_typed w /\ 5 * zlen (way_Keys w) + 5 * zlen (way_Vals w) + 10 * zlen (way_Refs w) <= 16363) ->
  exists out, PrimitiveGroup_Write (mkGroup None None (Some ws) [] None []) buf = Ok out.
Proof. exact pC16_any_refs. Qed.
Print Assumptions C16_any_refs.

Example C16_any_refs_ex :
  way_typed (mkWay (-1) [] [] (alternating 818)) /\ way_writable (mkWay (-1) [] [] (alternating 818)) /\ zlen (alternating 818) = 1636 /\
  way_size (mkWay (-1) [] [] (alternating 818)) = 16379 /\ ~ way_writable (mkWay (-1) [] [] (alternating 818 ++ [-2^62])).
Proof. exact pC16_any_refs_ex. Qed.

(** C111: exactly which blocks can be written, and how many bytes are written. *)
Theorem C111_exact : forall b buf, block_typed b -> strings_sane b ->
  (block_writable b -> exists out, PrimitiveBlock_Write b buf = Ok (buf ++ out) /\ zlen out = block_size b) /\
  (~ block_writable b -> exists p, PrimitiveBlock_Write b buf = Panic p).
Proof. exact pC111_exact. Qed.
Print Assumptions C111_exact.

Example C111_ex : block_typed sz_ex /\ strings_sane sz_ex /\ block_writable sz_ex /\ block_size sz_ex = 49 /\
  (match PrimitiveBlock_Write sz_ex [] with Ok out => zlen out = 49 | _ => False end).
Proof. exact pC111_ex. Qed.
