(** * P_Lp: property theorems (generated from LpThms.v by tools/gen_props.py). *)
From Verif Require Import Base BaseLemmas PbModel PbSpec PbProofs PbProofs2 TModel TSpec LpSpec TProofs T2Proofs T2Thms LpThms.

(** C11, exactly: a reader of a message fails to return if and only if, following the items
    from the start of the message, it comes to an item at which it comes back to the same
    place (so that it goes round for ever), or to a nested message whose reader fails to
    return. *)
Theorem C11_exact : forall St (h : handler St) b st, bytes (vis b) -> slen b < 2^63 ->
  (read_msg h b st = Diverge <-> exists n, leads h b 0 n /\ (returns h b n \/ hangs h b n)).
Proof. exact pC11_exact. Qed.
Print Assumptions C11_exact.

(** C11, exactly, for ways, relations and dense sections: they fail to return only by coming
    back to an item already read. *)
Theorem C11_exact_leaves : forall b, go_slice b ->
  (forall w, ReadWay b w = Diverge <-> exists n, leads way_handler b 0 n /\ returns way_handler b n) /\
  (forall r, ReadRelation b r = Diverge <-> exists n, leads relation_handler b 0 n /\ returns relation_handler b n) /\
  (forall d, ReadDenseNodes b d = Diverge <-> exists n, leads dense_handler b 0 n /\ returns dense_handler b n).
Proof. exact pC11_exact_leaves. Qed.
Print Assumptions C11_exact_leaves.

Example C11_exact_ex :
  go_slice (exact (34 :: minus_eleven)) /\ returns way_handler (exact (34 :: minus_eleven)) 0 /\
  go_slice (exact [8; 5; 34; 1; 7]) /\ goes way_handler (exact [8; 5; 34; 1; 7]) 0 2 /\ goes way_handler (exact [8; 5; 34; 1; 7]) 2 5.
Proof. exact pC11_exact_ex. Qed.
