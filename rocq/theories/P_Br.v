(** * P_Br: property theorems (generated from BrThms.v by tools/gen_props.py). *)
From Verif Require Import Base TModel TrModel TrSpec TmModel PgModel BrThms.

Local Open Scope Z_scope.
(** C98.  The bar of a fraction at/max (any numbers below 2^53, a line narrower than 2^31): the number of highlighted characters is at most
    the width; it is the width only when everything is done; it is off the exact share of the width by less than two characters; and it
    does not shrink as at grows. *)
Theorem C98_bar : forall w at_ max, 0 < w < 2^31 -> 0 < max < 2^53 -> 0 <= at_ <= max ->
  let n := bar w (fraction at_ max) in
  0 <= n <= w /\ (n = w <-> at_ = max) /\ (n - 1) * max < w * at_ < (n + 2) * max.
Proof. exact pC98_bar. Qed.
Print Assumptions C98_bar.

Theorem C98_bar_grows : forall w at_ at_' max, 0 < w < 2^31 -> 0 < max < 2^53 -> 0 <= at_ <= at_' -> at_' <= max ->
  bar w (fraction at_ max) <= bar w (fraction at_' max).
Proof. exact pC98_bar_grows. Qed.
Print Assumptions C98_bar_grows.

(** C98.  Until everything is done, a line shows its text (padded to the width) with that many characters highlighted. *)
Theorem C98_line : forall s w at_ max, 0 < w < 2^31 -> 0 < max < 2^53 -> 0 <= at_ < max ->
  exists m, MarkupAsProgressF s w (fraction at_ max) = Ok m /\
    let n := Z.to_nat (bar w (fraction at_ max)) in
    show N_style m = map (fun c => (c, S_style)) (firstn n (padded s w)) ++ map (fun c => (c, N_style)) (skipn n (padded s w)).
Proof. exact pC98_line. Qed.
Print Assumptions C98_line.

(** C98.  The bar of several passes, while the given pass is at at/max of its file (max is 0 until the file is open): at most the width, and off the
    exact share by less than two characters. *)
Theorem C98_pass_bar : forall w pass count at_ max, 0 < w < 2^31 -> 0 <= pass < count -> count < 2^53 -> 0 <= max < 2^53 -> 0 <= at_ <= max ->
  let n := bar w (pass_fraction pass count at_ max) in
  0 <= n <= w /\
  (0 < max -> (n - 1) * (count * max) < w * (pass * max + at_) < (n + 2) * (count * max)) /\
  (max = 0 -> (n - 1) * count < w * pass < (n + 2) * count).
Proof. exact pC98_pass_bar. Qed.
Print Assumptions C98_pass_bar.

(** C98.  It does not shrink within a pass. *)
Theorem C98_pass_grows : forall w pass count at_ at_' max max', 0 < w < 2^31 -> 0 <= pass < count -> count < 2^53 -> 0 <= max < 2^53 ->
  0 <= at_ <= max -> at_ <= at_' <= max' -> max' = max \/ max = 0 -> 0 <= max' < 2^53 ->
  bar w (pass_fraction pass count at_ max) <= bar w (pass_fraction pass count at_' max').
Proof. exact pC98_pass_grows. Qed.
Print Assumptions C98_pass_grows.

(** C98, partial: from one pass to a later one it shrinks by at most one character (see below). *)
Theorem C98_later_pass_partial : forall w pass pass' count at_ at_' max max', 0 < w < 2^31 -> 0 <= pass < pass' -> pass' < count -> count < 2^53 ->
  0 <= at_ <= max -> max < 2^53 -> 0 <= at_' <= max' -> max' < 2^53 ->
  bar w (pass_fraction pass count at_ max) <= bar w (pass_fraction pass' count at_' max') + 1.
Proof. exact pC98_later_pass_partial. Qed.
Print Assumptions C98_later_pass_partial.

(** C98 is false of the code for several passes: with 100 passes and a line of 100 characters, 29 characters are highlighted at the end of pass 29 and 28
    at the start of pass 30. *)
Theorem C98_later_pass_refuted : bar 100 (pass_fraction 28 100 5000 5000) = 29 /\ bar 100 (pass_fraction 29 100 0 5000) = 28.
Proof. exact pC98_later_pass_refuted. Qed.
Print Assumptions C98_later_pass_refuted.

Example C98_ex : bar 80 (fraction 2500 10000) = 20 /\ bar 80 (fraction 0 0) = - 2^63 /\ bar 80 (pass_fraction 1 4 2500 10000) = 25 /\ bar 80 (pass_fraction 1 4 0 0) = 20.
Proof. exact pC98_ex. Qed.
