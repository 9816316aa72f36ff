(** * P_Pg: property theorems (generated from PgThms.v by tools/gen_props.py). *)
From Verif Require Import Base PbSpec TModel FrModel FrSpec TrModel TmModel PgModel PgSpec PgThms.

(** C97.  Whatever the file's bytes are, at every moment at which the position in the file is shown ("loading block 123/456"), the size shown
    is that of the file and the position is not beyond it; and it is never less than one shown before. *)
Theorem C97_numbers : forall file choices i j k state at_ max, bytes file -> zlen file < 2^63 ->
  glance (file_run file choices) i j k state at_ max -> state = LoadingBlock \/ state = SendingBlock ->
  max = zlen file /\ 0 <= at_ <= max.
Proof. exact pC97_numbers. Qed.
Print Assumptions C97_numbers.

Theorem C97_never_back : forall file choices i j k state at_ max i' j' k' state' at_' max', bytes file -> zlen file < 2^63 ->
  glance (file_run file choices) i j k state at_ max -> glance (file_run file choices) i' j' k' state' at_' max' -> (k <= i')%nat -> at_ <= at_'.
Proof. exact pC97_never_back. Qed.
Print Assumptions C97_never_back.

(** C97.  For a file of frames: the position shown is always in the frame after those of the blocks sent so far (at its start or end included). *)
Theorem C97_position : forall file fbs choices i pc p sent, bytes file -> zlen file < 2^63 -> frames file fbs ->
  nth_error (file_run file choices) i = Some (pc, p, sent) ->
  0 <= sent <= zlen fbs /\
  zlen (concat (firstn (Z.to_nat sent) fbs)) <= p_at p <= zlen (concat (firstn (Z.to_nat (sent + 1)) fbs)).
Proof. exact pC97_position. Qed.
Print Assumptions C97_position.

(** C97.  If it is not cancelled, the run over a file of frames ends, with all blocks sent and the position at the end of the file. *)
Theorem C97_end : forall file fbs steps, bytes file -> zlen file < 2^63 -> frames file fbs -> (5 * List.length fbs + 4 <= steps)%nat ->
  last (file_run file (repeat false steps)) (PStart, mkPfs 0 0 0, 0) = (PEnd, mkPfs ShuttingDown (zlen file) (zlen file), zlen fbs).
Proof. exact pC97_end. Qed.
Print Assumptions C97_end.

Example C97_ex : bytes ex_pg_file /\ frames ex_pg_file [ex_pg_file] /\ zlen ex_pg_file = 19 /\
  glance (file_run ex_pg_file [false; false; false; false; false]) 3 5 5 LoadingBlock 17 19 /\
  last (file_run ex_pg_file (repeat false 9)) (PStart, mkPfs 0 0 0, 0) = (PEnd, mkPfs ShuttingDown 19 19, 1) /\
  last (file_run ex_pg_file (repeat true 9)) (PStart, mkPfs 0 0 0, 0) = (PEnd, mkPfs ShuttingDown 17 19, 0).
Proof. exact pC97_ex. Qed.
