(** * P_Ui: property theorems (generated from UiThms.v by tools/gen_props.py). *)
From Verif Require Import Base UiModel UiSpec UiThms.

(** C110.  The program ends: at every moment (until a panic), whatever the capacity of the channel of events, the program can only make a bounded number of moves of its own (until
    the next tick or key), and if it can make none, Stop has returned. *)
Theorem C110_stop : forall cap shows u, (1 <= cap)%nat -> moment cap shows u -> exists bound, forall mvs u', Forall own mvs -> ui_run cap mvs u = Some u' ->
  (List.length mvs <= bound)%nat /\ (u_dead u' = false -> (forall mv, own mv -> ui_step cap mv u' = None) -> stopped u').
Proof. exact pC110_stop. Qed.
Print Assumptions C110_stop.

(** C110.  When Stop has returned, the ticking goroutine has ended and so has the event loop: nothing is shown or cancelled after it. *)
Theorem C110_after : forall cap shows u mvs u', moment cap shows u -> u_dead u = false -> stopped u -> ui_run cap mvs u = Some u' ->
  stopped u' /\ u_ticker u' = TReturned /\ u_loop u' = false /\ u_dead u' = false /\ u_box u' = u_box u /\ u_cancelled u' = u_cancelled u /\ u_handled u' = u_handled u.
Proof. exact pC110_after. Qed.
Print Assumptions C110_after.

(** C110.  The work is cancelled when Ctrl-C has been taken from the events, and never otherwise; the program panics when Ctrl-A has been, and never otherwise (in particular
    not in Stop). *)
Theorem C110_keys : forall cap shows u, moment cap shows u -> (u_cancelled u = true <-> In (ctrl KeyCtrlC) (u_handled u)) /\ (u_dead u = true <-> In (ctrl KeyCtrlA) (u_handled u)).
Proof. exact pC110_keys. Qed.
Print Assumptions C110_keys.

(** C110.  What is shown is all the widgets of the last call whose function has been taken (none before the first), and every call made is taken at most once. *)
Theorem C110_shown : forall cap shows u, moment cap shows u -> u_dead u = false ->
  u_box u = last_shown (u_handled u) [] /\ exists made rest, shows = made ++ rest /\ rearranged (funcs (u_handled u ++ u_queue u ++ u_posting u)) made.
Proof. exact pC110_shown. Qed.
Print Assumptions C110_shown.

Theorem C110_order_partial : forall cap shows mvs u, ui_run cap mvs (NewUI (program shows)) = Some u -> Forall (fun mv => match mv with MPost i => i = 0%nat | _ => True end) mvs ->
  exists later, shows = funcs (u_handled u) ++ later /\ (funcs (u_handled u) = [] /\ u_box u = [] \/ exists earlier, funcs (u_handled u) = earlier ++ [u_box u]).
Proof. exact pC110_order_partial. Qed.
Print Assumptions C110_order_partial.

Theorem C110_order_refuted : exists mvs u, ui_run 10 mvs (NewUI (program [[1; 2]; [3; 4]])) = Some u /\ stopped u /\ u_dead u = false /\ u_box u = [1; 2].
Proof. exact pC110_order_refuted. Qed.
Print Assumptions C110_order_refuted.

Example C110_ex : exists u, ui_run 2 ex_ui_ctrl (NewUI (program [[5; 6]])) = Some u /\ moment 2 [[5; 6]] u /\ stopped u /\ u_cancelled u = true /\ u_dead u = false /\ u_box u = [5; 6] /\
  Forall (fun mv => match mv with MPost i => i = 0%nat | _ => True end) ex_ui_ctrl /\ ui_run 1 [MKey 2 KeyCtrlA; MLoop; MLoop] (NewUI (program [])) = None /\ ui_step 1 (MKey 2 (KeyOther 7)) (NewUI (program [])) <> None.
Proof. exact pC110_ex. Qed.
