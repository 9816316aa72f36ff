(** * UiSpec: what is expected of the user interface. *)
From Verif Require Import Base UiModel.
From Coq Require Import Permutation.

(** The tools call ReplaceWidgets some times and then Stop once. *)
Definition program (shows : list (list Z)) : list call := map ReplaceWidgets shows ++ [Stop].
(** a moment of a run of such a program *)
Definition moment (cap : nat) (shows : list (list Z)) (u : uistate) : Prop := exists mvs, ui_run cap mvs (NewUI (program shows)) = Some u.
(** Stop has returned; it has been entered *)
Definition stopped (u : uistate) : Prop := u_main u = [].
(** the moves of the program itself, not of the clock and the keyboard *)
Definition own (mv : move) : Prop := match mv with MTick | MKey _ _ => False | _ => True end.
(** a key with the control key and no other *)
Definition ctrl (k : key) : event := EvKey 2 k.
(** the widgets of the last function taken *)
Fixpoint last_shown (es : list event) (before : list Z) : list Z :=
  match es with
  | [] => before
  | EvFunc ws :: es => last_shown es ws
  | _ :: es => last_shown es before
  end.
(** the functions among the events, by their widgets *)
Definition funcs (es : list event) : list (list Z) := flat_map (fun e => match e with EvFunc ws => [ws] | _ => [] end) es.
(** the same, in some order *)
Definition rearranged (a b : list (list Z)) : Prop := Permutation a b.
