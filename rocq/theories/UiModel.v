(** * UiModel: the user interface of the tools (internal/ui/ui.go): the goroutine that calls it (main), the goroutine that posts an update at every tick, and the event loop of
    tcell's views.Application (v1.4.0), which is not part of the code and is modelled here from its documentation: a channel of events of some capacity, from which
    the loop takes them in order; PostEventWait waits for room; PostFunc, Quit and Refresh post from a goroutine of their own; the loop ends at Quit. *)
From Verif Require Import Base.

(** ui.go:80-97: the keys that matter; tcell.ModCtrl is 2 *)
Inductive key : Type := KeyCtrlA | KeyCtrlC | KeyCtrlD | KeyCtrlL | KeyOther (k : Z).
Definition ModCtrl : Z := 2.
(** internal/ui/event_update.go; a function posted by ReplaceWidgets (ui.go:104), with the widgets it is for; a key and its modifiers; what Quit and Refresh post *)
Inductive event : Type := EvUpdate | EvFunc (widgets : list Z) | EvKey (modifiers : Z) (k : key) | EvQuit | EvRefresh.
(** ui.go:54-66: before the select, at line 59, after the return *)
Inductive ticking : Type := TSelect | TPosting | TReturned.
(** What main does: ReplaceWidgets (ui.go:103-116) and the four parts of Stop (119, 120, 121, 122) *)
Inductive instr : Type := IReplace (widgets : list Z) | IClose | IWaitTicker | IQuit | IWaitApp.

Record uistate : Type := mkUi {
  u_queue : list event;      (* the channel of the screen *)
  u_posting : list event;    (* goroutines waiting to post one *)
  u_ticker : ticking;
  u_shutdown : bool;         (* the channel is closed *)
  u_main : list instr;       (* what main has still to do *)
  u_loop : bool;             (* the event loop is running *)
  u_box : list Z;            (* the widgets shown *)
  u_cancelled : bool;        (* cancel has been called *)
  u_dead : bool;             (* a panic has ended the program *)
  u_handled : list event     (* the events the loop has taken, for the statements *)
}.
Inductive call : Type := ReplaceWidgets (widgets : list Z) | Stop.
Definition instrs (c : call) : list instr := match c with ReplaceWidgets ws => [IReplace ws] | Stop => [IClose; IWaitTicker; IQuit; IWaitApp] end.
(** ui.go:27-69 [NewUI], with an interval that is not 0: the loop is running (51), the ticking goroutine is started *)
Definition NewUI (calls : list call) : uistate := mkUi [] [] TSelect false (flat_map instrs calls) true [] false false [].

(** ui.go:105-114: the widgets are removed one after the other, and the new ones added *)
Definition RemoveWidget (box : list Z) (w : Z) : list Z := filter (fun x => negb (x =? w)) box.
Definition replace_in (box widgets : list Z) : list Z := fold_left (fun b w => b ++ [w]) widgets (fold_left RemoveWidget box box).

(** ui.go:79-101 [HandleEvent] and the other events the loop takes *)
Definition handle (e : event) (u : uistate) : uistate :=
  let 'mkUi q ps tk sd mn lp box cn dead hd := u in
  let hd := hd ++ [e] in
  match e with
  | EvUpdate => mkUi q ps tk sd mn lp box cn dead hd
  | EvFunc ws => mkUi q ps tk sd mn lp (replace_in box ws) cn dead hd
  | EvKey mods k =>
      if negb (mods =? ModCtrl) then mkUi q ps tk sd mn lp box cn dead hd
      else
        match k with
        | KeyCtrlA => mkUi q ps tk sd mn lp box cn true hd
        | KeyCtrlC => mkUi q ps tk sd mn lp box true dead hd
        | KeyCtrlD => mkUi q ps tk sd mn lp box cn dead hd
        | KeyCtrlL => mkUi q (ps ++ [EvRefresh]) tk sd mn lp box cn dead hd
        | KeyOther _ => mkUi q ps tk sd mn lp box cn dead hd
        end
  | EvQuit => mkUi q ps tk sd mn false box cn dead hd
  | EvRefresh => mkUi q ps tk sd mn lp box cn dead hd
  end.

(** One step of: the clock; the keyboard; the ticking goroutine at line 59 and at line 60; main; the i-th posting goroutine; the loop. *)
Inductive move : Type := MTick | MKey (modifiers : Z) (k : key) | MPostUpdate | MTickerReturns | MMain | MPost (i : nat) | MLoop.
Definition room (cap : nat) (q : list event) : bool := (List.length q <? cap)%nat.
Definition ui_step (cap : nat) (mv : move) (u : uistate) : option uistate :=
  let 'mkUi q ps tk sd mn lp box cn dead hd := u in
  if dead then None
  else
    match mv with
    | MTick => match tk with TSelect => Some (mkUi q ps TPosting sd mn lp box cn dead hd) | _ => None end
    | MKey mods k => if room cap q then Some (mkUi (q ++ [EvKey mods k]) ps tk sd mn lp box cn dead hd) else None
    | MPostUpdate => match tk with TPosting => if room cap q then Some (mkUi (q ++ [EvUpdate]) ps TSelect sd mn lp box cn dead hd) else None | _ => None end
    | MTickerReturns => match tk with TSelect => if sd then Some (mkUi q ps TReturned sd mn lp box cn dead hd) else None | _ => None end
    | MMain =>
        match mn with
        | [] => None
        | IReplace ws :: mn => Some (mkUi q (ps ++ [EvFunc ws]) tk sd mn lp box cn dead hd)
        | IClose :: mn => if sd then Some (mkUi q ps tk sd mn lp box cn true hd) else Some (mkUi q ps tk true mn lp box cn dead hd)
        | IWaitTicker :: mn => match tk with TReturned => Some (mkUi q ps tk sd mn lp box cn dead hd) | _ => None end
        | IQuit :: mn => Some (mkUi q (ps ++ [EvQuit]) tk sd mn lp box cn dead hd)
        | IWaitApp :: mn => if lp then None else Some (mkUi q ps tk sd mn lp box cn dead hd)
        end
    | MPost i =>
        match nth_error ps i with
        | Some e => if room cap q then Some (mkUi (q ++ [e]) (firstn i ps ++ skipn (S i) ps) tk sd mn lp box cn dead hd) else None
        | None => None
        end
    | MLoop =>
        match lp, q with
        | true, e :: q => Some (handle e (mkUi q ps tk sd mn lp box cn dead hd))
        | _, _ => None
        end
    end.
Fixpoint ui_run (cap : nat) (mvs : list move) (u : uistate) : option uistate :=
  match mvs with
  | [] => Some u
  | mv :: r => match ui_step cap mv u with Some u => ui_run cap r u | None => None end
  end.
