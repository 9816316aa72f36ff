(** * TrSpec: what the tracker lists, and how markup is shown. *)
From Verif Require Import Base TrModel.

(** The workers that were tracked, in order. *)
Fixpoint tracked (h : list call) : list Z :=
  match h with
  | [] => []
  | Track w :: h => w :: tracked h
  | Untrack _ :: h => tracked h
  end.
(** [w] is live after the history [h]: there was a Track of it, and after this no Untrack of it. *)
Definition live (h : list call) (w : Z) : Prop :=
  exists h1 h2, h = h1 ++ Track w :: h2 /\ ~ In (Untrack w) h2.
(** [l] are the elements of [all], in their order, for which [P] holds. *)
Inductive those (P : Z -> Prop) : list Z -> list Z -> Prop :=
| those_nil : those P [] []
| those_yes : forall a all l, P a -> those P all l -> those P (a :: all) (a :: l)
| those_no : forall a all l, ~ P a -> those P all l -> those P (a :: all) l.
(** How many calls have finished: the list was changed and the version incremented. *)
Definition calls_done (s : tsys) : Z := zlen (t_log s) - zlen (filter snd (t_threads s)).
(** What the display shows: the workers its widgets are for. *)
Definition shown (d : display) : list Z := map wg_state (d_box d).
(** No goroutine has calls to make or is in one. *)
Definition quiet (s : tsys) : Prop := Forall (fun th => th = ([], false)) (t_threads s).

(** How tcell's SimpleStyledText shows markup: "%%" is a percent sign, "%" and any other
    character sets the style named by this character, everything else is shown.  The result is the
    characters with their styles. *)
Fixpoint show (style : Z) (m : list Z) : list (Z * Z) :=
  match m with
  | [] => []
  | c :: m =>
      if c =? 37 then
        match m with
        | [] => []
        | e :: m => if e =? 37 then (37, style) :: show style m else show e m
        end
      else (c, style) :: show style m
  end.
Definition N_style : Z := 78.
Definition S_style : Z := 83.
(** The text padded with spaces to the width. *)
Definition padded (s : list Z) (w : Z) : list Z := s ++ repeat 32 (Z.to_nat (w - zlen s)).
