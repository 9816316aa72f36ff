(** * PtSpec: percentages, and what the lines about a run over a file are meant to say. *)
From Flocq Require Import BinarySingleNaN.
From Verif Require Import Base PbSpec TModel FrModel FrSpec TrModel TrSpec TmModel PgModel PgSpec SlModel SlSpec SwModel PtModel.

(** a number of tenths, as text *)
Definition tenths_text (t : Z) : list Z := shown_number (t / 10) ++ bytes_of "." ++ [48 + t mod 10].
(** [t] tenths are 100 * a / m, rounded: off by at most half a tenth, and one part in 2^40 more. *)
Definition tenths_of (a m t : Z) : Prop := 0 <= t <= 1000 /\ 2^40 * Z.abs (2 * (t * m) - 2 * (1000 * a)) <= (2^40 + 1) * m.
(** what comes before the last percent sign *)
Definition about_file (action filename what : list Z) : list Z :=
  bytes_of "[" ++ action ++ bytes_of "] Processing PBF " ++ filename ++ bytes_of ": " ++ what.
Definition progress_text (what : string) (a m t : Z) : list Z :=
  bytes_of what ++ bytes_of " " ++ shown_number a ++ bytes_of "/" ++ shown_number m ++ bytes_of " " ++ tenths_text t.
(** the characters of [s], [n] of them highlighted *)
Definition highlighted (n : Z) (s : list Z) : list (Z * Z) :=
  map (fun c => (c, S_style)) (firstn (Z.to_nat n) s) ++ map (fun c => (c, N_style)) (skipn (Z.to_nat n) s).
Definition in_plain (s : list Z) : list (Z * Z) := map (fun c => (c, N_style)) s.
