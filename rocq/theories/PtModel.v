(** * PtModel: the lines of the user interface about a run over a file: what is done with the file, and the pass. *)
From Flocq Require Import BinarySingleNaN.
From Verif Require Import Base PbModel TModel HLModel FrModel ZlModel IoModel NiModel WiModel RiModel RwModel TfModel TrModel TmModel PgModel SlModel SwModel.

(** internal/ui/widget/widget_process_state.go:27: what all lines begin with *)
Definition process_prefix (action filename : list Z) : list Z :=
  bytes_of "[" ++ action ++ bytes_of "] Processing PBF " ++ filename ++ bytes_of ": ".
(** internal/ui/widget/widget_process_state.go:26-50 [ProcessFileStateWidget.update]: the line when the three loads (lines 28, 37, 38) give [state], [at_]
    and [max]; the last two are made in two of the states only.  Without a view (line 45) a bar is shown as text, see [on_screen]. *)
Definition process_line (action filename : list Z) (state at_ max : Z) : line :=
  let prefix := process_prefix action filename in
  if state =? Initializing then Text (prefix ++ bytes_of "initializing")
  else if (state =? LoadingBlock) || (state =? SendingBlock) then
    let doing := if state =? SendingBlock then "sending block"%string else "loading block"%string in
    let pct := fraction at_ max in
    Bar (prefix ++ bytes_of doing ++ bytes_of " " ++ d_ at_ ++ bytes_of "/" ++ d_ max ++ bytes_of " " ++ percent_text (percent pct) ++ bytes_of "%") pct
  else if state =? ShuttingDown then Text (prefix ++ bytes_of "shutting down")
  else Unchanged.
(** internal/ui/widget/widget_pass_progress.go:31-51 [PassProgress.update] *)
Definition pass_line (pass count at_ max : Z) : line :=
  Bar (bytes_of "Pass " ++ d_ (u64 (pass + 1)) ++ bytes_of "/" ++ d_ count) (pass_fraction pass count at_ max).

(** What a line looks like in a view of width [w] (None: there is none yet): SetText, or SetMarkup with MarkupAsProgress (internal/ui/format.go:7-29).  The
    characters with their styles; None: as before. *)
Definition on_screen (shown : Z -> list Z -> list (Z * Z)) (normal : Z) (view : option Z) (l : line) : res (option (list (Z * Z))) :=
  let plain s := map (fun c => (c, normal)) s in
  match l, view with
  | Unchanged, _ => Ok None
  | Text s, _ => Ok (Some (plain s))
  | Bar s _, None => Ok (Some (plain s))
  | Bar s pct, Some w => m <- MarkupAsProgressF s w pct ;; Ok (Some (shown normal m))
  end.
