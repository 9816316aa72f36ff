(** * P_St: property theorems (generated from StThms.v by tools/gen_props.py). *)
From Verif Require Import Base PbSpec TModel NiModel NiSpec RwModel WiModel WiSpec TmModel TmSpec NiThms StThms.

(** C94, nodes.  Each lookup returns what it returns without being counted (C45), and is counted once: as deferred if the id is beyond the last of the
    pass, as a hit of the hint if the range the hint tells holds the id, as another hit if another range does, else as a miss. *)
Theorem C94_node_counter : forall rs locs top id hint, Forall (range_ok locs) rs -> ascending_ranges rs -> top_of rs top -> 0 <= hint ->
  exists x, FindNode (sub_index_of rs locs top) id hint = Ok x /\
  findNodeActual (sub_index_of rs locs top) id hint =
    Ok (x, if top <? id then MissDeferred
           else match linear_search rs locs id 0 with
                | Some (_, i) => if i =? hint then HitHint else HitDefault
                | None => MissDefault
                end).
Proof. exact pC94_node_counter. Qed.
Print Assumptions C94_node_counter.

(** C94, ways.  The same for lookups in the way index. *)
Theorem C94_way_counter : forall es loc shift L top id hint, way_index_ok es loc shift -> (forall e, In e es -> stored loc (position shift e) (L e)) ->
  (forall e, In e es -> e_id e <= top) -> 0 <= hint ->
  exists x, FindLocations (mkSWI (map word_of es) loc shift top) id hint = Ok x /\
  findLocationsActual (mkSWI (map word_of es) loc shift top) id hint =
    Ok (x, if top <? id then MissDeferred
           else match find_entry es id 0 with
                | Some (_, i) => if i =? hint then HitHint else HitDefault
                | None => MissDefault
                end).
Proof. exact pC94_way_counter. Qed.
Print Assumptions C94_way_counter.

(** C94.  The counters when all workers are done: whatever the order of their lookups, each counter is the number of lookups counted there, and all four
    together are the number of lookups (modulo 2^64). *)
Theorem C94_sums : forall ls cs, interleaved ls cs ->
  (forall c, counted cs c = u64 (number (fun d => counter_eqb d c) (concat ls))) /\
  u64 (counted cs HitHint + counted cs HitDefault + counted cs MissDeferred + counted cs MissDefault) = u64 (zlen (concat ls)).
Proof. exact pC94_sums. Qed.
Print Assumptions C94_sums.

(** C94.  The lookups counted for the ways of a block are made with the hints and end as those of the rewriter do. *)
Theorem C94_rewriter_lookups : forall ix fin ways hint,
  (x <- rw_ways ix fin ways hint ;; Ok (snd x)) = (y <- ways_counters ix ways hint ;; Ok (snd y)).
Proof. exact pC94_rewriter_lookups. Qed.
Print Assumptions C94_rewriter_lookups.

(** C94.  The statistics of a pass over any blocks, rewritten by any workers in any order: the two counters of hits together
    are the number of refs in the ways, not yet locations, that a range of the pass has; the refs beyond the last id of
    the pass are those counted as deferred, all others as missed. *)
Theorem C94_pass : forall rs locs top wss, Forall (range_ok locs) rs -> ascending_ranges rs -> top_of rs top ->
  Forall (Forall (fun w => Forall is_s64 (way_Refs w))) wss -> zlen (looked_up (concat wss)) < 2^64 ->
  exists css, Forall2 (fun ws cs => exists h, ways_counters (sub_index_of rs locs top) ws 0 = Ok (cs, h)) wss css /\
  forall cs, interleaved css cs ->
    counted cs HitHint + counted cs HitDefault = number (covered rs) (looked_up (concat wss)) /\
    counted cs MissDeferred = number (fun id => top <? id) (looked_up (concat wss)) /\
    counted cs MissDefault = number (fun id => negb (covered rs id) && negb (top <? id)) (looked_up (concat wss)).
Proof. exact pC94_pass. Qed.
Print Assumptions C94_pass.

Example C94_ex : Forall (range_ok ex_locations) ex_ranges /\ ascending_ranges ex_ranges /\ top_of ex_ranges 22 /\
  Forall (Forall (fun w => Forall is_s64 (way_Refs w))) ex_st_ways /\ zlen (looked_up (concat ex_st_ways)) < 2^64 /\
  Forall2 (fun ws cs => exists h, ways_counters (sub_index_of ex_ranges ex_locations 22) ws 0 = Ok (cs, h)) ex_st_ways [[HitDefault; HitHint; MissDefault]; [MissDeferred; HitDefault]] /\
  interleaved [[HitDefault; HitHint; MissDefault]; [MissDeferred; HitDefault]] [HitDefault; MissDeferred; HitHint; HitDefault; MissDefault] /\
  counted [HitDefault; MissDeferred; HitHint; HitDefault; MissDefault] HitDefault = 2 /\
  number (covered ex_ranges) (looked_up (concat ex_st_ways)) = 3.
Proof. exact pC94_ex. Qed.
