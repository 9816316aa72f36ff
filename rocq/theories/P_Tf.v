(** * P_Tf: property theorems (generated from TfThms.v by tools/gen_props.py). *)
From Verif Require Import Base PbModel PbSpec TModel HLModel HLSpec FrModel ZlModel TfModel TfSpec HLThms TfThms.

(** C30.  For every key: the filter deletes it iff it is one of the listed names or
    starts with one of the listed prefixes. *)
Theorem C30_rule : forall k, keepTag k = false <-> deleted k.
Proof. exact pC30_rule. Qed.
Print Assumptions C30_rule.

Example C30_ex :
  keepTag (bytes_of "highway") = true /\ keepTag (bytes_of "note") = false /\ keepTag (bytes_of "notes") = true /\
  keepTag (bytes_of "note:de") = false /\ keepTag (bytes_of "tiger:") = false /\ keepTag (bytes_of "tiger") = true /\ keepTag [] = true.
Proof. exact pC30_ex. Qed.

(** C31, other blocks: a block whose type is not OSMData is passed on as it is. *)
Theorem C31_other_blocks : forall env b, blk_Type b <> bytes_of "OSMData" -> tf_worker [(env, b)] = Ok [b].
Proof. exact pC31_other_blocks. Qed.
Print Assumptions C31_other_blocks.

(** C31, a data block.  Let the block decode to nodes [ns], ways [ws] and relations
    [rs].  Then there are [ns'], exactly the nodes with a kept tag, in order, with exactly
    their kept tags, such that: if nothing is left a filler block is sent; otherwise either
    the filtered block is too large to be encoded, or one data block is sent, whose bytes
    decode, in any environment, to all the ways and relations unchanged. *)
Theorem C31_filter : forall env b ns ws rs, blk_Type b = bytes_of "OSMData" ->
  go_slice (blk_Data b) -> env_ok env -> entities env b ns ws rs ->
  exists ns', interesting ns ns' /\
    (ns' = [] /\ ws = [] /\ rs = [] ->
       tf_worker [(env, b)] = Ok [mkBlk (blk_Index b) (exact []) (bytes_of "Filler")]) /\
    (~ (ns' = [] /\ ws = [] /\ rs = []) ->
       (exists p, MakePrimitiveBlock ns' ws rs = Ok p /\
          forall out, Blob_Write (mkBlob None None None (Some (PrimitiveBlock_Write p))) [] <> Ok out) \/
       exists out, tf_worker [(env, b)] = Ok [mkBlk (blk_Index b) (exact out) (bytes_of "OSMData")] /\
         forall env', exists p ws' rs',
            decodes_to env' (mkBlk (blk_Index b) (exact out) (bytes_of "OSMData")) p /\
            ToWays p = Ok ws' /\ ToRelations p = Ok rs' /\ Forall2 same_way ws ws' /\ Forall2 same_rel rs rs').
Proof. exact pC31_filter. Qed.
Print Assumptions C31_filter.

(** C31, the nodes of the block sent: they are the interesting nodes, coordinates moved to
    a multiple of 100, if and only if no interesting node has a tag whose key is the string
    the new block's table puts first (see C27_nodes_refuted for what happens otherwise). *)
Theorem C31_nodes_exact : forall env b ns ws rs out, blk_Type b = bytes_of "OSMData" ->
  go_slice (blk_Data b) -> env_ok env -> entities env b ns ws rs ->
  tf_worker [(env, b)] = Ok [mkBlk (blk_Index b) (exact out) (bytes_of "OSMData")] ->
  exists ns', interesting ns ns' /\
    forall env', exists p,
       decodes_to env' (mkBlk (blk_Index b) (exact out) (bytes_of "OSMData")) p /\
       ((exists ns'', ToNodes p = Ok ns'' /\ Forall2 quantised_node ns' ns'') <-> first_key_free ns' ws rs).
Proof. exact pC31_nodes_exact. Qed.
Print Assumptions C31_nodes_exact.

(** C31, in particular when no empty string is left among the strings of the filtered
    entities. *)
Theorem C31_nodes_partial : forall env b ns ws rs out, blk_Type b = bytes_of "OSMData" ->
  go_slice (blk_Data b) -> env_ok env -> entities env b ns ws rs ->
  tf_worker [(env, b)] = Ok [mkBlk (blk_Index b) (exact out) (bytes_of "OSMData")] ->
  exists ns', interesting ns ns' /\
    (~ In [] (all_strings ns' ws rs) -> forall env', exists p ns'',
       decodes_to env' (mkBlk (blk_Index b) (exact out) (bytes_of "OSMData")) p /\
       ToNodes p = Ok ns'' /\ Forall2 quantised_node ns' ns'').
Proof. exact pC31_nodes_partial. Qed.
Print Assumptions C31_nodes_partial.

(** C32.  For every sequence of blocks a worker is given: it finishes with messages [ms]
    iff [ms] has one message per block, in order, each being the message sent for a worker
    given only that block; message indexes are those of the blocks; and whenever the loop
    over the blocks ends there are no pending nodes, so the check after it never fails. *)
Theorem C32_one_message_each : forall bs ms,
  (tf_worker bs = Ok ms <-> Forall2 (fun b m => tf_worker [b] = Ok [m]) bs ms) /\
  (tf_worker bs = Ok ms -> map (fun b => blk_Index (snd b)) bs = map blk_Index ms) /\
  (forall pending, tf_loop [] bs [] = Ok (pending, ms) -> pending = []).
Proof. exact pC32_one_message_each. Qed.
Print Assumptions C32_one_message_each.

(** C33, entities: the nodes left by filtering filtered nodes are the filtered nodes. *)
Theorem C33_nodes : forall ns,
  filter_nodes (filter_nodes ns) = filter_nodes ns /\
  forall ns' ns'', interesting ns ns' -> interesting ns' ns'' -> Forall2 same_node ns' ns''.
Proof. exact pC33_nodes. Qed.
Print Assumptions C33_nodes.

Example C33_nodes_ex :
  filter_nodes [mkNode 1 [(bytes_of "note", [1]); (bytes_of "highway", [2])] 3 4; mkNode 5 [(bytes_of "tiger:x", [])] 6 7; mkNode 8 [] 9 10] =
  [mkNode 1 [(bytes_of "highway", [2])] 3 4].
Proof. exact pC33_nodes_ex. Qed.

(** C33, blocks: running the filter on the block it sent gives the same block, byte for
    byte, when no interesting node has a tag whose key is the string the new block's table
    puts first. *)
Theorem C33_blocks_partial : forall env env' b m, go_slice (blk_Data b) -> env_ok env ->
  tf_worker [(env, b)] = Ok [m] ->
  (forall ns ws rs ns', entities env b ns ws rs -> interesting ns ns' ->
     first_key_free ns' ws rs) ->
  tf_worker [(env', m)] = Ok [m].
Proof. exact pC33_blocks_partial. Qed.
Print Assumptions C33_blocks_partial.

(** The filtered block of an example: note and tiger:x tags gone, nodes 5 and 8 gone. *)
Example C31_ex :
  blk_Type ex_tf_block = bytes_of "OSMData" /\ go_slice (blk_Data ex_tf_block) /\ env_ok ex_env /\
  (exists ns ws rs, entities ex_env ex_tf_block ns ws rs) /\
  tf_worker [(ex_env, ex_tf_block)] =
    Ok [mk_block [mkNode 1 [(bytes_of "highway", [66])] 300 (-400); mkNode 9 [(bytes_of "name", [67])] 0 100] [ex_hway'] [ex_hrel']].
Proof. exact pC31_ex. Qed.

Example C32_ex : exists m1 m2, tf_worker [(ex_env, ex_tf_block); (ex_env, mkBlk 8 (exact [1]) (bytes_of "OSMHeader"))] = Ok [m1; m2] /\
  blk_Index m1 = 7 /\ blk_Index m2 = 8.
Proof. exact pC32_ex. Qed.

Example C33_ex : exists m, tf_worker [(ex_env, ex_tf_block)] = Ok [m] /\ tf_worker [(ex_env, m)] = Ok [m].
Proof. exact pC33_ex. Qed.

Theorem C33_blocks_refuted : exists b m m2, go_slice (blk_Data b) /\ env_ok ex_env /\
  entities ex_env b [mkNode 5 [([97], [98])] 0 0] [] [mkHRel 8 [([97], [97])] [[]] [5] [0]] /\
  tf_worker [(ex_env, b)] = Ok [m] /\ tf_worker [(ex_env, m)] = Ok [m2] /\
  entities ex_env m2 [] [] [mkHRel 8 [([97], [97])] [[]] [5] [0]].
Proof. exact pC33_blocks_refuted. Qed.
Print Assumptions C33_blocks_refuted.
