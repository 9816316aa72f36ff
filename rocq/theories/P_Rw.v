(** * P_Rw: property theorems (generated from RwThms.v by tools/gen_props.py). *)
From Verif Require Import Base PbSpec TModel TSpec HLModel FrModel FrSpec ZlModel IoModel TfSpec NiModel NiSpec NiThms RwModel RwSpec RwThms.

(** C52.  Blocks of other types are passed on as they are. *)
Theorem C52_other_blocks : forall env sub fin b, blk_Type b <> bytes_of "OSMData" -> rw_worker env sub fin b = Ok b.
Proof. exact pC52_other_blocks. Qed.
Print Assumptions C52_other_blocks.

(** C52.  Blocks without ways are passed on as they are; from a block with ways the block
    sent, if one is sent, keeps its number and holds, read in any environment and whatever
    lies beyond it in memory, the same sections, byte for byte, and the same ways with every
    ref replaced by [new_ref]: its location if it is not negative and has one in the index,
    itself otherwise.  No lookup fails. *)
Theorem C52_rewrite : forall env b p rs locs top fin, blk_Type b = bytes_of "OSMData" -> go_slice (blk_Data b) -> env_ok env ->
  holds env (blk_Data b) p ->
  Forall (range_ok locs) rs -> ascending_ranges rs -> top_of rs top -> Forall is_s64 locs ->
  (~ has_way p -> rw_worker env (sub_index_of rs locs top) fin b = Ok b) /\
  (has_way p ->
    (exists m, rw_worker env (sub_index_of rs locs top) fin b = Ok m /\ blk_Index m = blk_Index b /\ blk_Type m = bytes_of "OSMData" /\
       forall env' e, holds env' (mkslice (vis (blk_Data m)) e) (block_with (new_ref rs locs) p)) \/
    (forall out, Blob_Write (mkBlob None None None (Some (PrimitiveBlock_Write (block_with (new_ref rs locs) p)))) [] <> Ok out)).
Proof. exact pC52_rewrite. Qed.
Print Assumptions C52_rewrite.

(** C53, the files for which it holds.  If the passes cover the index (see C48 for exactly when
    they do), all its locations are negative (as the indexer stores them) or absent, every block
    can be decoded, and [n] passes succeed, each writing less than 2^63 bytes, then a single
    pass succeeds too and gives the same file, byte for byte. *)
Theorem C53_passes_partial : forall envs file blobs rs locs n out,
  bytes file -> zlen file < 2^63 -> is_file file blobs -> Forall (fun b => known_type (fst b)) blobs ->
  (forall i data, nth_error blobs i = Some (bytes_of "OSMData", data) -> exists p, forall pass, holds_alone (envs pass (Z.of_nat i)) data p) ->
  (forall pass i, env_ok (envs pass i)) ->
  index_ok rs locs -> Forall (fun loc => is_s64 loc /\ loc <= 0) locs -> 1 <= n ->
  (exists subs, passes (index_of rs locs) n = Ok subs /\ concat (map si_element subs) = map elem_of rs) ->
  (forall k f, Z.of_nat k < n -> after_passes envs (index_of rs locs) n k file = Ok f -> zlen f < 2^63) ->
  after_passes envs (index_of rs locs) n (Z.to_nat n) file = Ok out ->
  after_passes envs (index_of rs locs) 1 1 file = Ok out.
Proof. exact pC53_passes_partial. Qed.
Print Assumptions C53_passes_partial.

(** The block of way 7, with ref 30, becomes one with the location stored for 30. *)
Example C52_ex : exists p m, holds_alone ex_env (ex_blob [mkWay 7 [] [] [30]]) p /\ has_way p /\
  rw_worker ex_env (sub_index_of ex_ten ex_rw_locs 90) false (mkBlk 4 (exact (ex_blob [mkWay 7 [] [] [30]])) (bytes_of "OSMData")) = Ok m /\
  vis (blk_Data m) = ex_blob [mkWay 7 [] [] [-104]].
Proof. exact pC52_ex. Qed.

(** Five passes: the conditions hold, the refs 90, 10, 55, 10, 0, 91 become -110, -102, 55,
    -102, -101, 91. *)
Example C53_ex : let envs := fun _ _ => ex_env in
  bytes ex_rw_file /\ is_file ex_rw_file ex_rw_blobs /\ Forall (fun b => known_type (fst b)) ex_rw_blobs /\
  (forall i data, nth_error ex_rw_blobs i = Some (bytes_of "OSMData", data) -> exists p, forall pass, holds_alone (envs pass (Z.of_nat i)) data p) /\
  index_ok ex_ten ex_rw_locs /\ Forall (fun loc => is_s64 loc /\ loc <= 0) ex_rw_locs /\
  (exists subs, passes (index_of ex_ten ex_rw_locs) 5 = Ok subs /\ concat (map si_element subs) = map elem_of ex_ten) /\
  (forall k f, Z.of_nat k < 5 -> after_passes envs (index_of ex_ten ex_rw_locs) 5 k ex_rw_file = Ok f -> zlen f < 2^63) /\
  after_passes envs (index_of ex_ten ex_rw_locs) 5 5 ex_rw_file =
    enc_file [(bytes_of "OSMHeader", [1; 2]); (bytes_of "OSMData", ex_blob [mkWay 5 [1] [2] [-110; -102; 55; -102; -101; 91]; mkWay 6 [] [] [-7]]);
              (bytes_of "OSMData", ex_blob [mkWay 7 [] [] [-104]])].
Proof. exact pC53_ex. Qed.

(** C53 is false of the code when the passes do not cover the index: with the same index in
    three passes the ref 90 is left as it is, and only there the result differs. *)
Theorem C53_lost_ref_refuted : let envs := fun _ _ => ex_env in
  exists out1 out3, after_passes envs (index_of ex_ten ex_rw_locs) 1 1 ex_rw_file = Ok out1 /\
    after_passes envs (index_of ex_ten ex_rw_locs) 3 3 ex_rw_file = Ok out3 /\ out1 <> out3 /\
    enc_file [(bytes_of "OSMHeader", [1; 2]); (bytes_of "OSMData", ex_blob [mkWay 5 [1] [2] [90; -102; 55; -102; -101; 91]; mkWay 6 [] [] [-7]]);
              (bytes_of "OSMData", ex_blob [mkWay 7 [] [] [-104]])] = Ok out3.
Proof. exact pC53_lost_ref_refuted. Qed.
Print Assumptions C53_lost_ref_refuted.

(** C54.  A run that ends, ends with the output file holding the result of all its passes over
    the input file, without the pass files of this run, and with every other file (the input
    among them) as it was. *)
Theorem C54_files : forall envs idx input output memory fs fs', input <> output ->
  (forall pass count, input <> makePassFilename output pass count) ->
  rw_main envs idx input output memory fs = Ok fs' ->
  exists passes file out, 1 <= passes /\ fs input = Some file /\
    after_passes envs idx passes (Z.to_nat passes) file = Ok out /\ fs' output = Some out /\
    (forall i, 1 <= i < passes -> fs' (makePassFilename output i passes) = None) /\
    (forall name, name <> output -> (forall i, 1 <= i < passes -> name <> makePassFilename output i passes) -> fs' name = fs name).
Proof. exact pC54_files. Qed.
Print Assumptions C54_files.

Example C54_ex : bytes_of "in.pbf" <> bytes_of "out" /\ (forall pass count, bytes_of "in.pbf" <> makePassFilename (bytes_of "out") pass count) /\
  makePassFilename (bytes_of "out") 1 2 = bytes_of "out.pass_001_002" /\
  (fs' <- rw_main (fun _ _ => ex_env) ex_big (bytes_of "in.pbf") (bytes_of "out") (Some 1) ex_fs ;;
     Ok (fs' (bytes_of "in.pbf"), fs' (bytes_of "out"), fs' (bytes_of "out.pass_001_002"))) =
  (out <- enc_file [(bytes_of "OSMHeader", [1; 2]); (bytes_of "OSMData", ex_blob [mkWay 5 [1] [2] [-9; -9; -9; -9; 0; -9]; mkWay 6 [] [] [-7]]);
              (bytes_of "OSMData", ex_blob [mkWay 7 [] [] [-9]])] ;; Ok (Some ex_rw_file, Some out, None)).
Proof. exact pC54_ex. Qed.

(** A memory limit of 0 megabytes: the run stops with a division by zero before it does anything. *)
Example C54_no_memory_ex : forall envs idx input output fs, rw_main envs idx input output (Some 0) fs = Panic DivideByZero.
Proof. exact pC54_no_memory_ex. Qed.
