(** * FrSpec: the OSM PBF file format: a sequence of frames, each a four-byte big-endian
    header size, the blob header, and the blob. *)
From Verif Require Import Base PbSpec TModel FrModel.

(** [b] is the four-byte big-endian form of [n]. *)
Definition big_endian4 (b : list Z) (n : Z) : Prop :=
  exists b0 b1 b2 b3, b = [b0; b1; b2; b3] /\ bytes b /\ n = ((b0 * 256 + b1) * 256 + b2) * 256 + b3.

(** [fb] is a frame of a blob of type [ty] with content [data]: the header, wherever it
    lies in memory, decodes to that type and size. *)
Definition is_frame (fb ty data : list Z) : Prop :=
  exists sz hdr, fb = sz ++ hdr ++ data /\ big_endian4 sz (zlen hdr) /\
    forall e, bytes e -> ReadBlobHeader (mkslice hdr e) = Ok (mkBlobHeader ty (zlen data)).

Definition known_type (ty : list Z) : Prop := ty = bytes_of "OSMHeader" \/ ty = bytes_of "OSMData".

(** The file is these frames, one after the other. *)
Fixpoint is_file (file : list Z) (blobs : list (list Z * list Z)) : Prop :=
  match blobs with
  | [] => file = []
  | (ty, data) :: r => exists fb rest, file = fb ++ rest /\ is_frame fb ty data /\ is_file rest r
  end.

(** what a consumer sees of a block *)
Definition seen (b : Block) : Z * (list Z * list Z) := (blk_Index b, (blk_Type b, vis (blk_Data b))).
(** blobs with the indexes 0, 1, 2, ... *)
Definition numbered {A} (l : list A) : list (Z * A) := combine (map Z.of_nat (seq 0 (List.length l))) l.

(** Every byte of the file belongs to exactly one frame of the list, in order; a frame
    is a size, that many header bytes, and the blob.  The header reader sees the rest of
    the file beyond the header, as the program does. *)
Fixpoint covers (file : list Z) (blobs : list (list Z * list Z)) : Prop :=
  match blobs with
  | [] => file = []
  | (ty, data) :: r => exists sz hdr rest, file = sz ++ hdr ++ data ++ rest /\
      big_endian4 sz (zlen hdr) /\
      ReadBlobHeader (mkslice hdr (data ++ rest)) = Ok (mkBlobHeader ty (zlen data)) /\
      known_type ty /\ covers rest r
  end.
