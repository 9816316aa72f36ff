(** * TnSpec: what is assumed of the write of an index file's header (16 bytes, over what is there). *)
From Verif Require Import Base IoModel.

(** A write of 16 bytes is not cut within its second word. *)
Definition word_whole (o : os) : Prop := forall k, fst (os_write o k 16) <= 8 \/ 16 <= fst (os_write o k 16).
(** A write of 16 bytes is not cut. *)
Definition header_whole (o : os) : Prop := forall k, fst (os_write o k 16) <= 0 \/ 16 <= fst (os_write o k 16).
