(** Specification of files that are replaced while a call works on them.  Uses
    no function of the model of the code. *)
From Verif Require Import File Spec SpecFile.

(** The bytes that are taken for the tag of a file. *)
Definition skipped (content : list byte) : Z :=
  match tag_length content with Some n => n | None => 0 end.
