(** Specification of failing input and output.  Uses no function of the model
    of the code. *)
From Verif Require Import File FileFail Spec SpecFile.

(** Nothing is refused. *)
Definition all_well : env := mkEnv true true true true true true None None None None.

(** The first bytes of a string, when there is a limit. *)
Definition at_most (k : option nat) (l : list byte) : list byte :=
  match k with None => l | Some k => firstn k l end.

(** A limit that a string stays within. *)
Definition enough (k : option nat) (l : list byte) : Prop :=
  match k with None => True | Some k => (length l <= k)%nat end.

(** The file as the calls see it: missing when it cannot be opened, and ending
    where it cannot be read any more. *)
Definition seen (e : env) (f : file) : file :=
  if e_open e then match f with Some l => Some (at_most (e_file_reads e) l) | None => None end else None.

(** What is left of the bytes to be written when they have gone through the
    temporary file into the file. *)
Definition passed (e : env) (l : list byte) : list byte :=
  at_most (e_file_holds e) (at_most (e_temp_reads e) (at_most (e_temp_holds e) l)).

(** What is taken over from the file when a tag is written: what follows the
    tag that is seen there; everything when the file could not be opened to look
    for one. *)
Definition carried (e : env) (content : list byte) : list byte :=
  if e_open e then audio (at_most (e_file_reads e) content) else at_most (e_file_reads e) content.

(** A tag that is seen announces an extended header (undefined, C06). *)
Definition sees_extended (e : env) (content : list byte) : bool :=
  e_open e && announces_extended (at_most (e_file_reads e) content).
