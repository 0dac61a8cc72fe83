(** Specification of saving and deleting tags again and again.  Of the model
    only the two calls on files are used. *)
From Verif Require Import File Calls Spec SpecEdit SpecFile.

(** A header that the next call finds again in the file, with its true size.
    (Every header that was read is one, unless it announces an extended header
    or edits have made the tag that long.) *)
Definition honest (h : TagHeader) : Prop :=
  th_identifier h = lit "ID3" /\ known_version (th_major h) = true
  /\ has_extended_header (th_flags h) = false /\ 0 <= th_tag_size h < 2 ^ 29.

(** Saving tags to a file and deleting them, in any order. *)
Inductive file_op := Save (t : Tag) | Delete.

Fixpoint run_file_ops (ops : list file_op) (f : file) : outcome file :=
  match ops with
  | [] => Ok f
  | Save t :: ops => let* (f, _) := ID3v2_write_tag f (Some t) in run_file_ops ops f
  | Delete :: ops => let* f := ID3v2_delete_tag f in run_file_ops ops f
  end.

(** A tag that can be saved in a file and is found again there. *)
Definition can_be_saved (t : Tag) : Prop :=
  honest (t_header t) /\ exists r, ID3v2_write_tag (Some []) (Some t) = Ok r.

Definition op_fine (o : file_op) : Prop :=
  match o with Save t => can_be_saved t | Delete => True end.

(** Contents that do not look like a tag. *)
Definition no_tag (content : list byte) : Prop := tag_length content = None.
