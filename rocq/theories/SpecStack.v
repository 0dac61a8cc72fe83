(** Files in which several tags stand one after the other: C93. *)
From Verif Require Import File Spec SpecFile.

(** Exactly one tag, by the size it records; nothing is said of its contents. *)
Definition whole (l : list byte) : Prop :=
  announces_extended l = false /\ tag_length l = Some (zlen l).

(** Deleting the tag of a file several times. *)
Fixpoint delete_times (n : nat) (f : file) : outcome file :=
  match n with
  | O => Ok f
  | S n => let* f := ID3v2_delete_tag f in delete_times n f
  end.

(** The file with something after what it holds. *)
Definition followed (f : file) (rest : list byte) : file := option_map (fun l => l ++ rest) f.
