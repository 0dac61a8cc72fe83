(** Tags that are read from one file and written to another: C95. *)
From Verif Require Import File Spec SpecFile.

(** Read the tag of [a], write it to [b]. *)
Definition copy_tag (a b : file) : outcome file :=
  let* t := ID3v2_read_tag a in
  let* (b, _) := ID3v2_write_tag b t in
  Ok b.

(** From [a] to the first file, from there to the second, and so on: what the
    files are then. *)
Fixpoint copy_along (a : file) (fs : list file) : outcome (list file) :=
  match fs with
  | [] => Ok []
  | b :: fs =>
      let* b := copy_tag a b in
      let* fs := copy_along b fs in
      Ok (b :: fs)
  end.

(** Read both tags, write each to the other file. *)
Definition swap_tags (a b : file) : outcome (file * file) :=
  let* t := ID3v2_read_tag a in
  let* u := ID3v2_read_tag b in
  let* (a, _) := ID3v2_write_tag a u in
  let* (b, _) := ID3v2_write_tag b t in
  Ok (a, b).

(** A tag as the library writes it, of which all frames are read back. *)
Definition saved (l : list byte) : Prop :=
  exists maj mi fl n fs, known_version maj = true /\ has_extended_header fl = false
    /\ Forall (fun f => survives maj f = true) fs /\ frames_size fs <= n /\ n < 2 ^ 28
    /\ l = tag_bytes maj mi fl n fs.
