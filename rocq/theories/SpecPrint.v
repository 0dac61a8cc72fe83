(** Specification of what the functions of test/test_utils.c print.  Uses no
    function of the model of the code. *)
From Verif Require Import TestUtils Spec SpecEdit.

(** A unit in the byte order of a little-endian host, and in that of the text. *)
Definition as_stored (u : byte * byte) : Z := bv (fst u) + 256 * bv (snd u).
Definition as_meant (big_endian : bool) (u : byte * byte) : Z :=
  if big_endian then 256 * bv (fst u) + bv (snd u) else bv (fst u) + 256 * bv (snd u).

(** The line printed for a text, and the line there should be. *)
Definition line_of (t : text) : list printed :=
  match t with
  | Iso chars => [Chars (chars ++ [newline])]
  | Utf16 _ units => map (fun u => WideChar (as_stored u)) units ++ [Chars [newline]]
  end.
Definition line_meant (t : text) : list printed :=
  match t with
  | Iso chars => [Chars (chars ++ [newline])]
  | Utf16 be units => map (fun u => WideChar (as_meant be u)) units ++ [Chars [newline]]
  end.
Definition none_line : list printed := [Chars (lit "None" ++ [newline])].

(** A text frame with this id is seen, a comment is seen. *)
Definition text_in (id : list byte) (g : frame) (t : text) : Prop :=
  text_ok t = true /\ exists i flags, same_id i id = true /\ g = frame_of (FText i flags t).
Definition comment_in (g : frame) (t : text) : Prop :=
  text_ok t = true /\ exists flags lang d, text_ok d = true /\ g = frame_of (FComment flags lang d t).

(** The line for what a getter finds. *)
Definition first_line (shown : frame -> text -> Prop) (id : list byte) (gs : list frame) (out : list printed) : Prop :=
  match find (named id) gs with
  | None => out = none_line
  | Some g => exists t, shown g t /\ out = line_of t
  end.

(** The getters of text frames, and the ids they look for. *)
Definition text_getters : list ((option Tag -> outcome (option fptr)) * list byte) :=
  [(ID3v2_Tag_get_artist_frame, lit "TPE1"); (ID3v2_Tag_get_album_frame, lit "TALB");
   (ID3v2_Tag_get_title_frame, lit "TIT2"); (ID3v2_Tag_get_track_frame, lit "TRCK");
   (ID3v2_Tag_get_album_artist_frame, lit "TPE2"); (ID3v2_Tag_get_genre_frame, lit "TCON");
   (ID3v2_Tag_get_year_frame, lit "TYER"); (ID3v2_Tag_get_disc_number_frame, lit "TPOS");
   (ID3v2_Tag_get_composer_frame, lit "TCOM")].

(** Units that read the same in both byte orders. *)
Definition symmetric (t : text) : Prop :=
  match t with
  | Utf16 true units => Forall (fun u => fst u = snd u) units
  | _ => True
  end.
