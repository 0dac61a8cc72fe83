(** Model of README.md: its example programs, as functions of file.mp3.

    The examples do not compile as they stand.  They are read as what they mean:
    ID3v2_Tag for ID3v2_tag (README.md:146, 167, 188, 218, 239), ID3v2_Tag_new_empty
    for ID3v2_Tag_new, frame->data->text for frame->text, and a semicolon
    after ID3v2_delete_tag("file.mp3"). *)
From Verif Require Export TestUtils.

(** printf(label "%s", frame->data->text). *)
Definition printf_text (label : string) (p : option fptr) : outcome (list printed) :=
  let* f := deref (the_frame p) in
  match f_data f with
  | DText d => let* s := c_string (td_text d) in Ok [Chars (lit label ++ s)]
  | _ => Ub TypeConfusion
  end.
Arguments printf_text label%string p.

(** ID3v2_read_tag("file.mp3"), or a new tag. *)
Definition read_or_new (f : file) : outcome Tag :=
  let* tag := ID3v2_read_tag f in
  Ok (or_new tag).

(** README.md:145-162 "Load Tags". *)
Definition load_example (f : file) : outcome (list printed) :=
  let* tag := read_or_new f in
  let* artist_frame := ID3v2_Tag_get_artist_frame (Some tag) in
  let* a := printf_text "artist: " artist_frame in
  let* album_frame := ID3v2_Tag_get_album_frame (Some tag) in
  let* b := printf_text "album: " album_frame in
  Ok (a ++ b).

(** README.md:166-183 "Edit Tags". *)
Definition edit_example (f : file) : outcome file :=
  let* tag := read_or_new f in
  let* title := to_unicode "Title" in
  let* artist := to_unicode "Artist" in
  let* tag := run_calls tag [SetTitle title; SetArtist artist] in
  let* (f, _) := ID3v2_write_tag f (Some tag) in
  Ok f.

(** README.md:187-207 "Delete Tags": the file after the frames are deleted, and after
    the tag is deleted, too. *)
Definition delete_example (f : file) : outcome (file * file) :=
  let* tag := read_or_new f in
  let* tag := run_calls tag [DeleteTitle; DeleteArtist] in
  let* (f, _) := ID3v2_write_tag f (Some tag) in
  let* g := ID3v2_delete_tag f in
  Ok (f, g).

(** README.md:217-232 "Read New Frames". *)
Definition read_new_example (f : file) : outcome (list printed) :=
  let* tag := read_or_new f in
  let* copyright_frame := ID3v2_Tag_get_frame (Some tag) (clit "TCOP") in
  printf_text "copyright: " copyright_frame.

(** README.md:238-257 "Edit New Frames": the tag; it is not written. *)
Definition edit_new_example (f : file) : outcome Tag :=
  let* tag := read_or_new f in
  run_call tag (SetTextFrame (mkTextInput (clit "TCOP") NO_FLAGS (clit "A copyright message"))).

(** README.md:265-277 "Compatibility Layer"; load_tag does not return NULL (C61). *)
Definition compat_example (f : file) : outcome (list printed) :=
  let* tag := load_tag f in
  let* album_frame := tag_get_album (Some tag) in
  let* album_content := parse_text_frame_content (t_frames (ct_tag tag)) album_frame in
  let* s := c_string (tc_data album_content) in
  Ok [Chars (lit "Album: " ++ s)].
