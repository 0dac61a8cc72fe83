(** The calls of the public API that change a tag, as data: one constructor
    per function of include/modules/tag.h:62-130 (and [run_call] applies the
    model of that function).  Used to state theorems about all of them, and
    about sequences of them, at once. *)
From Verif Require Export Tag.

Inductive call :=
(* include/modules/tag.h, setters *)
| SetTextFrame (input : TextFrameInput)
| SetArtist (s : cptr) | SetAlbum (s : cptr) | SetTitle (s : cptr) | SetTrack (s : cptr)
| SetAlbumArtist (s : cptr) | SetGenre (s : cptr) | SetYear (s : cptr)
| SetDiscNumber (s : cptr) | SetComposer (s : cptr)
| SetCommentFrame (input : CommentFrameInput)
| AddCommentFrame (input : CommentFrameInput)
| SetComment (lang comment : cptr)
| SetApicFrame (input : ApicFrameInput)
| AddApicFrame (input : ApicFrameInput)
| SetAlbumCover (mime : cptr) (size : Z) (data : cptr)
(* delete functions *)
| DeleteFrame (id : cptr)
| DeleteArtist | DeleteAlbum | DeleteTitle | DeleteTrack | DeleteAlbumArtist
| DeleteGenre | DeleteYear | DeleteDiscNumber | DeleteComposer
| DeleteComment | DeleteAlbumCover
| DeleteCommentFrame (index : Z)
| DeleteApicFrame (index : Z).

Definition run_call (t : Tag) (c : call) : outcome Tag :=
  match c with
  | SetTextFrame i => ID3v2_Tag_set_text_frame t i
  | SetArtist s => ID3v2_Tag_set_artist t s
  | SetAlbum s => ID3v2_Tag_set_album t s
  | SetTitle s => ID3v2_Tag_set_title t s
  | SetTrack s => ID3v2_Tag_set_track t s
  | SetAlbumArtist s => ID3v2_Tag_set_album_artist t s
  | SetGenre s => ID3v2_Tag_set_genre t s
  | SetYear s => ID3v2_Tag_set_year t s
  | SetDiscNumber s => ID3v2_Tag_set_disc_number t s
  | SetComposer s => ID3v2_Tag_set_composer t s
  | SetCommentFrame i => ID3v2_Tag_set_comment_frame t i
  | AddCommentFrame i => ID3v2_Tag_add_comment_frame t i
  | SetComment l c => ID3v2_Tag_set_comment t l c
  | SetApicFrame i => ID3v2_Tag_set_apic_frame t i
  | AddApicFrame i => ID3v2_Tag_add_apic_frame t i
  | SetAlbumCover m n d => ID3v2_Tag_set_album_cover t m n d
  | DeleteFrame id => ID3v2_Tag_delete_frame t id
  | DeleteArtist => ID3v2_Tag_delete_artist t
  | DeleteAlbum => ID3v2_Tag_delete_album t
  | DeleteTitle => ID3v2_Tag_delete_title t
  | DeleteTrack => ID3v2_Tag_delete_track t
  | DeleteAlbumArtist => ID3v2_Tag_delete_album_artist t
  | DeleteGenre => ID3v2_Tag_delete_genre t
  | DeleteYear => ID3v2_Tag_delete_year t
  | DeleteDiscNumber => ID3v2_Tag_delete_disc_number t
  | DeleteComposer => ID3v2_Tag_delete_composer t
  | DeleteComment => ID3v2_Tag_delete_comment t
  | DeleteAlbumCover => ID3v2_Tag_delete_album_cover t
  | DeleteCommentFrame i => ID3v2_Tag_delete_comment_frame t i
  | DeleteApicFrame i => ID3v2_Tag_delete_apic_frame t i
  end.

(** A program that makes these calls in order. *)
Fixpoint run_calls (t : Tag) (cs : list call) : outcome Tag :=
  match cs with
  | [] => Ok t
  | c :: cs => let* t := run_call t c in run_calls t cs
  end.
