(** Specification of the test programs: the frames they look for and the frames
    they set.  Uses no function of the model of the code. *)
From Verif Require Import File Spec SpecEdit SpecFile SpecRead SpecSession.
From Coq Require Import Permutation.

(** A literal in UTF-16, least significant byte first. *)
Definition wide (s : string) : text := Utf16 false (map (fun c => (c, x00)) (lit s)).
Arguments wide s%string.
Definition narrow (s : string) : text := Iso (lit s).
Arguments narrow s%string.

Definition plain_text (id : string) (t : text) : fspec := FText (lit id) [x00; x00] t.
Arguments plain_text id%string t.
Definition png (ptype : byte) (description : text) (pic : list byte) : fspec :=
  FPicture [x00; x00] (narrow "image/png") ptype description pic.
Definition english (description comment : text) : fspec := FComment [x00; x00] (lit "eng") description comment.

(** The tag of test/extra/file.mp3 as get_test.c describes it.  It says nothing
    about the picture type. *)
Definition song (ptype : byte) (pic : list byte) : list fspec :=
  [plain_text "TPE1" (wide "Ethereal Darkness"); plain_text "TALB" (wide "Smoke And Shadows");
   plain_text "TIT2" (wide "Rivers"); plain_text "TRCK" (narrow "1");
   plain_text "TPE2" (wide "Ethereal Darkness"); plain_text "TCON" (wide "Melodic Death Metal");
   plain_text "TYER" (narrow "2019"); plain_text "TPOS" (narrow "1"); plain_text "TCOM" (wide "Composer");
   english (wide "") (wide "This is a comment"); png ptype (narrow "") pic].

(** What set_test.c puts into the tag, and what it adds. *)
Definition new_texts : list fspec :=
  [plain_text "TPE1" (wide "Artist"); plain_text "TALB" (wide "Album"); plain_text "TIT2" (wide "Title");
   plain_text "TRCK" (narrow "00"); plain_text "TPE2" (wide "Album Artist"); plain_text "TCON" (wide "Genre");
   plain_text "TYER" (narrow "0000"); plain_text "TPOS" (narrow "00"); plain_text "TCOM" (wide "Writter")].
Definition new_comment : fspec := english (wide "") (wide "Comment").
Definition other_comment : fspec := english (wide "Short Description") (wide "Comment").
Definition new_cover (pic : list byte) : fspec := png x03 (wide "") pic.
Definition other_cover (ptype : byte) (pic : list byte) : fspec := png ptype (wide "Description") pic.

Definition put_frames_of (pic : list byte) : list fspec := new_texts ++ [new_comment; new_cover pic].
Definition set_frames_of (pic : list byte) : list fspec := put_frames_of pic ++ [other_comment; other_cover x03 pic].
Definition set_edits (pic : list byte) : list edit :=
  map Put (new_texts ++ [new_comment]) ++ [Append other_comment; Put (new_cover pic); Append (other_cover x03 pic)].

(** Frames it sets that the tag does not have yet. *)
Definition missing (pic : list byte) (fs : list fspec) : Z :=
  zlen (filter (fun f => negb (existsb (titled (frame_id f)) fs)) (put_frames_of pic)).

(** The second frame with an id. *)
Definition second (id : string) (fs : list fspec) : option fspec := nth_error (filter (titled (lit id)) fs) 1.
Arguments second id%string fs.

(** The frames delete_test.c deletes; it does not need the comment. *)
Definition deleted_ids : list (list byte) :=
  map lit ["TALB"; "TPE1"; "TPE2"; "TCOM"; "TPOS"; "TCON"; "TIT2"; "TRCK"; "TYER"; "APIC"]%string.

(** These frames and no others, with or without a comment. *)
Definition just_those (fs : list fspec) : Prop :=
  exists comments, (comments = [] \/ comments = [lit "COMM"]) /\ Permutation (map frame_id fs) (comments ++ deleted_ids).

(** What compat_test.c compares of a text: as many bytes as the text has in
    ISO-8859-1, with terminator. *)
Definition begins_with (expected : text) (n : Z) (found : text) : Prop :=
  firstn (Z.to_nat n) (text_image found) = firstn (Z.to_nat n) (text_image expected).

(** The first frame with this id is a text that begins like this one. *)
Definition shows (id : string) (expected : text) (n : Z) (fs : list fspec) : Prop :=
  exists flags t, find (titled (lit id)) fs = Some (FText (lit id) flags t) /\ begins_with expected n t.
Arguments shows id%string.

(** The four texts compat_test.c looks at. *)
Definition shown_before (fs : list fspec) : Prop :=
  shows "TALB" (wide "Smoke And Shadows") 18 fs /\ shows "TPE1" (wide "Ethereal Darkness") 18 fs
  /\ shows "TIT2" (wide "Rivers") 7 fs /\ shows "TYER" (narrow "2019") 4 fs.

(** No tag is seen: no file, or a file without tag. *)
Definition untagged (f : file) : Prop :=
  match f with
  | Some content => file_read content None
  | None => True
  end.
