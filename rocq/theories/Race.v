(** Model of src/id3v2lib.c once more, with other processes that replace the
    file meanwhile.

    ID3v2_read_tag opens the file twice, ID3v2_delete_tag and ID3v2_write_tag
    three times, each time by its name.  A stream stays with the file it was
    opened on, also when the name is given to another file (rename of POSIX, as
    programs do that save files safely), so here every function takes the
    contents that the name stands for at each of its calls of fopen.  At the
    last one, w+b, whatever is there is emptied.  Simplification: nobody writes
    into a file while this library has it open (for that, see Threads.v). *)
From Verif Require Export File.

(** id3v2lib.c:45-72 ID3v2_read_tag: [f1] is opened for the header (line 24),
    [f2] for the tag (line 51). *)
Definition ID3v2_read_tag_r (f1 f2 : file) : outcome (option Tag) :=
  let* tag_header := ID3v2_read_tag_header f1 in
  match tag_header with
  | None => Ok None
  | Some h =>
      match f2 with
      | None => Ub NullDeref (* fread(.., NULL) *)
      | Some content =>
          let buffer_length := declared_length h in
          ID3v2_read_tag_from_buffer (Some (fread_into content buffer_length)) buffer_length
      end
  end.

(** id3v2lib.c:86-89, the start of ID3v2_write_tag: how much of the file is
    going to be skipped. *)
Definition look (f : file) : outcome Z :=
  let* existing := ID3v2_read_tag_header f in
  Ok (match existing with Some h => declared_length h | None => 0 end).

(** id3v2lib.c:91-117: the contents of the temporary file, when the file is
    opened (line 108) and copied. *)
Definition fetch (original_size : Z) (tag : Tag) (f : file) : outcome (list byte * Tag) :=
  let* d := isub ID3v2_TAG_DEFAULT_PADDING_LENGTH (t_padding tag) in
  let extra := clamp_int d 0 ID3v2_TAG_DEFAULT_PADDING_LENGTH in
  let* padding := iadd (t_padding tag) extra in
  let tag := mkTag (t_header tag) (t_frames tag) padding (t_fresh tag) in
  let* tag_cs := Tag_to_char_stream tag in
  let* temp := fwrite_bytes (firstn (Z.to_nat (cs_size tag_cs)) (cs_stream tag_cs)) in
  match f with
  | None => Ub NullDeref (* fseek(NULL, ..) *)
  | Some content => Ok (copy_loop (from_offset content original_size) temp, tag)
  end.

(** id3v2lib.c:82-131 ID3v2_write_tag with a tag: what it stores in whatever
    file it opens at line 120, and the tag. *)
Definition ID3v2_write_tag_r (f1 f2 : file) (tag : Tag) : outcome (list byte * Tag) :=
  let* original_size := look f1 in
  let* (temp, tag) := fetch original_size tag f2 in
  Ok (copy_loop temp [], tag).

(** id3v2lib.c:133-165 ID3v2_delete_tag: what it stores; [None] if it returns
    without opening the file again. *)
Definition ID3v2_delete_tag_r (f1 f2 : file) : outcome (option (list byte)) :=
  let* tag_header := ID3v2_read_tag_header f1 in
  match tag_header with
  | None => Ok None
  | Some h =>
      match f2 with
      | None => Ub NullDeref (* fseek(NULL, ..) *)
      | Some content =>
          let temp := copy_loop (from_offset content (declared_length h)) [] in
          Ok (Some (copy_loop temp []))
      end
  end.

(** Processes that save tags to the same file.  One moves from one call of
    fopen to the next in one step; simplification: between those calls nobody
    else moves (see C90_finer in PropsRace.v). *)
Inductive stage := Unstarted | Looked (original_size : Z) | Fetched (temp : list byte) | Done | Crashed.

Definition act (tag : Tag) (s : stage) (f : file) : stage * file :=
  match s with
  | Unstarted => (match look f with Ok n => Looked n | _ => Crashed end, f)
  | Looked n => (match fetch n tag f with Ok (temp, _) => Fetched temp | _ => Crashed end, f)
  | Fetched temp => (Done, Some (copy_loop temp []))
  | Done | Crashed => (s, f)
  end.

(** It is the turn of process [i]. *)
Definition race_turn (tags : nat -> Tag) (w : (nat -> stage) * file) (i : nat) : (nat -> stage) * file :=
  let (st, f) := w in
  let (s, f) := act (tags i) (st i) f in
  (fun j => if Nat.eqb j i then s else st j, f).

Definition race (tags : nat -> Tag) (f : file) (schedule : list nat) : (nat -> stage) * file :=
  fold_left (race_turn tags) schedule (fun _ => Unstarted, f).
