(** Model of src/id3v2lib.c: the functions that work on files.

    A file is its contents, [None] when it does not exist.  stdio calls on an
    existing file succeed (no permission, device or memory errors); the file
    is not changed by anyone else meanwhile (for that, see Race.v). *)
From Verif Require Export Tag.

Definition file := option (list byte).

(** id3v2lib.c:37-43 ID3v2_read_tag_header_from_buffer. *)
Definition ID3v2_read_tag_header_from_buffer (buffer : cptr) : outcome (option TagHeader) :=
  let* cs := CharStream_from_buffer buffer ID3v2_TAG_HEADER_LENGTH in
  let* (header, _) := TagHeader_parse cs in
  Ok header.

(** id3v2lib.c:22-35 ID3v2_read_tag_header. *)
Definition ID3v2_read_tag_header (f : file) : outcome (option TagHeader) :=
  match f with
  | None => Ok None
  | Some content =>
      let tag_header_buffer := firstn (Z.to_nat ID3v2_TAG_HEADER_LENGTH) content in
      let bytes_read := zlen tag_header_buffer in
      if bytes_read <? ID3v2_TAG_HEADER_LENGTH then Ok None
      else ID3v2_read_tag_header_from_buffer (Some (cells tag_header_buffer))
  end.

(** id3v2lib.c:74-80 ID3v2_read_tag_from_buffer. *)
Definition ID3v2_read_tag_from_buffer (tag_buffer : cptr) (buffer_length : Z) : outcome (option Tag) :=
  let* tag_cs := CharStream_from_buffer tag_buffer buffer_length in
  Tag_parse tag_cs.

(** malloc(n) followed by fread of up to n bytes of [content] (id3v2lib.c:53,63):
    what the file does not provide stays indeterminate.  Simplification: the
    call asks for one item of n bytes; for a shorter file ISO C leaves even the
    bytes that were read indeterminate, here they are what the file holds, as
    on the usual implementations. *)
Definition fread_into (content : list byte) (n : Z) : mem :=
  let data := cells (firstn (Z.to_nat n) content) in
  data ++ repeat None (Z.to_nat n - length data).

(** int buffer_length = tag_header->tag_size + ID3v2_TAG_HEADER_LENGTH
    (id3v2lib.c:52,88): unsigned addition, converted to int. *)
Definition declared_length (h : TagHeader) : Z :=
  to_i32 (to_u32 (th_tag_size h + ID3v2_TAG_HEADER_LENGTH)).

(** id3v2lib.c:45-72 ID3v2_read_tag. *)
Definition ID3v2_read_tag (f : file) : outcome (option Tag) :=
  let* tag_header := ID3v2_read_tag_header f in
  match tag_header with
  | None => Ok None
  | Some h =>
      match f with
      | None => Ub NullDeref
      | Some content =>
          let buffer_length := declared_length h in
          ID3v2_read_tag_from_buffer (Some (fread_into content buffer_length)) buffer_length
      end
  end.

(** fwrite(stream, 1, size, fp) to an empty file: the bytes written.  Writing
    out an indeterminate cell is reported as its use. *)
Fixpoint fwrite_bytes (m : mem) : outcome (list byte) :=
  match m with
  | [] => Ok []
  | None :: _ => Ub UninitRead
  | Some b :: m' => let* r := fwrite_bytes m' in Ok (b :: r)
  end.

(** The loop [while ((c = getc(src)) != EOF) putc(c, dst);]: contents of dst
    afterwards. *)
Fixpoint copy_loop (src dst : list byte) : list byte :=
  match src with
  | [] => dst
  | c :: src' => copy_loop src' (dst ++ [c])
  end.

(** The same loop: contents of dst after every single putc. *)
Fixpoint copy_states (src dst : list byte) : list (list byte) :=
  match src with
  | [] => []
  | c :: src' => (dst ++ [c]) :: copy_states src' (dst ++ [c])
  end.

(** What is left to read after fseek(fp, n, SEEK_SET). *)
Definition from_offset (content : list byte) (n : Z) : list byte :=
  skipn (Z.to_nat n) content.

(** id3v2lib.c:82-131 ID3v2_write_tag, as the list of contents the named file
    goes through (first: before the call; last: after it), and the tag, whose
    padding_size is changed.  putc is buffered, so what reaches the disk
    between two states is one of the states of the list. *)
Definition ID3v2_write_tag_states (f : file) (tagp : option Tag)
  : outcome (list file * option Tag) :=
  match tagp with
  | None => Ok ([f], None)
  | Some tag =>
      let* existing := ID3v2_read_tag_header f in
      let original_size := match existing with Some h => declared_length h | None => 0 end in
      let* d := isub ID3v2_TAG_DEFAULT_PADDING_LENGTH (t_padding tag) in
      let extra := clamp_int d 0 ID3v2_TAG_DEFAULT_PADDING_LENGTH in
      let* padding := iadd (t_padding tag) extra in
      let tag := mkTag (t_header tag) (t_frames tag) padding (t_fresh tag) in
      let* tag_cs := Tag_to_char_stream tag in
      let* temp := fwrite_bytes (firstn (Z.to_nat (cs_size tag_cs)) (cs_stream tag_cs)) in
      match f with
      | None => Ub NullDeref (* fopen(.., "r+b") fails, fseek(NULL, ..) *)
      | Some content =>
          let temp := copy_loop (from_offset content original_size) temp in
          let truncated := [] in
          Ok (Some content :: Some truncated :: map Some (copy_states temp truncated), Some tag)
      end
  end.

(** Contents of the file when ID3v2_write_tag returns, and the tag. *)
Definition ID3v2_write_tag (f : file) (tagp : option Tag) : outcome (file * option Tag) :=
  let* (states, tagp) := ID3v2_write_tag_states f tagp in
  Ok (last states f, tagp).

(** id3v2lib.c:133-165 ID3v2_delete_tag, as the contents the file goes through. *)
Definition ID3v2_delete_tag_states (f : file) : outcome (list file) :=
  let* tag_header := ID3v2_read_tag_header f in
  match tag_header with
  | None => Ok [f]
  | Some h =>
      match f with
      | None => Ub NullDeref
      | Some content =>
          let temp := copy_loop (from_offset content (declared_length h)) [] in
          let truncated := [] in
          Ok (Some content :: Some truncated :: map Some (copy_states temp truncated))
      end
  end.

Definition ID3v2_delete_tag (f : file) : outcome file :=
  let* states := ID3v2_delete_tag_states f in
  Ok (last states f).
