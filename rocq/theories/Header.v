(** Model of src/modules/tag_header.c and src/modules/frame_header.c. *)
From Verif Require Export Stream.

(** tag_header.h:12-18 and frame_header.h:13-16. *)
Definition ID3v2_TAG_HEADER_LENGTH := 10.
Definition ID3v2_TAG_HEADER_IDENTIFIER_LENGTH := 3.
Definition ID3v2_TAG_HEADER_MAJOR_VERSION_LENGTH := 1.
Definition ID3v2_TAG_HEADER_MINOR_VERSION_LENGTH := 1.
Definition ID3v2_TAG_HEADER_FLAGS_LENGTH := 1.
Definition ID3v2_TAG_HEADER_TAG_SIZE_LENGTH := 4.
Definition ID3v2_EXTENDED_HEADER_SIZE_LENGTH := 4.
Definition ID3v2_FRAME_HEADER_LENGTH := 10.
Definition ID3v2_FRAME_HEADER_ID_LENGTH := 4.
Definition ID3v2_FRAME_HEADER_SIZE_LENGTH := 4.
Definition ID3v2_FRAME_HEADER_FLAGS_LENGTH := 2.

(** tag_header.h:21-29.  The three char fields are kept as bytes; tag_size and
    extended_header_size are unsigned. *)
Record TagHeader := mkTH {
  th_identifier : list byte;
  th_major : byte;
  th_minor : byte;
  th_flags : byte;
  th_tag_size : Z;
  th_ext_size : Z
}.

(** tag_header.c:20-41 TagHeader_new: ints stored into chars are truncated,
    ints stored into unsigned are converted mod 2^32. *)
Definition TagHeader_new (major minor flags tag_size ext_size : Z) : TagHeader :=
  mkTH (lit "ID3") (zb major) (zb minor) (zb flags) (to_u32 tag_size) (to_u32 ext_size).

(** tag_header.c:43-46 TagHeader_new_empty. *)
Definition TagHeader_new_empty : TagHeader := TagHeader_new 3 0 0 0 0.

(** tag_header.c:48-82 TagHeader_parse: NULL is [None]; also returns the
    stream, whose cursor has moved. *)
Definition TagHeader_parse (cs : CharStream) : outcome (option TagHeader * CharStream) :=
  let* has_tag := memcmp_eq (lit "ID3") (cs_stream cs) in
  if negb has_tag then Ok (None, cs)
  else
    let* (_, cs) := read_into cs ID3v2_TAG_HEADER_IDENTIFIER_LENGTH in
    let* (major, cs) := CharStream_getc cs in
    let* (minor, cs) := CharStream_getc cs in
    if negb (major =? 3) && negb (major =? 4) then Ok (None, cs)
    else
      let* (flags, cs) := CharStream_getc cs in
      let* (raw_size, cs) := read_into cs ID3v2_TAG_HEADER_TAG_SIZE_LENGTH in
      let* n := btoi raw_size ID3v2_TAG_HEADER_TAG_SIZE_LENGTH in
      let tag_size := to_i32 (syncint_decode (to_i32 n)) in
      if Z.land flags (Z.shiftl 1 6) =? Z.shiftl 1 6 then
        let* (raw_eh, cs) := read_into cs ID3v2_EXTENDED_HEADER_SIZE_LENGTH in
        let* e := btoi raw_eh ID3v2_EXTENDED_HEADER_SIZE_LENGTH in
        let ext := to_i32 (syncint_decode (to_i32 e)) in
        Ok (Some (TagHeader_new major minor flags tag_size ext), cs)
      else
        Ok (Some (TagHeader_new major minor flags tag_size 0), cs).

(** frame_header.h:18-23.  id and flags are char arrays of 4 and 2 cells;
    size is an int. *)
Record FrameHeader := mkFH { fh_id : mem; fh_size : Z; fh_flags : mem }.

(** frame_header.c:20-29 FrameHeader_new. *)
Definition FrameHeader_new (id flags : cptr) (size : Z) : outcome FrameHeader :=
  let* i := memcpy_from id ID3v2_FRAME_HEADER_ID_LENGTH in
  let* f := memcpy_from flags ID3v2_FRAME_HEADER_FLAGS_LENGTH in
  Ok (mkFH i size f).

(** frame_header.c:31-58 FrameHeader_parse. *)
Definition FrameHeader_parse (cs : CharStream) (ver : Z)
  : outcome (option FrameHeader * CharStream) :=
  let* (id, cs) := read_into cs ID3v2_FRAME_HEADER_ID_LENGTH in
  let* pad := memcmp_eq [x00; x00; x00; x00] id in
  if pad then
    let* cs := CharStream_seek cs (- ID3v2_FRAME_HEADER_ID_LENGTH) SEEK_CUR in
    Ok (None, cs)
  else
    let* (raw, cs) := CharStream_slice cs ID3v2_FRAME_HEADER_SIZE_LENGTH in
    let* n := btoi raw ID3v2_FRAME_HEADER_SIZE_LENGTH in
    let size := to_i32 n in
    let size := if ver =? 4 then to_i32 (syncint_decode size) else size in
    let* (flags, cs) := read_into cs ID3v2_FRAME_HEADER_FLAGS_LENGTH in
    let* h := FrameHeader_new (Some id) (Some flags) size in
    Ok (Some h, cs).

(** frame_header.c:60-71 FrameHeader_to_char_stream. *)
Definition FrameHeader_to_char_stream (h : FrameHeader) : outcome CharStream :=
  let* cs := CharStream_new ID3v2_FRAME_HEADER_LENGTH in
  let* cs := CharStream_write cs (fh_id h) ID3v2_FRAME_HEADER_ID_LENGTH in
  let* cs := CharStream_write cs (itob (fh_size h)) ID3v2_FRAME_HEADER_SIZE_LENGTH in
  let* cs := CharStream_write cs (fh_flags h) ID3v2_FRAME_HEADER_FLAGS_LENGTH in
  Ok cs.

(** header->id[0] == c *)
Definition id0_is (h : FrameHeader) (c : byte) : outcome bool :=
  match fh_id h with
  | [] => Ub OobRead
  | None :: _ => Ub UninitRead
  | Some x :: _ => Ok (beq x c)
  end.

(** frame_header.c:73-76 'T', 78-81 'C', 83-86 'A'. *)
Definition FrameHeader_isTextFrame (h : FrameHeader) : outcome bool := id0_is h "T"%byte.
Definition FrameHeader_isCommentFrame (h : FrameHeader) : outcome bool := id0_is h "C"%byte.
Definition FrameHeader_isApicFrame (h : FrameHeader) : outcome bool := id0_is h "A"%byte.
