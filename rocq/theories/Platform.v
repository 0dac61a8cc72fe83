(** The functions whose results depend on the machine once more, for machines
    other than the one the rest of the model describes: [char] may be unsigned,
    the most significant byte of an int may come first, and the stack may be
    too small for the arrays of variable length (which elsewhere always fit). *)
From Verif Require Export File Compat.

(** [p_stack]: how many bytes of arrays of variable length fit on the stack.
    Simplification: nothing else on the stack counts; arrays are not padded. *)
Record platform := mkPlatform {
  p_unsigned_char : bool;
  p_big_endian : bool;
  p_stack : option N }.

(** Value of a char. *)
Definition char_value (P : platform) (b : byte) : Z := if p_unsigned_char P then bv b else schar b.

(** [char x[n];] when arrays of [used] bytes are there already. *)
Definition vla_on (P : platform) (used n : Z) : outcome Z :=
  let* _ := vla n in
  match p_stack P with
  | Some limit => if Z.of_N limit <? used + n then Ub StackOverflow else Ok (used + n)
  | None => Ok (used + n)
  end.

(** char_stream.c:56-62 CharStream_getc. *)
Definition CharStream_getc_on (P : platform) (cs : CharStream) : outcome (Z * CharStream) :=
  if cs_size cs <=? cs_cursor cs then Ok (-1, cs)
  else
    match CharStream_get_cur cs with
    | [] => Ub OobRead
    | None :: _ => Ub UninitRead
    | Some b :: _ => Ok (char_value P b, with_cursor cs (cs_cursor cs + 1))
    end.

(** Byte [i] of the object representation of an int. *)
Definition int_byte_on (P : platform) (integer : Z) (i : Z) : byte :=
  zb (Z.shiftr (to_u32 integer) (8 * (if p_big_endian P then 3 - i else i))).

(** utils.c:95-109 itob. *)
Definition itob_on (P : platform) (integer : Z) : mem :=
  map (fun i => Some (int_byte_on P integer i)) [3; 2; 1; 0].

(** ** Reading *)

(** tag_header.c:48-82 TagHeader_parse. *)
Definition TagHeader_parse_on (P : platform) (cs : CharStream) : outcome (option TagHeader * CharStream) :=
  let* has_tag := memcmp_eq (lit "ID3") (cs_stream cs) in
  if negb has_tag then Ok (None, cs)
  else
    let* (_, cs) := read_into cs ID3v2_TAG_HEADER_IDENTIFIER_LENGTH in
    let* (major, cs) := CharStream_getc_on P cs in
    let* (minor, cs) := CharStream_getc_on P cs in
    if negb (major =? 3) && negb (major =? 4) then Ok (None, cs)
    else
      let* (flags, cs) := CharStream_getc_on P cs in
      let* (raw_size, cs) := read_into cs ID3v2_TAG_HEADER_TAG_SIZE_LENGTH in
      let* n := btoi raw_size ID3v2_TAG_HEADER_TAG_SIZE_LENGTH in
      let tag_size := to_i32 (syncint_decode (to_i32 n)) in
      if Z.land flags (Z.shiftl 1 6) =? Z.shiftl 1 6 then
        let* (raw_eh, cs) := read_into cs ID3v2_EXTENDED_HEADER_SIZE_LENGTH in
        let* e := btoi raw_eh ID3v2_EXTENDED_HEADER_SIZE_LENGTH in
        let ext := to_i32 (syncint_decode (to_i32 e)) in
        Ok (Some (TagHeader_new major minor flags tag_size ext), cs)
      else
        Ok (Some (TagHeader_new major minor flags tag_size 0), cs).

(** text_frame.c:33-48 TextFrame_parse. *)
Definition TextFrame_parse_on (P : platform) (cs : CharStream) (ver : Z) : outcome (frame * CharStream) :=
  let* (header, cs) := FrameHeader_parse cs ver in
  let* cs := CharStream_seek cs ID3v2_FRAME_ENCODING_LENGTH SEEK_CUR in
  let* h := deref header in
  let* text_size := isub (fh_size h) ID3v2_FRAME_ENCODING_LENGTH in
  let* _ := vla_on P 0 text_size in
  let* (text, cs) := read_into cs text_size in
  let* f := TextFrame_new (Some (fh_id h)) (Some (fh_flags h)) (Some text) in
  Ok (f, cs).

(** comment_frame.c:42-64 CommentFrame_parse. *)
Definition CommentFrame_parse_on (P : platform) (cs : CharStream) (ver : Z) : outcome (frame * CharStream) :=
  let* (header, cs) := FrameHeader_parse cs ver in
  let* cs := CharStream_seek cs ID3v2_FRAME_ENCODING_LENGTH SEEK_CUR in
  let* (lang, cs) := read_into cs ID3v2_COMMENT_FRAME_LANGUAGE_LENGTH in
  let* short_desc_size := ID3v2_strlent (Some (CharStream_get_cur cs)) in
  let* used := vla_on P 0 short_desc_size in
  let* (short_desc, cs) := read_into cs short_desc_size in
  let* comment_size := ID3v2_strlent (Some (CharStream_get_cur cs)) in
  let* _ := vla_on P used comment_size in
  let* (comment, cs) := read_into cs comment_size in
  let* h := deref header in
  let* f := CommentFrame_new (Some (fh_flags h)) (Some lang) (Some short_desc) (Some comment) in
  Ok (f, cs).

(** apic_frame.c:47-74 ApicFrame_parse. *)
Definition ApicFrame_parse_on (P : platform) (cs : CharStream) (ver : Z) : outcome (frame * CharStream) :=
  let* (header, cs) := FrameHeader_parse cs ver in
  let* cs := CharStream_seek cs ID3v2_FRAME_ENCODING_LENGTH SEEK_CUR in
  let* mime_type_size := ID3v2_strlent (Some (CharStream_get_cur cs)) in
  let* used := vla_on P 0 mime_type_size in
  let* (mime_type, cs) := read_into cs mime_type_size in
  let* (pt, cs) := CharStream_getc_on P cs in
  let picture_type := zb pt in
  let* description_size := ID3v2_strlent (Some (CharStream_get_cur cs)) in
  let* used := vla_on P used description_size in
  let* (description, cs) := read_into cs description_size in
  let* h := deref header in
  let* s := isub (fh_size h) ID3v2_FRAME_ENCODING_LENGTH in
  let* s := isub s mime_type_size in
  let* s := isub s ID3v2_APIC_FRAME_PICTURE_TYPE_LENGTH in
  let* pic_size := isub s description_size in
  let* _ := vla_on P used pic_size in
  let* (pic_data, cs) := read_into cs pic_size in
  let* f := ApicFrame_new (Some (fh_flags h)) (Some description) picture_type
                          (Some mime_type) pic_size (Some pic_data) in
  Ok (f, cs).

(** frame.c:24-57 Frame_parse. *)
Definition Frame_parse_on (P : platform) (cs : CharStream) (ver : Z) : outcome (option frame * CharStream) :=
  let* (header, cs) := FrameHeader_parse cs ver in
  match header with
  | None => Ok (None, cs)
  | Some h =>
      let* is_text := FrameHeader_isTextFrame h in
      let* is_comment := FrameHeader_isCommentFrame h in
      let* is_apic := FrameHeader_isApicFrame h in
      if is_text then
        let* cs := CharStream_seek cs (- ID3v2_FRAME_HEADER_LENGTH) SEEK_CUR in
        let* (f, cs) := TextFrame_parse_on P cs ver in
        Ok (Some f, cs)
      else if is_comment then
        let* cs := CharStream_seek cs (- ID3v2_FRAME_HEADER_LENGTH) SEEK_CUR in
        let* (f, cs) := CommentFrame_parse_on P cs ver in
        Ok (Some f, cs)
      else if is_apic then
        let* cs := CharStream_seek cs (- ID3v2_FRAME_HEADER_LENGTH) SEEK_CUR in
        let* (f, cs) := ApicFrame_parse_on P cs ver in
        Ok (Some f, cs)
      else
        if fh_size h <? 0 then Ub BadSize
        else
          let* (data, cs) := read_into cs (fh_size h) in
          Ok (Some (mkFrame h (DRaw data)), cs)
  end.

(** tag.c:57-63, the loop of Tag_parse. *)
Fixpoint parse_loop_on (P : platform) (fuel : nat) (tag_size ver : Z) (cs : CharStream) (frames : flist) (fresh : nat)
  : outcome (flist * nat * CharStream) :=
  if to_u32 (cs_cursor cs) <? tag_size then
    match fuel with
    | O => NoFuel
    | S fuel' =>
        let* (current_frame, cs) := Frame_parse_on P cs ver in
        match current_frame with
        | None => Ok (frames, fresh, cs)
        | Some f =>
            let* frames := FrameList_add_frame frames (fresh, f) in
            parse_loop_on P fuel' tag_size ver cs frames (S fresh)
        end
    end
  else Ok (frames, fresh, cs).

(** tag.c:44-68 Tag_parse. *)
Definition Tag_parse_on (P : platform) (cs : CharStream) : outcome (option Tag) :=
  let* (header, cs) := TagHeader_parse_on P cs in
  match header with
  | None => Ok None
  | Some h =>
      let tag := ID3v2_Tag_new (Some h) 0 in
      let* cs :=
        if 0 <? th_ext_size h
        then CharStream_seek cs (to_i32 (th_ext_size h)) SEEK_SET
        else Ok cs in
      let* (frames, fresh, cs) :=
        parse_loop_on P (length (cs_stream cs) + 2) (th_tag_size h) (char_value P (th_major h))
                   cs (t_frames tag) (t_fresh tag) in
      let* padding := isub (cs_size cs) (cs_cursor cs) in
      Ok (Some (mkTag h frames padding fresh))
  end.

(** id3v2lib.c:37-43 ID3v2_read_tag_header_from_buffer. *)
Definition ID3v2_read_tag_header_from_buffer_on (P : platform) (buffer : cptr) : outcome (option TagHeader) :=
  let* cs := CharStream_from_buffer buffer ID3v2_TAG_HEADER_LENGTH in
  let* (header, _) := TagHeader_parse_on P cs in
  Ok header.

(** id3v2lib.c:22-35 ID3v2_read_tag_header. *)
Definition ID3v2_read_tag_header_on (P : platform) (f : file) : outcome (option TagHeader) :=
  match f with
  | None => Ok None
  | Some content =>
      let tag_header_buffer := firstn (Z.to_nat ID3v2_TAG_HEADER_LENGTH) content in
      let bytes_read := zlen tag_header_buffer in
      if bytes_read <? ID3v2_TAG_HEADER_LENGTH then Ok None
      else ID3v2_read_tag_header_from_buffer_on P (Some (cells tag_header_buffer))
  end.

(** id3v2lib.c:74-80 ID3v2_read_tag_from_buffer. *)
Definition ID3v2_read_tag_from_buffer_on (P : platform) (tag_buffer : cptr) (buffer_length : Z) : outcome (option Tag) :=
  let* tag_cs := CharStream_from_buffer tag_buffer buffer_length in
  Tag_parse_on P tag_cs.

(** id3v2lib.c:45-72 ID3v2_read_tag. *)
Definition ID3v2_read_tag_on (P : platform) (f : file) : outcome (option Tag) :=
  let* tag_header := ID3v2_read_tag_header_on P f in
  match tag_header with
  | None => Ok None
  | Some h =>
      match f with
      | None => Ub NullDeref
      | Some content =>
          let buffer_length := declared_length h in
          ID3v2_read_tag_from_buffer_on P (Some (fread_into content buffer_length)) buffer_length
      end
  end.

(** compat.c:143-179 load_tag_with_buffer. *)
Definition load_tag_with_buffer_on (P : platform) (buffer : cptr) (length : Z) : outcome ctag :=
  let* tag := ID3v2_read_tag_from_buffer_on P buffer length in
  let* raw := memcpy_from buffer length in
  let* tag := deref tag in
  let h := t_header tag in
  let header := mkCH (cells (th_identifier h)) (Some (th_major h)) (Some (th_minor h)) (Some (th_flags h))
                     (Some (to_i32 (th_tag_size h))) (Some (to_i32 (th_ext_size h))) in
  let* frames := load_frames (t_frames tag) new_frame_list in
  Ok (mkCTag (Some raw) header frames tag).

(** compat.c:126-141 load_tag. *)
Definition load_tag_on (P : platform) (f : file) : outcome ctag :=
  let* header := ID3v2_read_tag_header_on P f in
  let* header := deref header in
  let buffer_size := declared_length header in
  let* content := deref f in
  load_tag_with_buffer_on P (Some (fread_into content buffer_size)) buffer_size.

(** ** Writing *)

(** frame_header.c:60-71 FrameHeader_to_char_stream. *)
Definition FrameHeader_to_char_stream_on (P : platform) (h : FrameHeader) : outcome CharStream :=
  let* cs := CharStream_new ID3v2_FRAME_HEADER_LENGTH in
  let* cs := CharStream_write cs (fh_id h) ID3v2_FRAME_HEADER_ID_LENGTH in
  let* cs := CharStream_write cs (itob_on P (fh_size h)) ID3v2_FRAME_HEADER_SIZE_LENGTH in
  let* cs := CharStream_write cs (fh_flags h) ID3v2_FRAME_HEADER_FLAGS_LENGTH in
  Ok cs.

(** The start of the three functions that follow, as in Frames.v. *)
Definition start_frame_stream_on (P : platform) (h : FrameHeader) : outcome CharStream :=
  let* header_cs := FrameHeader_to_char_stream_on P h in
  let* n := iadd (fh_size h) ID3v2_FRAME_HEADER_LENGTH in
  let* cs := CharStream_new n in
  CharStream_write cs (cs_stream header_cs) (cs_size header_cs).

(** text_frame.c:50-66 TextFrame_to_char_stream. *)
Definition TextFrame_to_char_stream_on (P : platform) (h : FrameHeader) (d : TextData) : outcome CharStream :=
  let* cs := start_frame_stream_on P h in
  let* cs := CharStream_write cs [Some (td_encoding d)] ID3v2_FRAME_ENCODING_LENGTH in
  CharStream_write cs (td_text d) (td_size d).

(** comment_frame.c:66-88 CommentFrame_to_char_stream. *)
Definition CommentFrame_to_char_stream_on (P : platform) (h : FrameHeader) (d : CommentData) : outcome CharStream :=
  let* cs := start_frame_stream_on P h in
  let* cs := CharStream_write cs [Some (cd_encoding d)] ID3v2_FRAME_ENCODING_LENGTH in
  let* cs := CharStream_write cs (cd_language d) ID3v2_COMMENT_FRAME_LANGUAGE_LENGTH in
  let* n := ID3v2_strlent (Some (cd_short d)) in
  let* cs := CharStream_write cs (cd_short d) n in
  CharStream_write cs (cd_comment d) (cd_size d).

(** apic_frame.c:76-95 ApicFrame_to_char_stream. *)
Definition ApicFrame_to_char_stream_on (P : platform) (h : FrameHeader) (d : ApicData) : outcome CharStream :=
  let* cs := start_frame_stream_on P h in
  let* cs := CharStream_write cs [Some (ad_encoding d)] ID3v2_FRAME_ENCODING_LENGTH in
  let* n := ID3v2_strlent (Some (ad_mime d)) in
  let* cs := CharStream_write cs (ad_mime d) n in
  let* cs := CharStream_write cs [Some (ad_type d)] ID3v2_APIC_FRAME_PICTURE_TYPE_LENGTH in
  let* n := ID3v2_strlent (Some (ad_desc d)) in
  let* cs := CharStream_write cs (ad_desc d) n in
  CharStream_write cs (ad_data d) (ad_picture_size d).

(** frame.c:59-84 Frame_to_char_stream. *)
Definition Frame_to_char_stream_on (P : platform) (fp : option frame) : outcome (option CharStream) :=
  match fp with
  | None => Ok None
  | Some f =>
      let h := f_hdr f in
      let* is_text := FrameHeader_isTextFrame h in
      let* is_comment := FrameHeader_isCommentFrame h in
      let* is_apic := FrameHeader_isApicFrame h in
      if is_text then
        match f_data f with
        | DText d => let* cs := TextFrame_to_char_stream_on P h d in Ok (Some cs)
        | _ => Ub TypeConfusion
        end
      else if is_comment then
        match f_data f with
        | DComment d => let* cs := CommentFrame_to_char_stream_on P h d in Ok (Some cs)
        | _ => Ub TypeConfusion
        end
      else if is_apic then
        match f_data f with
        | DApic d => let* cs := ApicFrame_to_char_stream_on P h d in Ok (Some cs)
        | _ => Ub TypeConfusion
        end
      else
        match f_data f with
        | DRaw m =>
            let* n := iadd (fh_size h) ID3v2_FRAME_HEADER_LENGTH in
            let* cs := CharStream_new n in
            let* header_cs := FrameHeader_to_char_stream_on P h in
            let* cs := CharStream_write cs (cs_stream header_cs) ID3v2_FRAME_HEADER_LENGTH in
            let* cs := CharStream_write cs m (fh_size h) in
            Ok (Some cs)
        | _ => Ub TypeConfusion
        end
  end.

(** tag.c:93-103, the frame loop of Tag_to_char_stream. *)
Fixpoint write_frames_on (P : platform) (cs : CharStream) (frames : flist) : outcome CharStream :=
  match frames with
  | [] => Ok cs
  | n :: rest =>
      let* frame_cs := Frame_to_char_stream_on P (option_map fp_frame (n_frame n)) in
      match frame_cs with
      | None => Exit 1
      | Some fcs =>
          let* cs := CharStream_write cs (cs_stream fcs) (cs_size fcs) in
          write_frames_on P cs rest
      end
  end.

(** tag.c:70-106 Tag_to_char_stream. *)
Definition Tag_to_char_stream_on (P : platform) (tag : Tag) : outcome CharStream :=
  let h := t_header tag in
  let* cs := CharStream_new (to_i32 (to_u32 (th_tag_size h + ID3v2_TAG_HEADER_LENGTH))) in
  let* cs := CharStream_write cs (cells (th_identifier h)) ID3v2_TAG_HEADER_IDENTIFIER_LENGTH in
  let* cs := CharStream_write cs [Some (th_major h)] ID3v2_TAG_HEADER_MAJOR_VERSION_LENGTH in
  let* cs := CharStream_write cs [Some (th_minor h)] ID3v2_TAG_HEADER_MINOR_VERSION_LENGTH in
  let* cs := CharStream_write cs [Some (th_flags h)] ID3v2_TAG_HEADER_FLAGS_LENGTH in
  let* enc := syncint_encode (to_i32 (th_tag_size h)) in
  let* cs := CharStream_write cs (itob_on P enc) ID3v2_TAG_HEADER_TAG_SIZE_LENGTH in
  match t_frames tag with
  | [] => Ub NullDeref
  | n :: _ =>
      match n_frame n with
      | None => Ok cs
      | Some _ => write_frames_on P cs (t_frames tag)
      end
  end.

(** id3v2lib.c:82-131 ID3v2_write_tag: contents of the file when it returns, and
    the tag. *)
Definition ID3v2_write_tag_on (P : platform) (f : file) (tagp : option Tag) : outcome (file * option Tag) :=
  match tagp with
  | None => Ok (f, None)
  | Some tag =>
      let* existing := ID3v2_read_tag_header_on P f in
      let original_size := match existing with Some h => declared_length h | None => 0 end in
      let* d := isub ID3v2_TAG_DEFAULT_PADDING_LENGTH (t_padding tag) in
      let extra := clamp_int d 0 ID3v2_TAG_DEFAULT_PADDING_LENGTH in
      let* padding := iadd (t_padding tag) extra in
      let tag := mkTag (t_header tag) (t_frames tag) padding (t_fresh tag) in
      let* tag_cs := Tag_to_char_stream_on P tag in
      let* temp := fwrite_bytes (firstn (Z.to_nat (cs_size tag_cs)) (cs_stream tag_cs)) in
      match f with
      | None => Ub NullDeref
      | Some content => Ok (Some (copy_loop (from_offset content original_size) temp), Some tag)
      end
  end.

(** compat.c:186-189 set_tag. *)
Definition set_tag_on (P : platform) (f : file) (tag : option ctag) : outcome (file * ctag) :=
  let* t := deref tag in
  let* (f, inner) := ID3v2_write_tag_on P f (Some (ct_tag t)) in
  let* inner := deref inner in
  Ok (f, mkCTag (ct_raw t) (ct_header t) (ct_frames t) inner).

(** id3v2lib.c:133-165 ID3v2_delete_tag, and compat.c:181-184 remove_tag. *)
Definition ID3v2_delete_tag_on (P : platform) (f : file) : outcome file :=
  let* tag_header := ID3v2_read_tag_header_on P f in
  match tag_header with
  | None => Ok f
  | Some h =>
      match f with
      | None => Ub NullDeref
      | Some content => Ok (Some (copy_loop (from_offset content (declared_length h)) []))
      end
  end.
Definition remove_tag_on (P : platform) (f : file) : outcome file := ID3v2_delete_tag_on P f.
