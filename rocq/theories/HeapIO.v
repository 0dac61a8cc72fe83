(** The heap under char_stream.c, the parse and to_char_stream functions, and
    id3v2lib.c: what reading and writing a tag allocates and frees.

    As in Heap.v, what is computed is taken from the other files.  Automatic
    arrays (char buf[n]) are not blocks; FILE objects are not modelled.  The order
    of the mallocs within one function differs in places from the C text, which
    changes nothing but addresses. *)
From Verif Require Export File Heap.

(** ** Streams: char_stream.c *)

Definition load_bytes (p : ptr) (h : heap) : outcome mem :=
  let* x := load p h in
  match x with BBytes m => Ok m | _ => Ub TypeConfusion end.
Definition load_stream_block (p : ptr) (h : heap) : outcome (ptr * Z * Z) :=
  let* x := load p h in
  match x with BStream st cu sz => Ok (st, cu, sz) | _ => Ub TypeConfusion end.

(** The stream that [p] points to, with its buffer. *)
Definition load_stream (p : ptr) (h : heap) : outcome CharStream :=
  let* (st, cu, sz) := load_stream_block p h in
  let* m := load_bytes st h in
  Ok (mkCS cu sz m).
Definition store_stream (p : ptr) (cs : CharStream) (h : heap) : outcome heap :=
  let* (st, _, _) := load_stream_block p h in
  let* h := store p (BStream st (cs_cursor cs) (cs_size cs)) h in
  store st (BBytes (cs_stream cs)) h.

(** A function of char_stream.c, or a part of another function that only reads
    from or writes to a stream, applied through a pointer. *)
Definition on_stream {A} (p : ptr) (f : CharStream -> outcome (A * CharStream)) (h : heap) : outcome (A * heap) :=
  let* cs := load_stream p h in
  let* (x, cs) := f cs in
  let* h := store_stream p cs h in
  Ok (x, h).
Definition move (p : ptr) (f : CharStream -> outcome CharStream) (h : heap) : outcome heap :=
  let* cs := load_stream p h in
  let* cs := f cs in
  store_stream p cs h.

(** char_stream.c:18-25 CharStream_new. *)
Definition CharStream_new_h (size : Z) (h : heap) : outcome (nat * heap) :=
  let* cs := CharStream_new size in
  let (st, h) := malloc (BBytes (cs_stream cs)) h in
  Ok (malloc (BStream (Some st) (cs_cursor cs) (cs_size cs)) h).

(** char_stream.c:27-35 CharStream_from_buffer. *)
Definition CharStream_from_buffer_h (buffer : cptr) (size : Z) (h : heap) : outcome (nat * heap) :=
  let* cs := CharStream_from_buffer buffer size in
  let (st, h) := malloc (BBytes (cs_stream cs)) h in
  Ok (malloc (BStream (Some st) (cs_cursor cs) (cs_size cs)) h).

(** char_stream.c:42-46 CharStream_write. *)
Definition CharStream_write_h (p : ptr) (data : mem) (size : Z) (h : heap) : outcome heap :=
  move p (fun cs => CharStream_write cs data size) h.

(** char_stream.c:71-85 CharStream_seek. *)
Definition CharStream_seek_h (p : ptr) (offset : Z) (w : whence) (h : heap) : outcome heap :=
  move p (fun cs => CharStream_seek cs offset w) h.

(** Declaring [char buf[n]] and calling CharStream_read on it. *)
Definition read_into_h (p : ptr) (n : Z) (h : heap) : outcome (mem * heap) :=
  on_stream p (fun cs => read_into cs n) h.

(** ID3v2_strlent(CharStream_get_cur(cs)) *)
Definition strlent_here (p : ptr) (h : heap) : outcome Z :=
  let* cs := load_stream p h in
  ID3v2_strlent (Some (CharStream_get_cur cs)).

(** char_stream.c:87-91 CharStream_free. *)
Definition CharStream_free (p : ptr) (h : heap) : outcome heap :=
  let* (st, _, _) := load_stream_block p h in
  let* h := free st h in
  free p h.

(** ** Reading *)

(** frame_header.c:88-91 FrameHeader_free, tag_header.c:84-87
    ID3v2_TagHeader_free. *)
Definition FrameHeader_free (header : ptr) (h : heap) : outcome heap := free header h.
Definition ID3v2_TagHeader_free (header : ptr) (h : heap) : outcome heap := free header h.

(** frame_header.c:31-58 FrameHeader_parse: the only allocation is the header
    it returns. *)
Definition FrameHeader_parse_h (cs : ptr) (ver : Z) (h : heap) : outcome (ptr * heap) :=
  let* (header, h) := on_stream cs (fun s => FrameHeader_parse s ver) h in
  match header with
  | None => Ok (None, h)
  | Some hd => let (a, h) := malloc (BFrameHeader hd) h in Ok (Some a, h)
  end.

(** tag_header.c:48-82 TagHeader_parse, in the same way. *)
Definition TagHeader_parse_h (cs : ptr) (h : heap) : outcome (ptr * heap) :=
  let* (header, h) := on_stream cs TagHeader_parse h in
  match header with
  | None => Ok (None, h)
  | Some hd => let (a, h) := malloc (BTagHeader hd) h in Ok (Some a, h)
  end.

(** text_frame.c:33-48 TextFrame_parse. *)
Definition TextFrame_parse_h (cs : ptr) (ver : Z) (h : heap) : outcome (nat * heap) :=
  let* (header, h) := FrameHeader_parse_h cs ver h in
  let* h := CharStream_seek_h cs ID3v2_FRAME_ENCODING_LENGTH SEEK_CUR h in
  let* hd := load_frame_header header h in
  let* text_size := isub (fh_size hd) ID3v2_FRAME_ENCODING_LENGTH in
  let* _ := vla text_size in
  let* (text, h) := read_into_h cs text_size h in
  let* hd := load_frame_header header h in
  let* (frame, h) := TextFrame_new_h (Some (fh_id hd)) (Some (fh_flags hd)) (Some text) h in
  let* h := FrameHeader_free header h in
  Ok (frame, h).

(** comment_frame.c:42-64 CommentFrame_parse. *)
Definition CommentFrame_parse_h (cs : ptr) (ver : Z) (h : heap) : outcome (nat * heap) :=
  let* (header, h) := FrameHeader_parse_h cs ver h in
  let* h := CharStream_seek_h cs ID3v2_FRAME_ENCODING_LENGTH SEEK_CUR h in
  let* (lang, h) := read_into_h cs ID3v2_COMMENT_FRAME_LANGUAGE_LENGTH h in
  let* short_desc_size := strlent_here cs h in
  let* _ := vla short_desc_size in
  let* (short_desc, h) := read_into_h cs short_desc_size h in
  let* comment_size := strlent_here cs h in
  let* _ := vla comment_size in
  let* (comment, h) := read_into_h cs comment_size h in
  let* hd := load_frame_header header h in
  let* (frame, h) := CommentFrame_new_h (Some (fh_flags hd)) (Some lang) (Some short_desc) (Some comment) h in
  let* h := FrameHeader_free header h in
  Ok (frame, h).

(** apic_frame.c:47-74 ApicFrame_parse. *)
Definition ApicFrame_parse_h (cs : ptr) (ver : Z) (h : heap) : outcome (nat * heap) :=
  let* (header, h) := FrameHeader_parse_h cs ver h in
  let* h := CharStream_seek_h cs ID3v2_FRAME_ENCODING_LENGTH SEEK_CUR h in
  let* mime_type_size := strlent_here cs h in
  let* _ := vla mime_type_size in
  let* (mime_type, h) := read_into_h cs mime_type_size h in
  let* (pt, h) := on_stream cs CharStream_getc h in
  let picture_type := zb pt in
  let* description_size := strlent_here cs h in
  let* _ := vla description_size in
  let* (description, h) := read_into_h cs description_size h in
  let* hd := load_frame_header header h in
  let* s := isub (fh_size hd) ID3v2_FRAME_ENCODING_LENGTH in
  let* s := isub s mime_type_size in
  let* s := isub s ID3v2_APIC_FRAME_PICTURE_TYPE_LENGTH in
  let* pic_size := isub s description_size in
  let* _ := vla pic_size in
  let* (pic_data, h) := read_into_h cs pic_size h in
  let* hd := load_frame_header header h in
  let* (frame, h) := ApicFrame_new_h (Some (fh_flags hd)) (Some description) picture_type
                                     (Some mime_type) pic_size (Some pic_data) h in
  let* h := FrameHeader_free header h in
  Ok (frame, h).

(** frame.c:24-57 Frame_parse. *)
Definition Frame_parse_h (cs : ptr) (ver : Z) (h : heap) : outcome (ptr * heap) :=
  let* (header, h) := FrameHeader_parse_h cs ver h in
  match header with
  | None => Ok (None, h)
  | Some _ =>
      let* hd := load_frame_header header h in
      let* is_text := FrameHeader_isTextFrame hd in
      let* is_comment := FrameHeader_isCommentFrame hd in
      let* is_apic := FrameHeader_isApicFrame hd in
      if is_text then
        let* h := CharStream_seek_h cs (- ID3v2_FRAME_HEADER_LENGTH) SEEK_CUR h in
        let* h := FrameHeader_free header h in
        let* (f, h) := TextFrame_parse_h cs ver h in
        Ok (Some f, h)
      else if is_comment then
        let* h := CharStream_seek_h cs (- ID3v2_FRAME_HEADER_LENGTH) SEEK_CUR h in
        let* h := FrameHeader_free header h in
        let* (f, h) := CommentFrame_parse_h cs ver h in
        Ok (Some f, h)
      else if is_apic then
        let* h := CharStream_seek_h cs (- ID3v2_FRAME_HEADER_LENGTH) SEEK_CUR h in
        let* h := FrameHeader_free header h in
        let* (f, h) := ApicFrame_parse_h cs ver h in
        Ok (Some f, h)
      else
        if fh_size hd <? 0 then Ub BadSize
        else
          let* (data, h) := read_into_h cs (fh_size hd) h in
          let (d, h) := malloc (BBytes data) h in
          let (f, h) := malloc (BFrame header (Some d)) h in
          Ok (Some f, h)
  end.

(** tag->header *)
Definition tag_header_of (tag : ptr) (h : heap) : outcome TagHeader :=
  let* (hd, _, _) := load_tag_block tag h in
  load_tag_header hd h.

(** tag.c:57-63, the loop of Tag_parse. *)
Fixpoint parse_loop_h (fuel : nat) (tag cs : ptr) (h : heap) : outcome heap :=
  let* s := load_stream cs h in
  let* th := tag_header_of tag h in
  if to_u32 (cs_cursor s) <? th_tag_size th then
    match fuel with
    | O => NoFuel
    | S fuel =>
        let* (current_frame, h) := Frame_parse_h cs (schar (th_major th)) h in
        match current_frame with
        | None => Ok h
        | Some _ =>
            let* fr := frames_of tag h in
            let* h := FrameList_add_frame_h fr current_frame h in
            parse_loop_h fuel tag cs h
        end
    end
  else Ok h.

(** tag->padding_size = n *)
Definition set_padding (tag : ptr) (n : Z) (h : heap) : outcome heap :=
  let* (hd, fr, _) := load_tag_block tag h in
  store tag (BTag hd fr n) h.

(** tag.c:44-68 Tag_parse. *)
Definition Tag_parse_h (cs : ptr) (h : heap) : outcome (ptr * heap) :=
  let* (header, h) := TagHeader_parse_h cs h in
  match header with
  | None => Ok (None, h)
  | Some _ =>
      let (tag, h) := ID3v2_Tag_new_h header h in
      let* th := load_tag_header header h in
      let* h := if 0 <? th_ext_size th
                then CharStream_seek_h cs (to_i32 (th_ext_size th)) SEEK_SET h
                else Ok h in
      let* s := load_stream cs h in
      let* h := parse_loop_h (length (cs_stream s) + 2) (Some tag) cs h in
      let* s := load_stream cs h in
      let* padding := isub (cs_size s) (cs_cursor s) in
      let* h := set_padding (Some tag) padding h in
      Ok (Some tag, h)
  end.

(** id3v2lib.c:37-43 ID3v2_read_tag_header_from_buffer. *)
Definition ID3v2_read_tag_header_from_buffer_h (buffer : cptr) (h : heap) : outcome (ptr * heap) :=
  let* (cs, h) := CharStream_from_buffer_h buffer ID3v2_TAG_HEADER_LENGTH h in
  let* (header, h) := TagHeader_parse_h (Some cs) h in
  let* h := CharStream_free (Some cs) h in
  Ok (header, h).

(** id3v2lib.c:22-35 ID3v2_read_tag_header. *)
Definition ID3v2_read_tag_header_h (f : file) (h : heap) : outcome (ptr * heap) :=
  match f with
  | None => Ok (None, h)
  | Some content =>
      let tag_header_buffer := firstn (Z.to_nat ID3v2_TAG_HEADER_LENGTH) content in
      let bytes_read := zlen tag_header_buffer in
      if bytes_read <? ID3v2_TAG_HEADER_LENGTH then Ok (None, h)
      else ID3v2_read_tag_header_from_buffer_h (Some (cells tag_header_buffer)) h
  end.

(** id3v2lib.c:74-80 ID3v2_read_tag_from_buffer. *)
Definition ID3v2_read_tag_from_buffer_h (tag_buffer : cptr) (buffer_length : Z) (h : heap) : outcome (ptr * heap) :=
  let* (cs, h) := CharStream_from_buffer_h tag_buffer buffer_length h in
  let* (tag, h) := Tag_parse_h (Some cs) h in
  let* h := CharStream_free (Some cs) h in
  Ok (tag, h).

(** id3v2lib.c:45-72 ID3v2_read_tag.  The size is never negative, so the
    allocation of the buffer succeeds. *)
Definition ID3v2_read_tag_h (f : file) (h : heap) : outcome (ptr * heap) :=
  let* (tag_header, h) := ID3v2_read_tag_header_h f h in
  match tag_header with
  | None => Ok (None, h)
  | Some _ =>
      match f with
      | None => Ub NullDeref
      | Some content =>
          let* hd := load_tag_header tag_header h in
          let buffer_length := declared_length hd in
          let (tag_buffer, h) := malloc (BBytes (fread_into content buffer_length)) h in
          let* m := load_bytes (Some tag_buffer) h in
          let* (tag, h) := ID3v2_read_tag_from_buffer_h (Some m) buffer_length h in
          let* h := free (Some tag_buffer) h in
          let* h := ID3v2_TagHeader_free tag_header h in
          Ok (tag, h)
      end
  end.

(** ** Writing *)

(** frame_header.c:65-67, tag.c:80-82: the bytes of an int are written from a
    block of their own. *)
Definition write_int (cs : ptr) (n size : Z) (h : heap) : outcome heap :=
  let (size_bytes, h) := malloc (BBytes (itob n)) h in
  let* m := load_bytes (Some size_bytes) h in
  let* h := CharStream_write_h cs m size h in
  free (Some size_bytes) h.

(** frame_header.c:60-71 FrameHeader_to_char_stream. *)
Definition FrameHeader_to_char_stream_h (header : ptr) (h : heap) : outcome (nat * heap) :=
  let* (cs, h) := CharStream_new_h ID3v2_FRAME_HEADER_LENGTH h in
  let* hd := load_frame_header header h in
  let* h := CharStream_write_h (Some cs) (fh_id hd) ID3v2_FRAME_HEADER_ID_LENGTH h in
  let* hd := load_frame_header header h in
  let* h := write_int (Some cs) (fh_size hd) ID3v2_FRAME_HEADER_SIZE_LENGTH h in
  let* hd := load_frame_header header h in
  let* h := CharStream_write_h (Some cs) (fh_flags hd) ID3v2_FRAME_HEADER_FLAGS_LENGTH h in
  Ok (cs, h).

(** text_frame.c:54-59, comment_frame.c:70-75, apic_frame.c:80-85. *)
Definition start_frame_stream_h (frame : ptr) (h : heap) : outcome (nat * heap) :=
  let* (hd, _) := load_frame frame h in
  let* (header_cs, h) := FrameHeader_to_char_stream_h hd h in
  let* hd := header_of frame h in
  let* n := iadd (fh_size hd) ID3v2_FRAME_HEADER_LENGTH in
  let* (cs, h) := CharStream_new_h n h in
  let* s := load_stream (Some header_cs) h in
  let* h := CharStream_write_h (Some cs) (cs_stream s) (cs_size s) h in
  let* h := CharStream_free (Some header_cs) h in
  Ok (cs, h).

(** frame->data, as the struct its type says *)
Definition text_data (frame : ptr) (h : heap) : outcome (Z * byte * ptr) :=
  let* (_, da) := load_frame frame h in
  let* x := load da h in
  match x with BText s e t => Ok (s, e, t) | _ => Ub TypeConfusion end.
Definition comment_data (frame : ptr) (h : heap) : outcome (Z * byte * mem * ptr * ptr) :=
  let* (_, da) := load_frame frame h in
  let* x := load da h in
  match x with BComment s e l sh c => Ok (s, e, l, sh, c) | _ => Ub TypeConfusion end.
Definition apic_data (frame : ptr) (h : heap) : outcome (byte * ptr * byte * ptr * ptr * Z) :=
  let* (_, da) := load_frame frame h in
  let* x := load da h in
  match x with BApic e m t d b s => Ok (e, m, t, d, b, s) | _ => Ub TypeConfusion end.

(** text_frame.c:50-66 TextFrame_to_char_stream. *)
Definition TextFrame_to_char_stream_h (frame : ptr) (h : heap) : outcome (nat * heap) :=
  let* (cs, h) := start_frame_stream_h frame h in
  let* (_, enc, _) := text_data frame h in
  let* h := CharStream_write_h (Some cs) [Some enc] ID3v2_FRAME_ENCODING_LENGTH h in
  let* (size, _, text) := text_data frame h in
  let* m := load_bytes text h in
  let* h := CharStream_write_h (Some cs) m size h in
  Ok (cs, h).

(** comment_frame.c:66-88 CommentFrame_to_char_stream. *)
Definition CommentFrame_to_char_stream_h (frame : ptr) (h : heap) : outcome (nat * heap) :=
  let* (cs, h) := start_frame_stream_h frame h in
  let* (_, enc, _, _, _) := comment_data frame h in
  let* h := CharStream_write_h (Some cs) [Some enc] ID3v2_FRAME_ENCODING_LENGTH h in
  let* (_, _, lang, _, _) := comment_data frame h in
  let* h := CharStream_write_h (Some cs) lang ID3v2_COMMENT_FRAME_LANGUAGE_LENGTH h in
  let* (_, _, _, short, _) := comment_data frame h in
  let* m := load_bytes short h in
  let* n := ID3v2_strlent (Some m) in
  let* h := CharStream_write_h (Some cs) m n h in
  let* (size, _, _, _, comment) := comment_data frame h in
  let* m := load_bytes comment h in
  let* h := CharStream_write_h (Some cs) m size h in
  Ok (cs, h).

(** apic_frame.c:76-95 ApicFrame_to_char_stream. *)
Definition ApicFrame_to_char_stream_h (frame : ptr) (h : heap) : outcome (nat * heap) :=
  let* (cs, h) := start_frame_stream_h frame h in
  let* (enc, _, _, _, _, _) := apic_data frame h in
  let* h := CharStream_write_h (Some cs) [Some enc] ID3v2_FRAME_ENCODING_LENGTH h in
  let* (_, mime, _, _, _, _) := apic_data frame h in
  let* m := load_bytes mime h in
  let* n := ID3v2_strlent (Some m) in
  let* h := CharStream_write_h (Some cs) m n h in
  let* (_, _, type, _, _, _) := apic_data frame h in
  let* h := CharStream_write_h (Some cs) [Some type] ID3v2_APIC_FRAME_PICTURE_TYPE_LENGTH h in
  let* (_, _, _, desc, _, _) := apic_data frame h in
  let* m := load_bytes desc h in
  let* n := ID3v2_strlent (Some m) in
  let* h := CharStream_write_h (Some cs) m n h in
  let* (_, _, _, _, data, size) := apic_data frame h in
  let* m := load_bytes data h in
  let* h := CharStream_write_h (Some cs) m size h in
  Ok (cs, h).

(** frame.c:59-84 Frame_to_char_stream.  The stream of the header of an unknown
    frame (line 79) is not freed. *)
Definition Frame_to_char_stream_h (frame : ptr) (h : heap) : outcome (ptr * heap) :=
  match frame with
  | None => Ok (None, h)
  | Some _ =>
      let* header := header_of frame h in
      let* is_text := FrameHeader_isTextFrame header in
      let* is_comment := FrameHeader_isCommentFrame header in
      let* is_apic := FrameHeader_isApicFrame header in
      if is_text then
        let* (cs, h) := TextFrame_to_char_stream_h frame h in Ok (Some cs, h)
      else if is_comment then
        let* (cs, h) := CommentFrame_to_char_stream_h frame h in Ok (Some cs, h)
      else if is_apic then
        let* (cs, h) := ApicFrame_to_char_stream_h frame h in Ok (Some cs, h)
      else
        let* n := iadd (fh_size header) ID3v2_FRAME_HEADER_LENGTH in
        let* (frame_cs, h) := CharStream_new_h n h in
        let* (hd, _) := load_frame frame h in
        let* (header_cs, h) := FrameHeader_to_char_stream_h hd h in
        let* s := load_stream (Some header_cs) h in
        let* h := CharStream_write_h (Some frame_cs) (cs_stream s) ID3v2_FRAME_HEADER_LENGTH h in
        let* (_, da) := load_frame frame h in
        let* m := load_bytes da h in
        let* header := header_of frame h in
        let* h := CharStream_write_h (Some frame_cs) m (fh_size header) h in
        Ok (Some frame_cs, h)
  end.

(** tag.c:93-103, the frame loop of Tag_to_char_stream. *)
Fixpoint write_frames_h (fuel : nat) (cs frames : ptr) (h : heap) : outcome heap :=
  match fuel with
  | O => NoFuel
  | S fuel =>
      match frames with
      | None => Ok h
      | Some _ =>
          let* (f, _, _) := load_node frames h in
          let* (frame_cs, h) := Frame_to_char_stream_h f h in
          match frame_cs with
          | None => Exit 1
          | Some _ =>
              let* s := load_stream frame_cs h in
              let* h := CharStream_write_h cs (cs_stream s) (cs_size s) h in
              let* h := CharStream_free frame_cs h in
              let* (_, _, nx) := load_node frames h in
              write_frames_h fuel cs nx h
          end
      end
  end.

(** tag.c:70-106 Tag_to_char_stream. *)
Definition Tag_to_char_stream_h (tag : ptr) (h : heap) : outcome (nat * heap) :=
  let* th := tag_header_of tag h in
  let* (cs, h) := CharStream_new_h (to_i32 (to_u32 (th_tag_size th + ID3v2_TAG_HEADER_LENGTH))) h in
  let cs := Some cs in
  let* th := tag_header_of tag h in
  let* h := CharStream_write_h cs (cells (th_identifier th)) ID3v2_TAG_HEADER_IDENTIFIER_LENGTH h in
  let* th := tag_header_of tag h in
  let* h := CharStream_write_h cs [Some (th_major th)] ID3v2_TAG_HEADER_MAJOR_VERSION_LENGTH h in
  let* th := tag_header_of tag h in
  let* h := CharStream_write_h cs [Some (th_minor th)] ID3v2_TAG_HEADER_MINOR_VERSION_LENGTH h in
  let* th := tag_header_of tag h in
  let* h := CharStream_write_h cs [Some (th_flags th)] ID3v2_TAG_HEADER_FLAGS_LENGTH h in
  let* th := tag_header_of tag h in
  let* enc := syncint_encode (to_i32 (th_tag_size th)) in
  let* h := write_int cs enc ID3v2_TAG_HEADER_TAG_SIZE_LENGTH h in
  let* fr := frames_of tag h in
  let* (f, _, _) := load_node fr h in
  let* c := deref cs in
  match f with
  | None => Ok (c, h)
  | Some _ => let* h := write_frames_h (enough h) cs fr h in Ok (c, h)
  end.

(** id3v2lib.c:82-131 ID3v2_write_tag: the contents the file goes through, as in
    File.v, and the heap. *)
Definition ID3v2_write_tag_h (f : file) (tag : ptr) (h : heap) : outcome (list file * heap) :=
  match tag with
  | None => Ok ([f], h)
  | Some _ =>
      let* (existing, h) := ID3v2_read_tag_header_h f h in
      let* original_size := match existing with
                            | Some _ => let* hd := load_tag_header existing h in Ok (declared_length hd)
                            | None => Ok 0
                            end in
      let* h := free existing h in
      let* (_, _, padding) := load_tag_block tag h in
      let* d := isub ID3v2_TAG_DEFAULT_PADDING_LENGTH padding in
      let extra := clamp_int d 0 ID3v2_TAG_DEFAULT_PADDING_LENGTH in
      let* padding := iadd padding extra in
      let* h := set_padding tag padding h in
      let* (tag_cs, h) := Tag_to_char_stream_h tag h in
      let* s := load_stream (Some tag_cs) h in
      let* temp := fwrite_bytes (firstn (Z.to_nat (cs_size s)) (cs_stream s)) in
      match f with
      | None => Ub NullDeref
      | Some content =>
          let temp := copy_loop (from_offset content original_size) temp in
          let truncated := [] in
          let* h := CharStream_free (Some tag_cs) h in
          Ok (Some content :: Some truncated :: map Some (copy_states temp truncated), h)
      end
  end.

(** id3v2lib.c:133-165 ID3v2_delete_tag. *)
Definition ID3v2_delete_tag_h (f : file) (h : heap) : outcome (list file * heap) :=
  let* (tag_header, h) := ID3v2_read_tag_header_h f h in
  match tag_header with
  | None => Ok ([f], h)
  | Some _ =>
      match f with
      | None => Ub NullDeref
      | Some content =>
          let* hd := load_tag_header tag_header h in
          let temp := copy_loop (from_offset content (declared_length hd)) [] in
          let truncated := [] in
          let* h := ID3v2_TagHeader_free tag_header h in
          Ok (Some content :: Some truncated :: map Some (copy_states temp truncated), h)
      end
  end.
