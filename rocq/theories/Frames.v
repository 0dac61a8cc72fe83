(** Model of src/modules/frames/{text,comment,apic}_frame.c and
    src/modules/frame.c. *)
From Verif Require Export Header.

(** frame.h:13-16, comment_frame.h:13, apic_frame.h:13. *)
Definition ID3v2_FRAME_ENCODING_LENGTH := 1.
Definition ID3v2_ENCODING_ISO : byte := x00.
Definition ID3v2_ENCODING_UNICODE : byte := x01.
Definition ID3v2_COMMENT_FRAME_LANGUAGE_LENGTH := 3.
Definition ID3v2_APIC_FRAME_PICTURE_TYPE_LENGTH := 1.

(** frame_ids.h:20,23 (the ids the frame constructors use). *)
Definition ID3v2_COMMENT_FRAME_ID : cptr := clit "COMM".
Definition ID3v2_ALBUM_COVER_FRAME_ID : cptr := clit "APIC".

(** text_frame.h:15-20 *)
Record TextData := mkTD { td_size : Z; td_encoding : byte; td_text : mem }.
(** comment_frame.h:17-24 *)
Record CommentData := mkCD {
  cd_size : Z; cd_encoding : byte; cd_language : mem; cd_short : mem; cd_comment : mem }.
(** apic_frame.h:20-28 *)
Record ApicData := mkAD {
  ad_encoding : byte; ad_mime : mem; ad_type : byte; ad_desc : mem;
  ad_data : mem; ad_picture_size : Z }.

(** frame.h:20-24: data is a void*; what it really points to is recorded. *)
Inductive fdata :=
| DText (d : TextData)
| DComment (d : CommentData)
| DApic (d : ApicData)
| DRaw (m : mem).
Record frame := mkFrame { f_hdr : FrameHeader; f_data : fdata }.

(** Evaluating the size of a variable-length array: C99 6.7.5.2 requires a
    value greater than zero. *)
Definition vla (n : Z) : outcome unit := if n <=? 0 then Ub BadSize else Ok tt.

Definition encoding_of (bom : bool) : byte :=
  if bom then ID3v2_ENCODING_UNICODE else ID3v2_ENCODING_ISO.

(** text_frame.c:76-90 TextFrameData_new. *)
Definition TextFrameData_new (text : cptr) : outcome TextData :=
  let* bom := string_has_bom text in
  let encoding := encoding_of bom in
  let term := if beq encoding ID3v2_ENCODING_ISO then 1 else 2 in
  let* n := ID3v2_strlen text in
  let* size := iadd n term in
  let* t := memcpy_from text size in
  Ok (mkTD size encoding t).

(** text_frame.c:21-31 TextFrame_new. *)
Definition TextFrame_new (id flags text : cptr) : outcome frame :=
  let* d := TextFrameData_new text in
  let* frame_size := iadd ID3v2_FRAME_ENCODING_LENGTH (td_size d) in
  let* h := FrameHeader_new id flags frame_size in
  Ok (mkFrame h (DText d)).

(** header->size etc. when header may be NULL. *)
Definition deref {A} (p : option A) : outcome A :=
  match p with None => Ub NullDeref | Some a => Ok a end.

(** text_frame.c:33-48 TextFrame_parse. *)
Definition TextFrame_parse (cs : CharStream) (ver : Z) : outcome (frame * CharStream) :=
  let* (header, cs) := FrameHeader_parse cs ver in
  let* cs := CharStream_seek cs ID3v2_FRAME_ENCODING_LENGTH SEEK_CUR in
  let* h := deref header in
  let* text_size := isub (fh_size h) ID3v2_FRAME_ENCODING_LENGTH in
  let* _ := vla text_size in
  let* (text, cs) := read_into cs text_size in
  let* f := TextFrame_new (Some (fh_id h)) (Some (fh_flags h)) (Some text) in
  Ok (f, cs).

(** The part common to the three X_to_char_stream functions: a stream of
    header->size + 10 bytes with the header written to it
    (text_frame.c:54-59, comment_frame.c:70-75, apic_frame.c:80-85). *)
Definition start_frame_stream (h : FrameHeader) : outcome CharStream :=
  let* header_cs := FrameHeader_to_char_stream h in
  let* n := iadd (fh_size h) ID3v2_FRAME_HEADER_LENGTH in
  let* cs := CharStream_new n in
  CharStream_write cs (cs_stream header_cs) (cs_size header_cs).

(** text_frame.c:50-66 TextFrame_to_char_stream. *)
Definition TextFrame_to_char_stream (h : FrameHeader) (d : TextData) : outcome CharStream :=
  let* cs := start_frame_stream h in
  let* cs := CharStream_write cs [Some (td_encoding d)] ID3v2_FRAME_ENCODING_LENGTH in
  CharStream_write cs (td_text d) (td_size d).

(** comment_frame.c:99-124 CommentFrameData_new. *)
Definition CommentFrameData_new (lang short_desc comment : cptr) : outcome CommentData :=
  let* bom := string_has_bom comment in
  let encoding := encoding_of bom in
  let* comment_size := ID3v2_strlent comment in
  let* short_desc_size := ID3v2_strlent short_desc in
  let* l := memcpy_from lang ID3v2_COMMENT_FRAME_LANGUAGE_LENGTH in
  let* c := memcpy_from comment comment_size in
  let* s := memcpy_from short_desc short_desc_size in
  Ok (mkCD comment_size encoding l s c).

(** comment_frame.c:22-40 CommentFrame_new. *)
Definition CommentFrame_new (flags lang short_desc comment : cptr) : outcome frame :=
  let* d := CommentFrameData_new lang short_desc comment in
  let* short_desc_size := ID3v2_strlent short_desc in
  let* s := iadd (cd_size d) short_desc_size in
  let* s := iadd s ID3v2_FRAME_ENCODING_LENGTH in
  let* frame_size := iadd s ID3v2_COMMENT_FRAME_LANGUAGE_LENGTH in
  let* h := FrameHeader_new ID3v2_COMMENT_FRAME_ID flags frame_size in
  Ok (mkFrame h (DComment d)).

(** comment_frame.c:42-64 CommentFrame_parse.  The strings are measured in
    place, up to the end of the whole stream; the frame's size is not used. *)
Definition CommentFrame_parse (cs : CharStream) (ver : Z) : outcome (frame * CharStream) :=
  let* (header, cs) := FrameHeader_parse cs ver in
  let* cs := CharStream_seek cs ID3v2_FRAME_ENCODING_LENGTH SEEK_CUR in
  let* (lang, cs) := read_into cs ID3v2_COMMENT_FRAME_LANGUAGE_LENGTH in
  let* short_desc_size := ID3v2_strlent (Some (CharStream_get_cur cs)) in
  let* _ := vla short_desc_size in
  let* (short_desc, cs) := read_into cs short_desc_size in
  let* comment_size := ID3v2_strlent (Some (CharStream_get_cur cs)) in
  let* _ := vla comment_size in
  let* (comment, cs) := read_into cs comment_size in
  let* h := deref header in
  let* f := CommentFrame_new (Some (fh_flags h)) (Some lang) (Some short_desc) (Some comment) in
  Ok (f, cs).

(** comment_frame.c:66-88 CommentFrame_to_char_stream. *)
Definition CommentFrame_to_char_stream (h : FrameHeader) (d : CommentData) : outcome CharStream :=
  let* cs := start_frame_stream h in
  let* cs := CharStream_write cs [Some (cd_encoding d)] ID3v2_FRAME_ENCODING_LENGTH in
  let* cs := CharStream_write cs (cd_language d) ID3v2_COMMENT_FRAME_LANGUAGE_LENGTH in
  let* n := ID3v2_strlent (Some (cd_short d)) in
  let* cs := CharStream_write cs (cd_short d) n in
  CharStream_write cs (cd_comment d) (cd_size d).

(** apic_frame.c:107-136 ApicFrameData_new. *)
Definition ApicFrameData_new (description : cptr) (picture_type : byte) (mime_type : cptr)
    (picture_size : Z) (picture_data : cptr) : outcome ApicData :=
  let* bom := string_has_bom description in
  let encoding := encoding_of bom in
  let* desc_size := ID3v2_strlent description in
  let* desc := memcpy_from description desc_size in
  let* mime_type_size := ID3v2_strlent mime_type in
  let* mime := memcpy_from mime_type mime_type_size in
  let* data := memcpy_from picture_data picture_size in
  Ok (mkAD encoding mime picture_type desc data picture_size).

(** apic_frame.c:23-45 ApicFrame_new. *)
Definition ApicFrame_new (flags description : cptr) (picture_type : byte) (mime_type : cptr)
    (picture_size : Z) (data : cptr) : outcome frame :=
  let* d := ApicFrameData_new description picture_type mime_type picture_size data in
  let* description_size := ID3v2_strlent description in
  let* mime_type_size := ID3v2_strlent mime_type in
  let* s := iadd ID3v2_FRAME_ENCODING_LENGTH mime_type_size in
  let* s := iadd s ID3v2_APIC_FRAME_PICTURE_TYPE_LENGTH in
  let* s := iadd s description_size in
  let* frame_size := iadd s (ad_picture_size d) in
  let* h := FrameHeader_new ID3v2_ALBUM_COVER_FRAME_ID flags frame_size in
  Ok (mkFrame h (DApic d)).

(** apic_frame.c:47-74 ApicFrame_parse. *)
Definition ApicFrame_parse (cs : CharStream) (ver : Z) : outcome (frame * CharStream) :=
  let* (header, cs) := FrameHeader_parse cs ver in
  let* cs := CharStream_seek cs ID3v2_FRAME_ENCODING_LENGTH SEEK_CUR in
  let* mime_type_size := ID3v2_strlent (Some (CharStream_get_cur cs)) in
  let* _ := vla mime_type_size in
  let* (mime_type, cs) := read_into cs mime_type_size in
  let* (pt, cs) := CharStream_getc cs in
  let picture_type := zb pt in
  let* description_size := ID3v2_strlent (Some (CharStream_get_cur cs)) in
  let* _ := vla description_size in
  let* (description, cs) := read_into cs description_size in
  let* h := deref header in
  let* s := isub (fh_size h) ID3v2_FRAME_ENCODING_LENGTH in
  let* s := isub s mime_type_size in
  let* s := isub s ID3v2_APIC_FRAME_PICTURE_TYPE_LENGTH in
  let* pic_size := isub s description_size in
  let* _ := vla pic_size in
  let* (pic_data, cs) := read_into cs pic_size in
  let* f := ApicFrame_new (Some (fh_flags h)) (Some description) picture_type
                          (Some mime_type) pic_size (Some pic_data) in
  Ok (f, cs).

(** apic_frame.c:76-95 ApicFrame_to_char_stream. *)
Definition ApicFrame_to_char_stream (h : FrameHeader) (d : ApicData) : outcome CharStream :=
  let* cs := start_frame_stream h in
  let* cs := CharStream_write cs [Some (ad_encoding d)] ID3v2_FRAME_ENCODING_LENGTH in
  let* n := ID3v2_strlent (Some (ad_mime d)) in
  let* cs := CharStream_write cs (ad_mime d) n in
  let* cs := CharStream_write cs [Some (ad_type d)] ID3v2_APIC_FRAME_PICTURE_TYPE_LENGTH in
  let* n := ID3v2_strlent (Some (ad_desc d)) in
  let* cs := CharStream_write cs (ad_desc d) n in
  CharStream_write cs (ad_data d) (ad_picture_size d).

(** frame.c:24-57 Frame_parse; [None] is NULL (padding reached). *)
Definition Frame_parse (cs : CharStream) (ver : Z) : outcome (option frame * CharStream) :=
  let* (header, cs) := FrameHeader_parse cs ver in
  match header with
  | None => Ok (None, cs)
  | Some h =>
      let* is_text := FrameHeader_isTextFrame h in
      let* is_comment := FrameHeader_isCommentFrame h in
      let* is_apic := FrameHeader_isApicFrame h in
      if is_text then
        let* cs := CharStream_seek cs (- ID3v2_FRAME_HEADER_LENGTH) SEEK_CUR in
        let* (f, cs) := TextFrame_parse cs ver in
        Ok (Some f, cs)
      else if is_comment then
        let* cs := CharStream_seek cs (- ID3v2_FRAME_HEADER_LENGTH) SEEK_CUR in
        let* (f, cs) := CommentFrame_parse cs ver in
        Ok (Some f, cs)
      else if is_apic then
        let* cs := CharStream_seek cs (- ID3v2_FRAME_HEADER_LENGTH) SEEK_CUR in
        let* (f, cs) := ApicFrame_parse cs ver in
        Ok (Some f, cs)
      else
        (* frame.c:50-54: malloc(size) of a negative size gives NULL, which is
           then passed to memcpy *)
        if fh_size h <? 0 then Ub BadSize
        else
          let* (data, cs) := read_into cs (fh_size h) in
          Ok (Some (mkFrame h (DRaw data)), cs)
  end.

(** frame.c:59-84 Frame_to_char_stream.  The frame kind is decided by the
    first letter of the id; reading the data through the wrong struct type is
    reported as type confusion. *)
Definition Frame_to_char_stream (fp : option frame) : outcome (option CharStream) :=
  match fp with
  | None => Ok None
  | Some f =>
      let h := f_hdr f in
      let* is_text := FrameHeader_isTextFrame h in
      let* is_comment := FrameHeader_isCommentFrame h in
      let* is_apic := FrameHeader_isApicFrame h in
      if is_text then
        match f_data f with
        | DText d => let* cs := TextFrame_to_char_stream h d in Ok (Some cs)
        | _ => Ub TypeConfusion
        end
      else if is_comment then
        match f_data f with
        | DComment d => let* cs := CommentFrame_to_char_stream h d in Ok (Some cs)
        | _ => Ub TypeConfusion
        end
      else if is_apic then
        match f_data f with
        | DApic d => let* cs := ApicFrame_to_char_stream h d in Ok (Some cs)
        | _ => Ub TypeConfusion
        end
      else
        match f_data f with
        | DRaw m =>
            let* n := iadd (fh_size h) ID3v2_FRAME_HEADER_LENGTH in
            let* cs := CharStream_new n in
            let* header_cs := FrameHeader_to_char_stream h in
            let* cs := CharStream_write cs (cs_stream header_cs) ID3v2_FRAME_HEADER_LENGTH in
            let* cs := CharStream_write cs m (fh_size h) in
            Ok (Some cs)
        | _ => Ub TypeConfusion
        end
  end.
