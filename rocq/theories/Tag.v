(** Model of src/modules/tag.c. *)
From Verif Require Export FrameList.

(** frame_ids.h:13-23 (COMM and APIC are in Frames.v). *)
Definition ID3v2_ARTIST_FRAME_ID : cptr := clit "TPE1". (* frame_ids.h:14 *)
Definition ID3v2_ALBUM_FRAME_ID : cptr := clit "TALB". (* frame_ids.h:15 *)
Definition ID3v2_TITLE_FRAME_ID : cptr := clit "TIT2". (* frame_ids.h:13 *)
Definition ID3v2_TRACK_FRAME_ID : cptr := clit "TRCK". (* frame_ids.h:18 *)
Definition ID3v2_ALBUM_ARTIST_FRAME_ID : cptr := clit "TPE2". (* frame_ids.h:16 *)
Definition ID3v2_GENRE_FRAME_ID : cptr := clit "TCON". (* frame_ids.h:17 *)
Definition ID3v2_YEAR_FRAME_ID : cptr := clit "TYER". (* frame_ids.h:19 *)
Definition ID3v2_DISC_NUMBER_FRAME_ID : cptr := clit "TPOS". (* frame_ids.h:21 *)
Definition ID3v2_COMPOSER_FRAME_ID : cptr := clit "TCOM". (* frame_ids.h:22 *)

(** tag.h:13, picture_types.h:16. *)
Definition ID3v2_TAG_DEFAULT_PADDING_LENGTH := 2048.
Definition ID3v2_PIC_TYPE_FRONT_COVER : byte := x03.

(** tag.h:21-26.  [t_fresh] belongs to the model: the address the next frame
    allocated for this tag gets (malloc returns addresses not in use). *)
Record Tag := mkTag {
  t_header : TagHeader;
  t_frames : flist;
  t_padding : Z;
  t_fresh : nat
}.

(** tag.c:29-37 ID3v2_Tag_new; a NULL header is [None].  The padding argument
    is not used by the code. *)
Definition ID3v2_Tag_new (header : option TagHeader) (padding_size : Z) : Tag :=
  let h := match header with None => TagHeader_new_empty | Some h => h end in
  mkTag h FrameList_new 0 0.

(** tag.c:39-42 ID3v2_Tag_new_empty. *)
Definition ID3v2_Tag_new_empty : Tag := ID3v2_Tag_new None 0.

(** tag.c:57-63, the loop of Tag_parse.  The int cursor is converted to
    unsigned for the comparison. *)
Fixpoint parse_loop (fuel : nat) (tag_size ver : Z) (cs : CharStream) (frames : flist) (fresh : nat)
  : outcome (flist * nat * CharStream) :=
  if to_u32 (cs_cursor cs) <? tag_size then
    match fuel with
    | O => NoFuel
    | S fuel' =>
        let* (current_frame, cs) := Frame_parse cs ver in
        match current_frame with
        | None => Ok (frames, fresh, cs)
        | Some f =>
            let* frames := FrameList_add_frame frames (fresh, f) in
            parse_loop fuel' tag_size ver cs frames (S fresh)
        end
    end
  else Ok (frames, fresh, cs).

(** tag.c:44-68 Tag_parse.  The fuel exceeds the number of frames any stream
    of this size can hold (proved: C13). *)
Definition Tag_parse (cs : CharStream) : outcome (option Tag) :=
  let* (header, cs) := TagHeader_parse cs in
  match header with
  | None => Ok None
  | Some h =>
      let tag := ID3v2_Tag_new (Some h) 0 in
      let* cs :=
        if 0 <? th_ext_size h
        then CharStream_seek cs (to_i32 (th_ext_size h)) SEEK_SET
        else Ok cs in
      let* (frames, fresh, cs) :=
        parse_loop (length (cs_stream cs) + 2) (th_tag_size h) (schar (th_major h))
                   cs (t_frames tag) (t_fresh tag) in
      let* padding := isub (cs_size cs) (cs_cursor cs) in
      Ok (Some (mkTag h frames padding fresh))
  end.

(** tag.c:93-103, the frame loop of Tag_to_char_stream. *)
Fixpoint write_frames (cs : CharStream) (frames : flist) : outcome CharStream :=
  match frames with
  | [] => Ok cs
  | n :: rest =>
      let* frame_cs := Frame_to_char_stream (option_map fp_frame (n_frame n)) in
      match frame_cs with
      | None => Exit 1
      | Some fcs =>
          let* cs := CharStream_write cs (cs_stream fcs) (cs_size fcs) in
          write_frames cs rest
      end
  end.

(** tag.c:70-106 Tag_to_char_stream. *)
Definition Tag_to_char_stream (tag : Tag) : outcome CharStream :=
  let h := t_header tag in
  let* cs := CharStream_new (to_i32 (to_u32 (th_tag_size h + ID3v2_TAG_HEADER_LENGTH))) in
  let* cs := CharStream_write cs (cells (th_identifier h)) ID3v2_TAG_HEADER_IDENTIFIER_LENGTH in
  let* cs := CharStream_write cs [Some (th_major h)] ID3v2_TAG_HEADER_MAJOR_VERSION_LENGTH in
  let* cs := CharStream_write cs [Some (th_minor h)] ID3v2_TAG_HEADER_MINOR_VERSION_LENGTH in
  let* cs := CharStream_write cs [Some (th_flags h)] ID3v2_TAG_HEADER_FLAGS_LENGTH in
  let* enc := syncint_encode (to_i32 (th_tag_size h)) in
  let* cs := CharStream_write cs (itob enc) ID3v2_TAG_HEADER_TAG_SIZE_LENGTH in
  match t_frames tag with
  | [] => Ub NullDeref
  | n :: _ =>
      match n_frame n with
      | None => Ok cs
      | Some _ => write_frames cs (t_frames tag)
      end
  end.

(** ** Getters; a NULL tag is [None] *)

(** tag.c:111-115 ID3v2_Tag_get_frame. *)
Definition ID3v2_Tag_get_frame (tag : option Tag) (frame_id : cptr) : outcome (option fptr) :=
  match tag with
  | None => Ok None
  | Some t => FrameList_get_frame_by_id (t_frames t) frame_id
  end.

(** tag.c:117-121 ID3v2_Tag_get_frames; a NULL list is []. *)
Definition ID3v2_Tag_get_frames (tag : option Tag) (frame_id : cptr) : outcome flist :=
  match tag with
  | None => Ok []
  | Some t => FrameList_get_frames_by_id (t_frames t) frame_id
  end.

(** tag.c:123-126 *)
Definition ID3v2_Tag_get_artist_frame (tag : option Tag) : outcome (option fptr) :=
  ID3v2_Tag_get_frame tag ID3v2_ARTIST_FRAME_ID.
(** tag.c:128-131 *)
Definition ID3v2_Tag_get_album_frame (tag : option Tag) : outcome (option fptr) :=
  ID3v2_Tag_get_frame tag ID3v2_ALBUM_FRAME_ID.
(** tag.c:133-136 *)
Definition ID3v2_Tag_get_title_frame (tag : option Tag) : outcome (option fptr) :=
  ID3v2_Tag_get_frame tag ID3v2_TITLE_FRAME_ID.
(** tag.c:138-141 *)
Definition ID3v2_Tag_get_track_frame (tag : option Tag) : outcome (option fptr) :=
  ID3v2_Tag_get_frame tag ID3v2_TRACK_FRAME_ID.
(** tag.c:143-146 *)
Definition ID3v2_Tag_get_album_artist_frame (tag : option Tag) : outcome (option fptr) :=
  ID3v2_Tag_get_frame tag ID3v2_ALBUM_ARTIST_FRAME_ID.
(** tag.c:148-151 *)
Definition ID3v2_Tag_get_genre_frame (tag : option Tag) : outcome (option fptr) :=
  ID3v2_Tag_get_frame tag ID3v2_GENRE_FRAME_ID.
(** tag.c:153-156 *)
Definition ID3v2_Tag_get_year_frame (tag : option Tag) : outcome (option fptr) :=
  ID3v2_Tag_get_frame tag ID3v2_YEAR_FRAME_ID.
(** tag.c:158-161 *)
Definition ID3v2_Tag_get_disc_number_frame (tag : option Tag) : outcome (option fptr) :=
  ID3v2_Tag_get_frame tag ID3v2_DISC_NUMBER_FRAME_ID.
(** tag.c:163-166 *)
Definition ID3v2_Tag_get_composer_frame (tag : option Tag) : outcome (option fptr) :=
  ID3v2_Tag_get_frame tag ID3v2_COMPOSER_FRAME_ID.
(** tag.c:173-176 *)
Definition ID3v2_Tag_get_comment_frame (tag : option Tag) : outcome (option fptr) :=
  ID3v2_Tag_get_frame tag ID3v2_COMMENT_FRAME_ID.
(** tag.c:183-186 *)
Definition ID3v2_Tag_get_comment_frames (tag : option Tag) : outcome flist :=
  ID3v2_Tag_get_frames tag ID3v2_COMMENT_FRAME_ID.
(** tag.c:188-191 *)
Definition ID3v2_Tag_get_album_cover_frame (tag : option Tag) : outcome (option fptr) :=
  ID3v2_Tag_get_frame tag ID3v2_ALBUM_COVER_FRAME_ID.
(** tag.c:193-196 *)
Definition ID3v2_Tag_get_apic_frames (tag : option Tag) : outcome flist :=
  ID3v2_Tag_get_frames tag ID3v2_ALBUM_COVER_FRAME_ID.

(** ** Setters.  They take a non-NULL tag and input pointer. *)

(** header->tag_size is unsigned: updates wrap mod 2^32. *)
Definition with_tag_size (h : TagHeader) (s : Z) : TagHeader :=
  mkTH (th_identifier h) (th_major h) (th_minor h) (th_flags h) (to_u32 s) (th_ext_size h).

(** The tag after one more frame has been allocated for it. *)
Definition with_frames (t : Tag) (h : TagHeader) (frames : flist) : Tag :=
  mkTag h frames (t_padding t) (S (t_fresh t)).

(** The common tail of the three set functions (tag.c:207-221, 341-355,
    394-408): add the new frame, or replace the existing one.  Note that
    tag_size grows by the frame's size without its 10-byte header. *)
Definition install_frame (tag : Tag) (existing_frame : option fptr) (new_frame : frame) : outcome Tag :=
  let p := (t_fresh tag, new_frame) in
  let h := t_header tag in
  match existing_frame with
  | None =>
      let* frames := FrameList_add_frame (t_frames tag) p in
      Ok (with_frames tag (with_tag_size h (th_tag_size h + fh_size (f_hdr new_frame))) frames)
  | Some e =>
      let frames := FrameList_replace_frame (t_frames tag) (Some e) p in
      let* d := isub (fh_size (f_hdr new_frame)) (fh_size (f_hdr (fp_frame e))) in
      Ok (with_frames tag (with_tag_size h (th_tag_size h + d)) frames)
  end.

(** The tail of the two add functions (tag.c:362-363, 421-422). *)
Definition append_frame (tag : Tag) (new_frame : frame) : outcome Tag :=
  install_frame tag None new_frame.

(** tag.h:65-70 *)
Record TextFrameInput := mkTextInput { ti_id : cptr; ti_flags : cptr; ti_text : cptr }.

(** tag.c:201-222 ID3v2_Tag_set_text_frame. *)
Definition ID3v2_Tag_set_text_frame (tag : Tag) (input : TextFrameInput) : outcome Tag :=
  let* new_frame := TextFrame_new (ti_id input) (ti_flags input) (ti_text input) in
  let* existing_frame := FrameList_get_frame_by_id (t_frames tag) (ti_id input) in
  install_frame tag existing_frame new_frame.

(** The literal "\0\0" (two zeros and the terminator). *)
Definition NO_FLAGS : cptr := Some (cells [x00; x00; x00]).

(** tag.c:224-234 *)
Definition ID3v2_Tag_set_artist (tag : Tag) (artist : cptr) : outcome Tag :=
  ID3v2_Tag_set_text_frame tag (mkTextInput ID3v2_ARTIST_FRAME_ID NO_FLAGS artist).
(** tag.c:236-246 *)
Definition ID3v2_Tag_set_album (tag : Tag) (album : cptr) : outcome Tag :=
  ID3v2_Tag_set_text_frame tag (mkTextInput ID3v2_ALBUM_FRAME_ID NO_FLAGS album).
(** tag.c:248-258 *)
Definition ID3v2_Tag_set_title (tag : Tag) (title : cptr) : outcome Tag :=
  ID3v2_Tag_set_text_frame tag (mkTextInput ID3v2_TITLE_FRAME_ID NO_FLAGS title).
(** tag.c:260-270 *)
Definition ID3v2_Tag_set_track (tag : Tag) (track : cptr) : outcome Tag :=
  ID3v2_Tag_set_text_frame tag (mkTextInput ID3v2_TRACK_FRAME_ID NO_FLAGS track).
(** tag.c:272-282 *)
Definition ID3v2_Tag_set_album_artist (tag : Tag) (album_artist : cptr) : outcome Tag :=
  ID3v2_Tag_set_text_frame tag (mkTextInput ID3v2_ALBUM_ARTIST_FRAME_ID NO_FLAGS album_artist).
(** tag.c:284-294 *)
Definition ID3v2_Tag_set_genre (tag : Tag) (genre : cptr) : outcome Tag :=
  ID3v2_Tag_set_text_frame tag (mkTextInput ID3v2_GENRE_FRAME_ID NO_FLAGS genre).
(** tag.c:296-306 *)
Definition ID3v2_Tag_set_year (tag : Tag) (year : cptr) : outcome Tag :=
  ID3v2_Tag_set_text_frame tag (mkTextInput ID3v2_YEAR_FRAME_ID NO_FLAGS year).
(** tag.c:308-318 *)
Definition ID3v2_Tag_set_disc_number (tag : Tag) (disc_number : cptr) : outcome Tag :=
  ID3v2_Tag_set_text_frame tag (mkTextInput ID3v2_DISC_NUMBER_FRAME_ID NO_FLAGS disc_number).
(** tag.c:320-330 *)
Definition ID3v2_Tag_set_composer (tag : Tag) (composer : cptr) : outcome Tag :=
  ID3v2_Tag_set_text_frame tag (mkTextInput ID3v2_COMPOSER_FRAME_ID NO_FLAGS composer).

(** tag.h:84-90 *)
Record CommentFrameInput := mkCommentInput {
  ci_flags : cptr; ci_language : cptr; ci_short_description : cptr; ci_comment : cptr }.

(** tag.c:335-356 ID3v2_Tag_set_comment_frame. *)
Definition ID3v2_Tag_set_comment_frame (tag : Tag) (input : CommentFrameInput) : outcome Tag :=
  let* new_frame := CommentFrame_new (ci_flags input) (ci_language input)
                                     (ci_short_description input) (ci_comment input) in
  let* existing_frame := ID3v2_Tag_get_comment_frame (Some tag) in
  install_frame tag existing_frame new_frame.

(** tag.c:358-364 ID3v2_Tag_add_comment_frame. *)
Definition ID3v2_Tag_add_comment_frame (tag : Tag) (input : CommentFrameInput) : outcome Tag :=
  let* new_frame := CommentFrame_new (ci_flags input) (ci_language input)
                                     (ci_short_description input) (ci_comment input) in
  append_frame tag new_frame.

(** tag.c:366-377 ID3v2_Tag_set_comment. *)
Definition ID3v2_Tag_set_comment (tag : Tag) (lang comment : cptr) : outcome Tag :=
  ID3v2_Tag_set_comment_frame tag (mkCommentInput NO_FLAGS lang EMPTY_UNICODE_STR comment).

(** tag.h:97-105 *)
Record ApicFrameInput := mkApicInput {
  ai_flags : cptr; ai_mime_type : cptr; ai_description : cptr;
  ai_picture_type : byte; ai_picture_size : Z; ai_data : cptr }.

(** tag.c:382-409 ID3v2_Tag_set_apic_frame. *)
Definition ID3v2_Tag_set_apic_frame (tag : Tag) (input : ApicFrameInput) : outcome Tag :=
  let* new_frame := ApicFrame_new (ai_flags input) (ai_description input) (ai_picture_type input)
                                  (ai_mime_type input) (ai_picture_size input) (ai_data input) in
  let* existing_frame := ID3v2_Tag_get_album_cover_frame (Some tag) in
  install_frame tag existing_frame new_frame.

(** tag.c:411-423 ID3v2_Tag_add_apic_frame. *)
Definition ID3v2_Tag_add_apic_frame (tag : Tag) (input : ApicFrameInput) : outcome Tag :=
  let* new_frame := ApicFrame_new (ai_flags input) (ai_description input) (ai_picture_type input)
                                  (ai_mime_type input) (ai_picture_size input) (ai_data input) in
  append_frame tag new_frame.

(** tag.c:428-446 ID3v2_Tag_set_album_cover. *)
Definition ID3v2_Tag_set_album_cover (tag : Tag) (mime_type : cptr) (size : Z) (data : cptr) : outcome Tag :=
  ID3v2_Tag_set_apic_frame tag
    (mkApicInput NO_FLAGS mime_type EMPTY_UNICODE_STR ID3v2_PIC_TYPE_FRONT_COVER size data).

(** ** Delete functions *)

(** tag.c:455-462 ID3v2_Tag_delete_frame. *)
Definition ID3v2_Tag_delete_frame (tag : Tag) (frame_id : cptr) : outcome Tag :=
  let* (deleted, frames) := FrameList_remove_frame_by_id (t_frames tag) frame_id in
  let* p := deref deleted in
  let h := t_header tag in
  let* n := iadd (fh_size (f_hdr (fp_frame p))) ID3v2_FRAME_HEADER_LENGTH in
  Ok (mkTag (with_tag_size h (th_tag_size h - n)) frames (t_padding tag) (t_fresh tag)).

(** tag.c:464-467 *)
Definition ID3v2_Tag_delete_artist (tag : Tag) : outcome Tag :=
  ID3v2_Tag_delete_frame tag ID3v2_ARTIST_FRAME_ID.
(** tag.c:469-472 *)
Definition ID3v2_Tag_delete_album (tag : Tag) : outcome Tag :=
  ID3v2_Tag_delete_frame tag ID3v2_ALBUM_FRAME_ID.
(** tag.c:474-477 *)
Definition ID3v2_Tag_delete_title (tag : Tag) : outcome Tag :=
  ID3v2_Tag_delete_frame tag ID3v2_TITLE_FRAME_ID.
(** tag.c:479-482 *)
Definition ID3v2_Tag_delete_track (tag : Tag) : outcome Tag :=
  ID3v2_Tag_delete_frame tag ID3v2_TRACK_FRAME_ID.
(** tag.c:484-487 *)
Definition ID3v2_Tag_delete_album_artist (tag : Tag) : outcome Tag :=
  ID3v2_Tag_delete_frame tag ID3v2_ALBUM_ARTIST_FRAME_ID.
(** tag.c:489-492 *)
Definition ID3v2_Tag_delete_genre (tag : Tag) : outcome Tag :=
  ID3v2_Tag_delete_frame tag ID3v2_GENRE_FRAME_ID.
(** tag.c:494-497 *)
Definition ID3v2_Tag_delete_year (tag : Tag) : outcome Tag :=
  ID3v2_Tag_delete_frame tag ID3v2_YEAR_FRAME_ID.
(** tag.c:499-502 *)
Definition ID3v2_Tag_delete_disc_number (tag : Tag) : outcome Tag :=
  ID3v2_Tag_delete_frame tag ID3v2_DISC_NUMBER_FRAME_ID.
(** tag.c:504-507 *)
Definition ID3v2_Tag_delete_composer (tag : Tag) : outcome Tag :=
  ID3v2_Tag_delete_frame tag ID3v2_COMPOSER_FRAME_ID.
(** tag.c:532-535 *)
Definition ID3v2_Tag_delete_comment (tag : Tag) : outcome Tag :=
  ID3v2_Tag_delete_frame tag ID3v2_COMMENT_FRAME_ID.
(** tag.c:560-563 *)
Definition ID3v2_Tag_delete_album_cover (tag : Tag) : outcome Tag :=
  ID3v2_Tag_delete_frame tag ID3v2_ALBUM_COVER_FRAME_ID.

(** tag.c:514-527 and 542-555: walk the sublist [head]; at position [index]
    remove that frame from the tag's list. *)
Fixpoint delete_nth_loop (head : flist) (i index : Z) (frames : flist) : flist :=
  match head with
  | [] => frames
  | n :: rest =>
      if i =? index then snd (FrameList_remove_frame frames (n_frame n))
      else delete_nth_loop rest (i + 1) index frames
  end.

(** tag.c:509-530 ID3v2_Tag_delete_comment_frame. *)
Definition ID3v2_Tag_delete_comment_frame (tag : Tag) (index : Z) : outcome Tag :=
  let* head := ID3v2_Tag_get_comment_frames (Some tag) in
  Ok (mkTag (t_header tag) (delete_nth_loop head 0 index (t_frames tag))
            (t_padding tag) (t_fresh tag)).

(** tag.c:537-558 ID3v2_Tag_delete_apic_frame. *)
Definition ID3v2_Tag_delete_apic_frame (tag : Tag) (index : Z) : outcome Tag :=
  let* head := ID3v2_Tag_get_apic_frames (Some tag) in
  Ok (mkTag (t_header tag) (delete_nth_loop head 0 index (t_frames tag))
            (t_padding tag) (t_fresh tag)).
