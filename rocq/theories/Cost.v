(** The functions once more, with the rounds that their loops make.

    Counted are the rounds of every loop over a list, over the frames of a
    buffer and over the characters of a file, and in ID3v2_to_unicode the
    characters that strlen looks at.  Not counted: loops of at most four rounds
    (btoi, itob, syncint_encode), the search for the end of a UTF-16 string
    (utils.c:60-71), and what the C library does in memcpy, memcmp, strncmp,
    malloc, fread and fwrite. *)
From Verif Require Export File Calls.

(** A result and the rounds made for it. *)
Definition timed (A : Type) := outcome (A * Z).
Definition no_rounds {A} (x : outcome A) : timed A := let* a := x in Ok (a, 0).
Definition tbind {A B} (x : timed A) (f : A -> timed B) : timed B :=
  let* (a, n) := x in let* (b, m) := f a in Ok (b, n + m).
Definition rounds {A} (n : Z) (x : timed A) : timed A := let* (a, m) := x in Ok (a, n + m).

Notation "'let^' x := e 'in' k" := (tbind e (fun x => k)) (at level 200, x pattern, right associativity).

(** ** frame_list.c *)

(** frame_list.c:48-51: from a node to the last one. *)
Fixpoint to_last (l : flist) : Z :=
  match l with
  | _ :: (_ :: _) as rest => 1 + to_last rest
  | _ => 0
  end.

(** frame_list.c:33-55 FrameList_add_frame. *)
Definition FrameList_add_frame_t (l : flist) (f : fptr) : timed flist :=
  match l with
  | [] => Ub NullDeref
  | n :: rest =>
      if negb (n_start n) then Ok (mkNode (Some f) true :: rest, 0)
      else rounds (to_last (n :: rest)) (Ok ((n :: rest) ++ [mkNode (Some f) true], 0))
  end.

(** frame_list.c:60-73 FrameList_get_frame_by_id. *)
Fixpoint FrameList_get_frame_by_id_t (l : flist) (frame_id : cptr) : timed (option fptr) :=
  match l with
  | [] => Ok (None, 0)
  | n :: rest =>
      match n_frame n with
      | None => Ok (None, 0)
      | Some p => rounds 1 (
          let* m := id_matches (fp_frame p) frame_id in
          if m then Ok (Some p, 0) else FrameList_get_frame_by_id_t rest frame_id)
      end
  end.

(** frame_list.c:82-90, the loop of FrameList_get_frames_by_id. *)
Fixpoint get_frames_loop_t (l : flist) (frame_id : cptr) (sublist : flist) : timed flist :=
  match l with
  | [] => Ok (sublist, 0)
  | n :: rest =>
      match n_frame n with
      | None => Ok (sublist, 0)
      | Some p => rounds 1 (
          let* m := id_matches (fp_frame p) frame_id in
          if m then
            let^ sublist := FrameList_add_frame_t sublist p in
            get_frames_loop_t rest frame_id sublist
          else get_frames_loop_t rest frame_id sublist)
      end
  end.

(** frame_list.c:78-93 FrameList_get_frames_by_id. *)
Definition FrameList_get_frames_by_id_t (l : flist) (frame_id : cptr) : timed flist :=
  get_frames_loop_t l frame_id FrameList_new.

(** frame_list.c:116-135 FrameList_remove_frame_by_id. *)
Fixpoint FrameList_remove_frame_by_id_t (l : flist) (frame_id : cptr) : timed (option fptr * flist) :=
  match l with
  | [] => Ok ((None, []), 0)
  | n :: rest => rounds 1 (
      let* p := deref (n_frame n) in
      let* m := id_matches (fp_frame p) frame_id in
      if m then Ok ((Some p, unlink_node rest), 0)
      else
        let^ (r, rest') := FrameList_remove_frame_by_id_t rest frame_id in
        Ok ((r, n :: rest'), 0))
  end.

(** The rounds of frame_list.c:141-152 and 165-174, which look for a pointer. *)
Fixpoint to_frame (l : flist) (p : option fptr) : Z :=
  match l with
  | [] => 0
  | n :: rest => 1 + (if same_ptr (n_frame n) p then 0 else to_frame rest p)
  end.

(** frame_list.c:137-155 FrameList_remove_frame. *)
Definition FrameList_remove_frame_t (l : flist) (p : option fptr) : timed (option fptr * flist) :=
  rounds (to_frame l p) (Ok (FrameList_remove_frame l p, 0)).

(** frame_list.c:161-175 FrameList_replace_frame. *)
Definition FrameList_replace_frame_t (l : flist) (old_frame : option fptr) (new_frame : fptr) : timed flist :=
  rounds (to_frame l old_frame) (Ok (FrameList_replace_frame l old_frame new_frame, 0)).

(** ** tag.c *)

(** tag.c:57-63, the loop of Tag_parse. *)
Fixpoint parse_loop_t (fuel : nat) (tag_size ver : Z) (cs : CharStream) (frames : flist) (fresh : nat)
  : timed (flist * nat * CharStream) :=
  if to_u32 (cs_cursor cs) <? tag_size then
    match fuel with
    | O => NoFuel
    | S fuel' => rounds 1 (
        let* (current_frame, cs) := Frame_parse cs ver in
        match current_frame with
        | None => Ok ((frames, fresh, cs), 0)
        | Some f =>
            let^ frames := FrameList_add_frame_t frames (fresh, f) in
            parse_loop_t fuel' tag_size ver cs frames (S fresh)
        end)
    end
  else Ok ((frames, fresh, cs), 0).

(** tag.c:44-68 Tag_parse. *)
Definition Tag_parse_t (cs : CharStream) : timed (option Tag) :=
  let* (header, cs) := TagHeader_parse cs in
  match header with
  | None => Ok (None, 0)
  | Some h =>
      let tag := ID3v2_Tag_new (Some h) 0 in
      let* cs :=
        if 0 <? th_ext_size h
        then CharStream_seek cs (to_i32 (th_ext_size h)) SEEK_SET
        else Ok cs in
      let^ (frames, fresh, cs) :=
        parse_loop_t (length (cs_stream cs) + 2) (th_tag_size h) (schar (th_major h))
                     cs (t_frames tag) (t_fresh tag) in
      no_rounds (
        let* padding := isub (cs_size cs) (cs_cursor cs) in
        Ok (Some (mkTag h frames padding fresh)))
  end.

(** tag.c:111-115 ID3v2_Tag_get_frame. *)
Definition ID3v2_Tag_get_frame_t (tag : option Tag) (frame_id : cptr) : timed (option fptr) :=
  match tag with
  | None => no_rounds (ID3v2_Tag_get_frame None frame_id)
  | Some t => FrameList_get_frame_by_id_t (t_frames t) frame_id
  end.
(** tag.c:117-121 ID3v2_Tag_get_frames. *)
Definition ID3v2_Tag_get_frames_t (tag : option Tag) (frame_id : cptr) : timed flist :=
  match tag with
  | None => no_rounds (ID3v2_Tag_get_frames None frame_id)
  | Some t => FrameList_get_frames_by_id_t (t_frames t) frame_id
  end.

(** tag.c:207-221, 341-355, 394-408: the tail of the set functions. *)
Definition install_frame_t (tag : Tag) (existing_frame : option fptr) (new_frame : frame) : timed Tag :=
  let p := (t_fresh tag, new_frame) in
  let h := t_header tag in
  match existing_frame with
  | None =>
      let^ frames := FrameList_add_frame_t (t_frames tag) p in
      Ok (with_frames tag (with_tag_size h (th_tag_size h + fh_size (f_hdr new_frame))) frames, 0)
  | Some e =>
      let^ frames := FrameList_replace_frame_t (t_frames tag) (Some e) p in
      no_rounds (
        let* d := isub (fh_size (f_hdr new_frame)) (fh_size (f_hdr (fp_frame e))) in
        Ok (with_frames tag (with_tag_size h (th_tag_size h + d)) frames))
  end.

(** tag.c:201-222, 335-356, 382-409: a new frame is made, and an existing one
    looked for. *)
Definition set_frame_t (tag : Tag) (new_frame : outcome frame) (id : cptr) : timed Tag :=
  let* new_frame := new_frame in
  let^ existing_frame := FrameList_get_frame_by_id_t (t_frames tag) id in
  install_frame_t tag existing_frame new_frame.

(** tag.c:358-364, 411-423. *)
Definition add_frame_t (tag : Tag) (new_frame : outcome frame) : timed Tag :=
  let* new_frame := new_frame in
  install_frame_t tag None new_frame.

(** tag.c:455-462 ID3v2_Tag_delete_frame. *)
Definition ID3v2_Tag_delete_frame_t (tag : Tag) (frame_id : cptr) : timed Tag :=
  let^ (deleted, frames) := FrameList_remove_frame_by_id_t (t_frames tag) frame_id in
  no_rounds (
    let* p := deref deleted in
    let h := t_header tag in
    let* n := iadd (fh_size (f_hdr (fp_frame p))) ID3v2_FRAME_HEADER_LENGTH in
    Ok (mkTag (with_tag_size h (th_tag_size h - n)) frames (t_padding tag) (t_fresh tag))).

(** tag.c:514-529 and 542-557 (unlink: 529, 557): the loop, and ID3v2_FrameList_unlink
    (frame_list.c:106-114) of what is left of the sublist. *)
Fixpoint delete_nth_loop_t (head : flist) (i index : Z) (frames : flist) : timed flist :=
  match head with
  | [] => Ok (frames, 0)
  | n :: rest => rounds 1 (
      if i =? index then
        let^ (_, frames) := FrameList_remove_frame_t frames (n_frame n) in
        rounds (zlen (n :: rest)) (Ok (frames, 0))
      else delete_nth_loop_t rest (i + 1) index frames)
  end.

(** tag.c:509-530, 537-558. *)
Definition delete_nth_t (tag : Tag) (frame_id : cptr) (index : Z) : timed Tag :=
  let^ head := ID3v2_Tag_get_frames_t (Some tag) frame_id in
  let^ frames := delete_nth_loop_t head 0 index (t_frames tag) in
  Ok (mkTag (t_header tag) frames (t_padding tag) (t_fresh tag), 0).

(** Every call that changes a tag, as in Calls.v. *)
Definition run_call_t (t : Tag) (c : call) : timed Tag :=
  let text id fl s := set_frame_t t (TextFrame_new id fl s) id in
  let comment fl l d c := CommentFrame_new fl l d c in
  match c with
  | SetTextFrame i => text (ti_id i) (ti_flags i) (ti_text i)
  | SetArtist s => text ID3v2_ARTIST_FRAME_ID NO_FLAGS s
  | SetAlbum s => text ID3v2_ALBUM_FRAME_ID NO_FLAGS s
  | SetTitle s => text ID3v2_TITLE_FRAME_ID NO_FLAGS s
  | SetTrack s => text ID3v2_TRACK_FRAME_ID NO_FLAGS s
  | SetAlbumArtist s => text ID3v2_ALBUM_ARTIST_FRAME_ID NO_FLAGS s
  | SetGenre s => text ID3v2_GENRE_FRAME_ID NO_FLAGS s
  | SetYear s => text ID3v2_YEAR_FRAME_ID NO_FLAGS s
  | SetDiscNumber s => text ID3v2_DISC_NUMBER_FRAME_ID NO_FLAGS s
  | SetComposer s => text ID3v2_COMPOSER_FRAME_ID NO_FLAGS s
  | SetCommentFrame i =>
      set_frame_t t (comment (ci_flags i) (ci_language i) (ci_short_description i) (ci_comment i)) ID3v2_COMMENT_FRAME_ID
  | AddCommentFrame i =>
      add_frame_t t (comment (ci_flags i) (ci_language i) (ci_short_description i) (ci_comment i))
  | SetComment l c => set_frame_t t (comment NO_FLAGS l EMPTY_UNICODE_STR c) ID3v2_COMMENT_FRAME_ID
  | SetApicFrame i =>
      set_frame_t t (ApicFrame_new (ai_flags i) (ai_description i) (ai_picture_type i)
                       (ai_mime_type i) (ai_picture_size i) (ai_data i)) ID3v2_ALBUM_COVER_FRAME_ID
  | AddApicFrame i =>
      add_frame_t t (ApicFrame_new (ai_flags i) (ai_description i) (ai_picture_type i)
                       (ai_mime_type i) (ai_picture_size i) (ai_data i))
  | SetAlbumCover m n d =>
      set_frame_t t (ApicFrame_new NO_FLAGS EMPTY_UNICODE_STR ID3v2_PIC_TYPE_FRONT_COVER m n d) ID3v2_ALBUM_COVER_FRAME_ID
  | DeleteFrame id => ID3v2_Tag_delete_frame_t t id
  | DeleteArtist => ID3v2_Tag_delete_frame_t t ID3v2_ARTIST_FRAME_ID
  | DeleteAlbum => ID3v2_Tag_delete_frame_t t ID3v2_ALBUM_FRAME_ID
  | DeleteTitle => ID3v2_Tag_delete_frame_t t ID3v2_TITLE_FRAME_ID
  | DeleteTrack => ID3v2_Tag_delete_frame_t t ID3v2_TRACK_FRAME_ID
  | DeleteAlbumArtist => ID3v2_Tag_delete_frame_t t ID3v2_ALBUM_ARTIST_FRAME_ID
  | DeleteGenre => ID3v2_Tag_delete_frame_t t ID3v2_GENRE_FRAME_ID
  | DeleteYear => ID3v2_Tag_delete_frame_t t ID3v2_YEAR_FRAME_ID
  | DeleteDiscNumber => ID3v2_Tag_delete_frame_t t ID3v2_DISC_NUMBER_FRAME_ID
  | DeleteComposer => ID3v2_Tag_delete_frame_t t ID3v2_COMPOSER_FRAME_ID
  | DeleteComment => ID3v2_Tag_delete_frame_t t ID3v2_COMMENT_FRAME_ID
  | DeleteAlbumCover => ID3v2_Tag_delete_frame_t t ID3v2_ALBUM_COVER_FRAME_ID
  | DeleteCommentFrame i => delete_nth_t t ID3v2_COMMENT_FRAME_ID i
  | DeleteApicFrame i => delete_nth_t t ID3v2_ALBUM_COVER_FRAME_ID i
  end.

(** tag.c:93-103, the frame loop of Tag_to_char_stream. *)
Fixpoint write_frames_t (cs : CharStream) (frames : flist) : timed CharStream :=
  match frames with
  | [] => Ok (cs, 0)
  | n :: rest => rounds 1 (
      let* frame_cs := Frame_to_char_stream (option_map fp_frame (n_frame n)) in
      match frame_cs with
      | None => Exit 1
      | Some fcs =>
          let* cs := CharStream_write cs (cs_stream fcs) (cs_size fcs) in
          write_frames_t cs rest
      end)
  end.

(** tag.c:70-106 Tag_to_char_stream. *)
Definition Tag_to_char_stream_t (tag : Tag) : timed CharStream :=
  let h := t_header tag in
  let* cs := CharStream_new (to_i32 (to_u32 (th_tag_size h + ID3v2_TAG_HEADER_LENGTH))) in
  let* cs := CharStream_write cs (cells (th_identifier h)) ID3v2_TAG_HEADER_IDENTIFIER_LENGTH in
  let* cs := CharStream_write cs [Some (th_major h)] ID3v2_TAG_HEADER_MAJOR_VERSION_LENGTH in
  let* cs := CharStream_write cs [Some (th_minor h)] ID3v2_TAG_HEADER_MINOR_VERSION_LENGTH in
  let* cs := CharStream_write cs [Some (th_flags h)] ID3v2_TAG_HEADER_FLAGS_LENGTH in
  let* enc := syncint_encode (to_i32 (th_tag_size h)) in
  let* cs := CharStream_write cs (itob enc) ID3v2_TAG_HEADER_TAG_SIZE_LENGTH in
  match t_frames tag with
  | [] => Ub NullDeref
  | n :: _ =>
      match n_frame n with
      | None => Ok (cs, 0)
      | Some _ => write_frames_t cs (t_frames tag)
      end
  end.

(** ** id3v2lib.c *)

(** id3v2lib.c:74-80 ID3v2_read_tag_from_buffer. *)
Definition ID3v2_read_tag_from_buffer_t (tag_buffer : cptr) (buffer_length : Z) : timed (option Tag) :=
  let* tag_cs := CharStream_from_buffer tag_buffer buffer_length in
  Tag_parse_t tag_cs.

(** The copying loops: id3v2lib.c:112-115, 122-125, 146-149, 156-159. *)
Fixpoint copy_loop_t (src dst : list byte) : timed (list byte) :=
  match src with
  | [] => Ok (dst, 0)
  | c :: src => rounds 1 (copy_loop_t src (dst ++ [c]))
  end.

(** id3v2lib.c:82-131 ID3v2_write_tag. *)
Definition ID3v2_write_tag_t (f : file) (tagp : option Tag) : timed (file * option Tag) :=
  match tagp with
  | None => Ok ((f, None), 0)
  | Some tag =>
      let* existing := ID3v2_read_tag_header f in
      let original_size := match existing with Some h => declared_length h | None => 0 end in
      let* d := isub ID3v2_TAG_DEFAULT_PADDING_LENGTH (t_padding tag) in
      let extra := clamp_int d 0 ID3v2_TAG_DEFAULT_PADDING_LENGTH in
      let* padding := iadd (t_padding tag) extra in
      let tag := mkTag (t_header tag) (t_frames tag) padding (t_fresh tag) in
      let^ tag_cs := Tag_to_char_stream_t tag in
      let* temp := fwrite_bytes (firstn (Z.to_nat (cs_size tag_cs)) (cs_stream tag_cs)) in
      match f with
      | None => Ub NullDeref
      | Some content =>
          let^ temp := copy_loop_t (from_offset content original_size) temp in
          let^ stored := copy_loop_t temp [] in
          Ok ((Some stored, Some tag), 0)
      end
  end.

(** id3v2lib.c:133-165 ID3v2_delete_tag. *)
Definition ID3v2_delete_tag_t (f : file) : timed file :=
  let* tag_header := ID3v2_read_tag_header f in
  match tag_header with
  | None => Ok (f, 0)
  | Some h =>
      match f with
      | None => Ub NullDeref
      | Some content =>
          let^ temp := copy_loop_t (from_offset content (declared_length h)) [] in
          let^ stored := copy_loop_t temp [] in
          Ok (Some stored, 0)
      end
  end.

(** ** utils.c *)

(** strlen: one round per character, the terminator included. *)
Definition strlen_t (m : mem) : timed Z :=
  let* n := c_strlen m in Ok (n, n + 1).

(** utils.c:35-39: strlen is called anew for the test before every round and
    for the one that ends the loop. *)
Fixpoint widen_t (n : nat) (string m : mem) : timed mem :=
  let^ _ := strlen_t string in
  match n, m with
  | S n', c :: m' => rounds 1 (let^ r := widen_t n' string m' in Ok (c :: Some x00 :: r, 0))
  | _, _ => Ok ([], 0)
  end.

(** utils.c:19-46 ID3v2_to_unicode. *)
Definition ID3v2_to_unicode_t (p : cptr) : timed unicode_result :=
  let* bom := string_has_bom p in
  if bom then Ok (SamePointer, 0)
  else
    match p with
    | None => Ub NullDeref
    | Some m =>
        let^ n := strlen_t m in
        if 2 ^ 31 <=? n * 2 + 2 + 2 then Ub BadSize
        else
          let^ w := widen_t (Z.to_nat n) m m in
          Ok (Fresh ([Some xff; Some xfe] ++ w ++ [Some x00; Some x00]), 0)
    end.

(** id3v2lib.c:45-72 ID3v2_read_tag. *)
Definition ID3v2_read_tag_t (f : file) : timed (option Tag) :=
  let* tag_header := ID3v2_read_tag_header f in
  match tag_header with
  | None => Ok (None, 0)
  | Some h =>
      match f with
      | None => Ub NullDeref
      | Some content =>
          let buffer_length := declared_length h in
          ID3v2_read_tag_from_buffer_t (Some (fread_into content buffer_length)) buffer_length
      end
  end.
