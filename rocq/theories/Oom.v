(** The functions that allocate memory once more, for an allocator that may
    refuse: malloc and calloc can return NULL at any request.  (Elsewhere every
    request is granted, except at id3v2lib.c:53 and compat.c:131 in FileFail.v.)

    Simplifications: a request for no bytes counts as granted (the pointer is
    not used either way); memcpy of no bytes to a NULL pointer does nothing;
    what the C library allocates for itself (fopen, tmpfile) is not refused
    here (see FileFail.v and Stdio.v for failing opens). *)
From Verif Require Export File Calls Compat.

(** Where memory is asked for, and how many bytes when it is not a struct. *)
Inductive request :=
| RUnicode (n : Z)      (* utils.c:29 *)
| RInt                  (* utils.c:98 *)
| RStream               (* char_stream.c:20,29 *)
| RStreamBytes (n : Z)  (* char_stream.c:21,30 *)
| RTagHeader            (* tag_header.c:28 *)
| RFrameHeader          (* frame_header.c:22 *)
| RFrame                (* text_frame.c:23, comment_frame.c:29, apic_frame.c:32, frame.c:51 *)
| RTextData             (* text_frame.c:82 *)
| RCommentData          (* comment_frame.c:109 *)
| RApicData             (* apic_frame.c:115 *)
| RString (n : Z)       (* text_frame.c:83, comment_frame.c:117,120, apic_frame.c:121,125 *)
| RPicture (n : Z)      (* apic_frame.c:132 *)
| RRaw (n : Z)          (* frame.c:53 *)
| RNode                 (* frame_list.c:21 *)
| RTag                  (* tag.c:31 *)
| RFile (n : Z)         (* id3v2lib.c:53 *)
| RCompatNode           (* compat.c:25 *)
| RCompatFrame          (* compat.c:39 *)
| RCompatData (n : Z)   (* compat.c:49 *)
| RCompatTag            (* compat.c:114,146 *)
| RCompatHeader         (* compat.c:115,148 *)
| RCompatRaw (n : Z)    (* compat.c:150 *)
| RCompatFile (n : Z)   (* compat.c:131 *)
| RContent              (* compat.c:274,288,293,304 *)
| RContentData (n : Z)  (* compat.c:279 *)
| RCover (n : Z).       (* compat.c:428 *)

(** A request for no bytes. *)
Definition no_bytes (r : request) : bool :=
  match r with
  | RUnicode n | RStreamBytes n | RString n | RPicture n | RRaw n | RFile n
  | RCompatData n | RCompatRaw n | RCompatFile n | RContentData n | RCover n => n =? 0
  | _ => false
  end.

(** The requests made so far, the last one first, and whether each was
    granted. *)
Definition log := list (request * bool).

(** What an allocator does: whether it grants a request, knowing what was asked
    for before. *)
Definition allocator := log -> request -> bool.

Definition oom (A : Type) := allocator -> log -> outcome A * log.

Definition ret {A} (a : A) : oom A := fun _ l => (Ok a, l).
Definition lift {A} (o : outcome A) : oom A := fun _ l => (o, l).
Definition bindo {A B} (m : oom A) (k : A -> oom B) : oom B := fun M l =>
  match m M l with
  | (Ok a, l) => k a M l
  | (Ub u, l) => (Ub u, l)
  | (Exit n, l) => (Exit n, l)
  | (NoFuel, l) => (NoFuel, l)
  end.
Notation "'let#' x := m 'in' k" := (bindo m (fun x => k)) (at level 200, x pattern, right associativity).

(** malloc or calloc: false when it returns NULL. *)
Definition ask (r : request) : oom bool := fun M l =>
  let g := no_bytes r || M l r in (Ok g, (r, g) :: l).

(** Use of the pointer that it returned. *)
Definition used (granted : bool) : oom unit := if granted then ret tt else lift (Ub NullDeref).

(** malloc whose result is used without a test before anything else is asked
    for. *)
Definition must (r : request) : oom unit := let# p := ask r in used p.

(** utils.c:19-46 ID3v2_to_unicode. *)
Definition ID3v2_to_unicode_o (p : cptr) : oom unicode_result :=
  let# r := lift (ID3v2_to_unicode p) in
  match r with
  | SamePointer => ret r
  | Fresh m => let# _ := must (RUnicode (zlen m)) in ret r
  end.

(** utils.c:95-109 itob. *)
Definition itob_o (integer : Z) : oom mem :=
  let# _ := must RInt in ret (itob integer).

(** char_stream.c:18-25 CharStream_new.  Every caller writes to the stream at
    once, so the bytes are used here. *)
Definition CharStream_new_o (size : Z) : oom CharStream :=
  let# _ := must RStream in
  let# cs := lift (CharStream_new size) in
  let# _ := must (RStreamBytes size) in
  ret cs.

(** char_stream.c:27-35 CharStream_from_buffer. *)
Definition CharStream_from_buffer_o (buffer : cptr) (size : Z) : oom CharStream :=
  let# _ := must RStream in
  let# stream := ask (RStreamBytes size) in
  let# cs := lift (CharStream_from_buffer buffer size) in
  let# _ := used stream in
  ret cs.

(** tag_header.c:20-41 TagHeader_new: the one struct whose allocation is tested
    where it is made and that is then returned as NULL. *)
Definition TagHeader_new_o (major minor flags tag_size ext_size : Z) : oom (option TagHeader) :=
  let# p := ask RTagHeader in
  ret (if p then Some (TagHeader_new major minor flags tag_size ext_size) else None).

(** tag_header.c:43-46 TagHeader_new_empty. *)
Definition TagHeader_new_empty_o : oom (option TagHeader) := TagHeader_new_o 3 0 0 0 0.

(** tag_header.c:48-82 TagHeader_parse. *)
Definition TagHeader_parse_o (cs : CharStream) : oom (option TagHeader * CharStream) :=
  let# has_tag := lift (memcmp_eq (lit "ID3") (cs_stream cs)) in
  if negb has_tag then ret (None, cs)
  else
    let# (_, cs) := lift (read_into cs ID3v2_TAG_HEADER_IDENTIFIER_LENGTH) in
    let# (major, cs) := lift (CharStream_getc cs) in
    let# (minor, cs) := lift (CharStream_getc cs) in
    if negb (major =? 3) && negb (major =? 4) then ret (None, cs)
    else
      let# (flags, cs) := lift (CharStream_getc cs) in
      let# (raw_size, cs) := lift (read_into cs ID3v2_TAG_HEADER_TAG_SIZE_LENGTH) in
      let# n := lift (btoi raw_size ID3v2_TAG_HEADER_TAG_SIZE_LENGTH) in
      let tag_size := to_i32 (syncint_decode (to_i32 n)) in
      if Z.land flags (Z.shiftl 1 6) =? Z.shiftl 1 6 then
        let# (raw_eh, cs) := lift (read_into cs ID3v2_EXTENDED_HEADER_SIZE_LENGTH) in
        let# e := lift (btoi raw_eh ID3v2_EXTENDED_HEADER_SIZE_LENGTH) in
        let ext := to_i32 (syncint_decode (to_i32 e)) in
        let# h := TagHeader_new_o major minor flags tag_size ext in
        ret (h, cs)
      else
        let# h := TagHeader_new_o major minor flags tag_size 0 in
        ret (h, cs).

(** frame_header.c:20-29 FrameHeader_new. *)
Definition FrameHeader_new_o (id flags : cptr) (size : Z) : oom FrameHeader :=
  let# _ := must RFrameHeader in
  lift (FrameHeader_new id flags size).

(** frame_header.c:31-58 FrameHeader_parse. *)
Definition FrameHeader_parse_o (cs : CharStream) (ver : Z) : oom (option FrameHeader * CharStream) :=
  let# (id, cs) := lift (read_into cs ID3v2_FRAME_HEADER_ID_LENGTH) in
  let# pad := lift (memcmp_eq [x00; x00; x00; x00] id) in
  if pad then
    let# cs := lift (CharStream_seek cs (- ID3v2_FRAME_HEADER_ID_LENGTH) SEEK_CUR) in
    ret (None, cs)
  else
    let# (raw, cs) := lift (CharStream_slice cs ID3v2_FRAME_HEADER_SIZE_LENGTH) in
    let# n := lift (btoi raw ID3v2_FRAME_HEADER_SIZE_LENGTH) in
    let size := to_i32 n in
    let size := if ver =? 4 then to_i32 (syncint_decode size) else size in
    let# (flags, cs) := lift (read_into cs ID3v2_FRAME_HEADER_FLAGS_LENGTH) in
    let# h := FrameHeader_new_o (Some id) (Some flags) size in
    ret (Some h, cs).

(** frame_header.c:60-71 FrameHeader_to_char_stream. *)
Definition FrameHeader_to_char_stream_o (h : FrameHeader) : oom CharStream :=
  let# cs := CharStream_new_o ID3v2_FRAME_HEADER_LENGTH in
  let# cs := lift (CharStream_write cs (fh_id h) ID3v2_FRAME_HEADER_ID_LENGTH) in
  let# size_bytes := itob_o (fh_size h) in
  let# cs := lift (CharStream_write cs size_bytes ID3v2_FRAME_HEADER_SIZE_LENGTH) in
  lift (CharStream_write cs (fh_flags h) ID3v2_FRAME_HEADER_FLAGS_LENGTH).

(** ** Frames *)

(** text_frame.c:76-90 TextFrameData_new. *)
Definition TextFrameData_new_o (text : cptr) : oom TextData :=
  let# bom := lift (string_has_bom text) in
  let encoding := encoding_of bom in
  let term := if beq encoding ID3v2_ENCODING_ISO then 1 else 2 in
  let# n := lift (ID3v2_strlen text) in
  let# size := lift (iadd n term) in
  let# data := ask RTextData in
  let# bytes := ask (RString size) in
  let# _ := used data in
  let# t := lift (memcpy_from text size) in
  let# _ := used bytes in
  ret (mkTD size encoding t).

(** text_frame.c:21-31 TextFrame_new. *)
Definition TextFrame_new_o (id flags text : cptr) : oom frame :=
  let# frame := ask RFrame in
  let# d := TextFrameData_new_o text in
  let# _ := used frame in
  let# frame_size := lift (iadd ID3v2_FRAME_ENCODING_LENGTH (td_size d)) in
  let# h := FrameHeader_new_o id flags frame_size in
  ret (mkFrame h (DText d)).

(** text_frame.c:33-48 TextFrame_parse. *)
Definition TextFrame_parse_o (cs : CharStream) (ver : Z) : oom (frame * CharStream) :=
  let# (header, cs) := FrameHeader_parse_o cs ver in
  let# cs := lift (CharStream_seek cs ID3v2_FRAME_ENCODING_LENGTH SEEK_CUR) in
  let# h := lift (deref header) in
  let# text_size := lift (isub (fh_size h) ID3v2_FRAME_ENCODING_LENGTH) in
  let# _ := lift (vla text_size) in
  let# (text, cs) := lift (read_into cs text_size) in
  let# f := TextFrame_new_o (Some (fh_id h)) (Some (fh_flags h)) (Some text) in
  ret (f, cs).

(** text_frame.c:54-59, comment_frame.c:70-75, apic_frame.c:80-85. *)
Definition start_frame_stream_o (h : FrameHeader) : oom CharStream :=
  let# header_cs := FrameHeader_to_char_stream_o h in
  let# n := lift (iadd (fh_size h) ID3v2_FRAME_HEADER_LENGTH) in
  let# cs := CharStream_new_o n in
  lift (CharStream_write cs (cs_stream header_cs) (cs_size header_cs)).

(** text_frame.c:50-66 TextFrame_to_char_stream. *)
Definition TextFrame_to_char_stream_o (h : FrameHeader) (d : TextData) : oom CharStream :=
  let# cs := start_frame_stream_o h in
  let# cs := lift (CharStream_write cs [Some (td_encoding d)] ID3v2_FRAME_ENCODING_LENGTH) in
  lift (CharStream_write cs (td_text d) (td_size d)).

(** comment_frame.c:99-124 CommentFrameData_new. *)
Definition CommentFrameData_new_o (lang short_desc comment : cptr) : oom CommentData :=
  let# bom := lift (string_has_bom comment) in
  let encoding := encoding_of bom in
  let# comment_size := lift (ID3v2_strlent comment) in
  let# short_desc_size := lift (ID3v2_strlent short_desc) in
  let# _ := must RCommentData in
  let# l := lift (memcpy_from lang ID3v2_COMMENT_FRAME_LANGUAGE_LENGTH) in
  let# p := ask (RString comment_size) in
  let# c := lift (memcpy_from comment comment_size) in
  let# _ := used p in
  let# p := ask (RString short_desc_size) in
  let# s := lift (memcpy_from short_desc short_desc_size) in
  let# _ := used p in
  ret (mkCD comment_size encoding l s c).

(** comment_frame.c:22-40 CommentFrame_new. *)
Definition CommentFrame_new_o (flags lang short_desc comment : cptr) : oom frame :=
  let# frame := ask RFrame in
  let# d := CommentFrameData_new_o lang short_desc comment in
  let# _ := used frame in
  let# short_desc_size := lift (ID3v2_strlent short_desc) in
  let# s := lift (iadd (cd_size d) short_desc_size) in
  let# s := lift (iadd s ID3v2_FRAME_ENCODING_LENGTH) in
  let# frame_size := lift (iadd s ID3v2_COMMENT_FRAME_LANGUAGE_LENGTH) in
  let# h := FrameHeader_new_o ID3v2_COMMENT_FRAME_ID flags frame_size in
  ret (mkFrame h (DComment d)).

(** comment_frame.c:42-64 CommentFrame_parse. *)
Definition CommentFrame_parse_o (cs : CharStream) (ver : Z) : oom (frame * CharStream) :=
  let# (header, cs) := FrameHeader_parse_o cs ver in
  let# cs := lift (CharStream_seek cs ID3v2_FRAME_ENCODING_LENGTH SEEK_CUR) in
  let# (lang, cs) := lift (read_into cs ID3v2_COMMENT_FRAME_LANGUAGE_LENGTH) in
  let# short_desc_size := lift (ID3v2_strlent (Some (CharStream_get_cur cs))) in
  let# _ := lift (vla short_desc_size) in
  let# (short_desc, cs) := lift (read_into cs short_desc_size) in
  let# comment_size := lift (ID3v2_strlent (Some (CharStream_get_cur cs))) in
  let# _ := lift (vla comment_size) in
  let# (comment, cs) := lift (read_into cs comment_size) in
  let# h := lift (deref header) in
  let# f := CommentFrame_new_o (Some (fh_flags h)) (Some lang) (Some short_desc) (Some comment) in
  ret (f, cs).

(** comment_frame.c:66-88 CommentFrame_to_char_stream. *)
Definition CommentFrame_to_char_stream_o (h : FrameHeader) (d : CommentData) : oom CharStream :=
  let# cs := start_frame_stream_o h in
  let# cs := lift (CharStream_write cs [Some (cd_encoding d)] ID3v2_FRAME_ENCODING_LENGTH) in
  let# cs := lift (CharStream_write cs (cd_language d) ID3v2_COMMENT_FRAME_LANGUAGE_LENGTH) in
  let# n := lift (ID3v2_strlent (Some (cd_short d))) in
  let# cs := lift (CharStream_write cs (cd_short d) n) in
  lift (CharStream_write cs (cd_comment d) (cd_size d)).

(** apic_frame.c:107-136 ApicFrameData_new. *)
Definition ApicFrameData_new_o (description : cptr) (picture_type : byte) (mime_type : cptr)
    (picture_size : Z) (picture_data : cptr) : oom ApicData :=
  let# data := ask RApicData in
  let# bom := lift (string_has_bom description) in
  let encoding := encoding_of bom in
  let# _ := used data in
  let# desc_size := lift (ID3v2_strlent description) in
  let# p := ask (RString desc_size) in
  let# desc := lift (memcpy_from description desc_size) in
  let# _ := used p in
  let# mime_type_size := lift (ID3v2_strlent mime_type) in
  let# p := ask (RString mime_type_size) in
  let# mime := lift (memcpy_from mime_type mime_type_size) in
  let# _ := used p in
  let# p := ask (RPicture picture_size) in
  let# data := lift (memcpy_from picture_data picture_size) in
  let# _ := used p in
  ret (mkAD encoding mime picture_type desc data picture_size).

(** apic_frame.c:23-45 ApicFrame_new. *)
Definition ApicFrame_new_o (flags description : cptr) (picture_type : byte) (mime_type : cptr)
    (picture_size : Z) (data : cptr) : oom frame :=
  let# frame := ask RFrame in
  let# d := ApicFrameData_new_o description picture_type mime_type picture_size data in
  let# _ := used frame in
  let# description_size := lift (ID3v2_strlent description) in
  let# mime_type_size := lift (ID3v2_strlent mime_type) in
  let# s := lift (iadd ID3v2_FRAME_ENCODING_LENGTH mime_type_size) in
  let# s := lift (iadd s ID3v2_APIC_FRAME_PICTURE_TYPE_LENGTH) in
  let# s := lift (iadd s description_size) in
  let# frame_size := lift (iadd s (ad_picture_size d)) in
  let# h := FrameHeader_new_o ID3v2_ALBUM_COVER_FRAME_ID flags frame_size in
  ret (mkFrame h (DApic d)).

(** apic_frame.c:47-74 ApicFrame_parse. *)
Definition ApicFrame_parse_o (cs : CharStream) (ver : Z) : oom (frame * CharStream) :=
  let# (header, cs) := FrameHeader_parse_o cs ver in
  let# cs := lift (CharStream_seek cs ID3v2_FRAME_ENCODING_LENGTH SEEK_CUR) in
  let# mime_type_size := lift (ID3v2_strlent (Some (CharStream_get_cur cs))) in
  let# _ := lift (vla mime_type_size) in
  let# (mime_type, cs) := lift (read_into cs mime_type_size) in
  let# (pt, cs) := lift (CharStream_getc cs) in
  let picture_type := zb pt in
  let# description_size := lift (ID3v2_strlent (Some (CharStream_get_cur cs))) in
  let# _ := lift (vla description_size) in
  let# (description, cs) := lift (read_into cs description_size) in
  let# h := lift (deref header) in
  let# s := lift (isub (fh_size h) ID3v2_FRAME_ENCODING_LENGTH) in
  let# s := lift (isub s mime_type_size) in
  let# s := lift (isub s ID3v2_APIC_FRAME_PICTURE_TYPE_LENGTH) in
  let# pic_size := lift (isub s description_size) in
  let# _ := lift (vla pic_size) in
  let# (pic_data, cs) := lift (read_into cs pic_size) in
  let# f := ApicFrame_new_o (Some (fh_flags h)) (Some description) picture_type
                            (Some mime_type) pic_size (Some pic_data) in
  ret (f, cs).

(** apic_frame.c:76-95 ApicFrame_to_char_stream. *)
Definition ApicFrame_to_char_stream_o (h : FrameHeader) (d : ApicData) : oom CharStream :=
  let# cs := start_frame_stream_o h in
  let# cs := lift (CharStream_write cs [Some (ad_encoding d)] ID3v2_FRAME_ENCODING_LENGTH) in
  let# n := lift (ID3v2_strlent (Some (ad_mime d))) in
  let# cs := lift (CharStream_write cs (ad_mime d) n) in
  let# cs := lift (CharStream_write cs [Some (ad_type d)] ID3v2_APIC_FRAME_PICTURE_TYPE_LENGTH) in
  let# n := lift (ID3v2_strlent (Some (ad_desc d))) in
  let# cs := lift (CharStream_write cs (ad_desc d) n) in
  lift (CharStream_write cs (ad_data d) (ad_picture_size d)).

(** frame.c:24-57 Frame_parse.  Lines 53-54: when nothing is left to copy the
    NULL pointer is kept as the data of the frame; such a frame of a size above
    zero is written as [DRaw []]. *)
Definition Frame_parse_o (cs : CharStream) (ver : Z) : oom (option frame * CharStream) :=
  let# (header, cs) := FrameHeader_parse_o cs ver in
  match header with
  | None => ret (None, cs)
  | Some h =>
      let# is_text := lift (FrameHeader_isTextFrame h) in
      let# is_comment := lift (FrameHeader_isCommentFrame h) in
      let# is_apic := lift (FrameHeader_isApicFrame h) in
      if is_text then
        let# cs := lift (CharStream_seek cs (- ID3v2_FRAME_HEADER_LENGTH) SEEK_CUR) in
        let# (f, cs) := TextFrame_parse_o cs ver in
        ret (Some f, cs)
      else if is_comment then
        let# cs := lift (CharStream_seek cs (- ID3v2_FRAME_HEADER_LENGTH) SEEK_CUR) in
        let# (f, cs) := CommentFrame_parse_o cs ver in
        ret (Some f, cs)
      else if is_apic then
        let# cs := lift (CharStream_seek cs (- ID3v2_FRAME_HEADER_LENGTH) SEEK_CUR) in
        let# (f, cs) := ApicFrame_parse_o cs ver in
        ret (Some f, cs)
      else
        let# _ := must RFrame in
        if fh_size h <? 0 then lift (Ub BadSize)
        else
          let# p := ask (RRaw (fh_size h)) in
          let# (data, cs') := lift (read_into cs (fh_size h)) in
          if p then ret (Some (mkFrame h (DRaw data)), cs')
          else if cs_cursor cs' =? cs_cursor cs then ret (Some (mkFrame h (DRaw [])), cs')
          else lift (Ub NullDeref)
  end.

(** frame.c:59-84 Frame_to_char_stream. *)
Definition Frame_to_char_stream_o (fp : option frame) : oom (option CharStream) :=
  match fp with
  | None => ret None
  | Some f =>
      let h := f_hdr f in
      let# is_text := lift (FrameHeader_isTextFrame h) in
      let# is_comment := lift (FrameHeader_isCommentFrame h) in
      let# is_apic := lift (FrameHeader_isApicFrame h) in
      if is_text then
        match f_data f with
        | DText d => let# cs := TextFrame_to_char_stream_o h d in ret (Some cs)
        | _ => lift (Ub TypeConfusion)
        end
      else if is_comment then
        match f_data f with
        | DComment d => let# cs := CommentFrame_to_char_stream_o h d in ret (Some cs)
        | _ => lift (Ub TypeConfusion)
        end
      else if is_apic then
        match f_data f with
        | DApic d => let# cs := ApicFrame_to_char_stream_o h d in ret (Some cs)
        | _ => lift (Ub TypeConfusion)
        end
      else
        match f_data f with
        | DRaw m =>
            let# n := lift (iadd (fh_size h) ID3v2_FRAME_HEADER_LENGTH) in
            let# cs := CharStream_new_o n in
            let# header_cs := FrameHeader_to_char_stream_o h in
            let# cs := lift (CharStream_write cs (cs_stream header_cs) ID3v2_FRAME_HEADER_LENGTH) in
            let# cs := lift (CharStream_write cs m (fh_size h)) in
            ret (Some cs)
        | _ => lift (Ub TypeConfusion)
        end
  end.

(** ** Lists of frames; [[]] is a NULL list, as in FrameList.v *)

(** frame_list.c:19-31 FrameList_new. *)
Definition FrameList_new_o : oom flist :=
  let# p := ask RNode in
  ret (if p then FrameList_new else []).

(** frame_list.c:33-55 FrameList_add_frame: line 43 uses the new node untested. *)
Definition FrameList_add_frame_o (l : flist) (f : fptr) : oom flist :=
  match l with
  | [] => lift (Ub NullDeref)
  | n :: rest =>
      if negb (n_start n) then ret (mkNode (Some f) true :: rest)
      else
        let# _ := must RNode in
        ret ((n :: rest) ++ [mkNode (Some f) true])
  end.

(** frame_list.c:82-90. *)
Fixpoint get_frames_loop_o (l : flist) (frame_id : cptr) (sublist : flist) : oom flist :=
  match l with
  | [] => ret sublist
  | n :: rest =>
      match n_frame n with
      | None => ret sublist
      | Some p =>
          let# m := lift (id_matches (fp_frame p) frame_id) in
          if m then
            let# sublist := FrameList_add_frame_o sublist p in
            get_frames_loop_o rest frame_id sublist
          else get_frames_loop_o rest frame_id sublist
      end
  end.

(** frame_list.c:78-93 FrameList_get_frames_by_id. *)
Definition FrameList_get_frames_by_id_o (l : flist) (frame_id : cptr) : oom flist :=
  let# sublist := FrameList_new_o in
  get_frames_loop_o l frame_id sublist.

(** frame_list.c:125-128 and 145-148: the new node is copied untested. *)
Definition unlink_node_o (rest : flist) : oom flist :=
  match rest with
  | [] => let# _ := must RNode in ret [empty_node]
  | _ => ret rest
  end.

(** frame_list.c:116-135 FrameList_remove_frame_by_id. *)
Fixpoint FrameList_remove_frame_by_id_o (l : flist) (frame_id : cptr) : oom (option fptr * flist) :=
  match l with
  | [] => ret (None, [])
  | n :: rest =>
      let# p := lift (deref (n_frame n)) in
      let# m := lift (id_matches (fp_frame p) frame_id) in
      if m then
        let# rest := unlink_node_o rest in
        ret (Some p, rest)
      else
        let# (r, rest') := FrameList_remove_frame_by_id_o rest frame_id in
        ret (r, n :: rest')
  end.

(** frame_list.c:137-155 FrameList_remove_frame. *)
Fixpoint FrameList_remove_frame_o (l : flist) (to_remove : option fptr) : oom (option fptr * flist) :=
  match l with
  | [] => ret (None, [])
  | n :: rest =>
      if same_ptr (n_frame n) to_remove then
        let# rest := unlink_node_o rest in
        ret (to_remove, rest)
      else
        let# (r, rest') := FrameList_remove_frame_o rest to_remove in
        ret (r, n :: rest')
  end.

(** ** Tags *)

(** A new tag, whose header may be missing: [Headless frames] is a tag with
    [header = NULL] and this list. *)
Inductive new_tag_result :=
| Whole (t : Tag)
| Headless (frames : flist).

(** tag.c:29-37 ID3v2_Tag_new.  The header is asked for when there is none. *)
Definition ID3v2_Tag_new_o (header : option TagHeader) (padding_size : Z) : oom new_tag_result :=
  let# tag := ask RTag in
  let# h := match header with None => TagHeader_new_empty_o | Some h => ret (Some h) end in
  let# _ := used tag in
  let# frames := FrameList_new_o in
  ret (match h with Some h => Whole (mkTag h frames 0 0) | None => Headless frames end).

(** tag.c:39-42 ID3v2_Tag_new_empty. *)
Definition ID3v2_Tag_new_empty_o : oom new_tag_result := ID3v2_Tag_new_o None 0.

(** tag.c:57-63. *)
Fixpoint parse_loop_o (fuel : nat) (tag_size ver : Z) (cs : CharStream) (frames : flist) (fresh : nat)
  : oom (flist * nat * CharStream) :=
  if to_u32 (cs_cursor cs) <? tag_size then
    match fuel with
    | O => lift NoFuel
    | S fuel' =>
        let# (current_frame, cs) := Frame_parse_o cs ver in
        match current_frame with
        | None => ret (frames, fresh, cs)
        | Some f =>
            let# frames := FrameList_add_frame_o frames (fresh, f) in
            parse_loop_o fuel' tag_size ver cs frames (S fresh)
        end
    end
  else ret (frames, fresh, cs).

(** tag.c:44-68 Tag_parse.  (The header is not NULL at line 49, so the new tag
    is not [Headless].) *)
Definition Tag_parse_o (cs : CharStream) : oom (option Tag) :=
  let# (header, cs) := TagHeader_parse_o cs in
  match header with
  | None => ret None
  | Some h =>
      let# tag := ID3v2_Tag_new_o (Some h) 0 in
      match tag with
      | Headless _ => lift (Ub NullDeref)
      | Whole tag =>
          let# cs := lift (if 0 <? th_ext_size h
                           then CharStream_seek cs (to_i32 (th_ext_size h)) SEEK_SET
                           else Ok cs) in
          let# (frames, fresh, cs) :=
            parse_loop_o (length (cs_stream cs) + 2) (th_tag_size h) (schar (th_major h))
                         cs (t_frames tag) (t_fresh tag) in
          let# padding := lift (isub (cs_size cs) (cs_cursor cs)) in
          ret (Some (mkTag h frames padding fresh))
      end
  end.

(** tag.c:93-103. *)
Fixpoint write_frames_o (cs : CharStream) (frames : flist) : oom CharStream :=
  match frames with
  | [] => ret cs
  | n :: rest =>
      let# frame_cs := Frame_to_char_stream_o (option_map fp_frame (n_frame n)) in
      match frame_cs with
      | None => lift (Exit 1)
      | Some fcs =>
          let# cs := lift (CharStream_write cs (cs_stream fcs) (cs_size fcs)) in
          write_frames_o cs rest
      end
  end.

(** tag.c:70-106 Tag_to_char_stream. *)
Definition Tag_to_char_stream_o (tag : Tag) : oom CharStream :=
  let h := t_header tag in
  let# cs := CharStream_new_o (to_i32 (to_u32 (th_tag_size h + ID3v2_TAG_HEADER_LENGTH))) in
  let# cs := lift (CharStream_write cs (cells (th_identifier h)) ID3v2_TAG_HEADER_IDENTIFIER_LENGTH) in
  let# cs := lift (CharStream_write cs [Some (th_major h)] ID3v2_TAG_HEADER_MAJOR_VERSION_LENGTH) in
  let# cs := lift (CharStream_write cs [Some (th_minor h)] ID3v2_TAG_HEADER_MINOR_VERSION_LENGTH) in
  let# cs := lift (CharStream_write cs [Some (th_flags h)] ID3v2_TAG_HEADER_FLAGS_LENGTH) in
  let# enc := lift (syncint_encode (to_i32 (th_tag_size h))) in
  let# size_bytes := itob_o enc in
  let# cs := lift (CharStream_write cs size_bytes ID3v2_TAG_HEADER_TAG_SIZE_LENGTH) in
  match t_frames tag with
  | [] => lift (Ub NullDeref)
  | n :: _ =>
      match n_frame n with
      | None => ret cs
      | Some _ => write_frames_o cs (t_frames tag)
      end
  end.

(** tag.c:117-121 ID3v2_Tag_get_frames. *)
Definition ID3v2_Tag_get_frames_o (tag : option Tag) (frame_id : cptr) : oom flist :=
  match tag with
  | None => ret []
  | Some t => FrameList_get_frames_by_id_o (t_frames t) frame_id
  end.

(** tag.c:183-186 *)
Definition ID3v2_Tag_get_comment_frames_o (tag : option Tag) : oom flist :=
  ID3v2_Tag_get_frames_o tag ID3v2_COMMENT_FRAME_ID.
(** tag.c:193-196 *)
Definition ID3v2_Tag_get_apic_frames_o (tag : option Tag) : oom flist :=
  ID3v2_Tag_get_frames_o tag ID3v2_ALBUM_COVER_FRAME_ID.

(** tag.c:207-221, 341-355, 394-408. *)
Definition install_frame_o (tag : Tag) (existing_frame : option fptr) (new_frame : frame) : oom Tag :=
  let p := (t_fresh tag, new_frame) in
  let h := t_header tag in
  match existing_frame with
  | None =>
      let# frames := FrameList_add_frame_o (t_frames tag) p in
      ret (with_frames tag (with_tag_size h (th_tag_size h + fh_size (f_hdr new_frame))) frames)
  | Some _ => lift (install_frame tag existing_frame new_frame)
  end.

(** tag.c:201-222 ID3v2_Tag_set_text_frame. *)
Definition ID3v2_Tag_set_text_frame_o (tag : Tag) (input : TextFrameInput) : oom Tag :=
  let# new_frame := TextFrame_new_o (ti_id input) (ti_flags input) (ti_text input) in
  let# existing_frame := lift (FrameList_get_frame_by_id (t_frames tag) (ti_id input)) in
  install_frame_o tag existing_frame new_frame.

(** tag.c:224-330: the setters of one text frame. *)
Definition set_text_o (tag : Tag) (id text : cptr) : oom Tag :=
  ID3v2_Tag_set_text_frame_o tag (mkTextInput id NO_FLAGS text).

(** tag.c:335-356 ID3v2_Tag_set_comment_frame. *)
Definition ID3v2_Tag_set_comment_frame_o (tag : Tag) (input : CommentFrameInput) : oom Tag :=
  let# new_frame := CommentFrame_new_o (ci_flags input) (ci_language input)
                                       (ci_short_description input) (ci_comment input) in
  let# existing_frame := lift (ID3v2_Tag_get_comment_frame (Some tag)) in
  install_frame_o tag existing_frame new_frame.

(** tag.c:358-364 ID3v2_Tag_add_comment_frame. *)
Definition ID3v2_Tag_add_comment_frame_o (tag : Tag) (input : CommentFrameInput) : oom Tag :=
  let# new_frame := CommentFrame_new_o (ci_flags input) (ci_language input)
                                       (ci_short_description input) (ci_comment input) in
  install_frame_o tag None new_frame.

(** tag.c:366-377 ID3v2_Tag_set_comment. *)
Definition ID3v2_Tag_set_comment_o (tag : Tag) (lang comment : cptr) : oom Tag :=
  ID3v2_Tag_set_comment_frame_o tag (mkCommentInput NO_FLAGS lang EMPTY_UNICODE_STR comment).

(** tag.c:382-409 ID3v2_Tag_set_apic_frame. *)
Definition ID3v2_Tag_set_apic_frame_o (tag : Tag) (input : ApicFrameInput) : oom Tag :=
  let# new_frame := ApicFrame_new_o (ai_flags input) (ai_description input) (ai_picture_type input)
                                    (ai_mime_type input) (ai_picture_size input) (ai_data input) in
  let# existing_frame := lift (ID3v2_Tag_get_album_cover_frame (Some tag)) in
  install_frame_o tag existing_frame new_frame.

(** tag.c:411-423 ID3v2_Tag_add_apic_frame. *)
Definition ID3v2_Tag_add_apic_frame_o (tag : Tag) (input : ApicFrameInput) : oom Tag :=
  let# new_frame := ApicFrame_new_o (ai_flags input) (ai_description input) (ai_picture_type input)
                                    (ai_mime_type input) (ai_picture_size input) (ai_data input) in
  install_frame_o tag None new_frame.

(** tag.c:428-446 ID3v2_Tag_set_album_cover. *)
Definition ID3v2_Tag_set_album_cover_o (tag : Tag) (mime_type : cptr) (size : Z) (data : cptr) : oom Tag :=
  ID3v2_Tag_set_apic_frame_o tag
    (mkApicInput NO_FLAGS mime_type EMPTY_UNICODE_STR ID3v2_PIC_TYPE_FRONT_COVER size data).

(** tag.c:455-462 ID3v2_Tag_delete_frame (and 464-507, 532-535, 560-563). *)
Definition ID3v2_Tag_delete_frame_o (tag : Tag) (frame_id : cptr) : oom Tag :=
  let# (deleted, frames) := FrameList_remove_frame_by_id_o (t_frames tag) frame_id in
  let# p := lift (deref deleted) in
  let h := t_header tag in
  let# n := lift (iadd (fh_size (f_hdr (fp_frame p))) ID3v2_FRAME_HEADER_LENGTH) in
  ret (mkTag (with_tag_size h (th_tag_size h - n)) frames (t_padding tag) (t_fresh tag)).

(** tag.c:514-527 and 542-555. *)
Fixpoint delete_nth_loop_o (head : flist) (i index : Z) (frames : flist) : oom flist :=
  match head with
  | [] => ret frames
  | n :: rest =>
      if i =? index then
        let# (_, frames) := FrameList_remove_frame_o frames (n_frame n) in
        ret frames
      else delete_nth_loop_o rest (i + 1) index frames
  end.

(** tag.c:509-530 ID3v2_Tag_delete_comment_frame. *)
Definition ID3v2_Tag_delete_comment_frame_o (tag : Tag) (index : Z) : oom Tag :=
  let# head := ID3v2_Tag_get_comment_frames_o (Some tag) in
  let# frames := delete_nth_loop_o head 0 index (t_frames tag) in
  ret (mkTag (t_header tag) frames (t_padding tag) (t_fresh tag)).

(** tag.c:537-558 ID3v2_Tag_delete_apic_frame. *)
Definition ID3v2_Tag_delete_apic_frame_o (tag : Tag) (index : Z) : oom Tag :=
  let# head := ID3v2_Tag_get_apic_frames_o (Some tag) in
  let# frames := delete_nth_loop_o head 0 index (t_frames tag) in
  ret (mkTag (t_header tag) frames (t_padding tag) (t_fresh tag)).

(** As [run_call] in Calls.v. *)
Definition run_call_o (t : Tag) (c : call) : oom Tag :=
  match c with
  | SetTextFrame i => ID3v2_Tag_set_text_frame_o t i
  | SetArtist s => set_text_o t ID3v2_ARTIST_FRAME_ID s
  | SetAlbum s => set_text_o t ID3v2_ALBUM_FRAME_ID s
  | SetTitle s => set_text_o t ID3v2_TITLE_FRAME_ID s
  | SetTrack s => set_text_o t ID3v2_TRACK_FRAME_ID s
  | SetAlbumArtist s => set_text_o t ID3v2_ALBUM_ARTIST_FRAME_ID s
  | SetGenre s => set_text_o t ID3v2_GENRE_FRAME_ID s
  | SetYear s => set_text_o t ID3v2_YEAR_FRAME_ID s
  | SetDiscNumber s => set_text_o t ID3v2_DISC_NUMBER_FRAME_ID s
  | SetComposer s => set_text_o t ID3v2_COMPOSER_FRAME_ID s
  | SetCommentFrame i => ID3v2_Tag_set_comment_frame_o t i
  | AddCommentFrame i => ID3v2_Tag_add_comment_frame_o t i
  | SetComment l c => ID3v2_Tag_set_comment_o t l c
  | SetApicFrame i => ID3v2_Tag_set_apic_frame_o t i
  | AddApicFrame i => ID3v2_Tag_add_apic_frame_o t i
  | SetAlbumCover m n d => ID3v2_Tag_set_album_cover_o t m n d
  | DeleteFrame id => ID3v2_Tag_delete_frame_o t id
  | DeleteArtist => ID3v2_Tag_delete_frame_o t ID3v2_ARTIST_FRAME_ID
  | DeleteAlbum => ID3v2_Tag_delete_frame_o t ID3v2_ALBUM_FRAME_ID
  | DeleteTitle => ID3v2_Tag_delete_frame_o t ID3v2_TITLE_FRAME_ID
  | DeleteTrack => ID3v2_Tag_delete_frame_o t ID3v2_TRACK_FRAME_ID
  | DeleteAlbumArtist => ID3v2_Tag_delete_frame_o t ID3v2_ALBUM_ARTIST_FRAME_ID
  | DeleteGenre => ID3v2_Tag_delete_frame_o t ID3v2_GENRE_FRAME_ID
  | DeleteYear => ID3v2_Tag_delete_frame_o t ID3v2_YEAR_FRAME_ID
  | DeleteDiscNumber => ID3v2_Tag_delete_frame_o t ID3v2_DISC_NUMBER_FRAME_ID
  | DeleteComposer => ID3v2_Tag_delete_frame_o t ID3v2_COMPOSER_FRAME_ID
  | DeleteComment => ID3v2_Tag_delete_frame_o t ID3v2_COMMENT_FRAME_ID
  | DeleteAlbumCover => ID3v2_Tag_delete_frame_o t ID3v2_ALBUM_COVER_FRAME_ID
  | DeleteCommentFrame i => ID3v2_Tag_delete_comment_frame_o t i
  | DeleteApicFrame i => ID3v2_Tag_delete_apic_frame_o t i
  end.

(** ** Files *)

(** id3v2lib.c:37-43 ID3v2_read_tag_header_from_buffer. *)
Definition ID3v2_read_tag_header_from_buffer_o (buffer : cptr) : oom (option TagHeader) :=
  let# cs := CharStream_from_buffer_o buffer ID3v2_TAG_HEADER_LENGTH in
  let# (header, _) := TagHeader_parse_o cs in
  ret header.

(** id3v2lib.c:22-35 ID3v2_read_tag_header. *)
Definition ID3v2_read_tag_header_o (f : file) : oom (option TagHeader) :=
  match f with
  | None => ret None
  | Some content =>
      let tag_header_buffer := firstn (Z.to_nat ID3v2_TAG_HEADER_LENGTH) content in
      let bytes_read := zlen tag_header_buffer in
      if bytes_read <? ID3v2_TAG_HEADER_LENGTH then ret None
      else ID3v2_read_tag_header_from_buffer_o (Some (cells tag_header_buffer))
  end.

(** id3v2lib.c:74-80 ID3v2_read_tag_from_buffer. *)
Definition ID3v2_read_tag_from_buffer_o (tag_buffer : cptr) (buffer_length : Z) : oom (option Tag) :=
  let# tag_cs := CharStream_from_buffer_o tag_buffer buffer_length in
  Tag_parse_o tag_cs.

(** id3v2lib.c:45-72 ID3v2_read_tag; the buffer is tested in lines 55-61. *)
Definition ID3v2_read_tag_o (f : file) : oom (option Tag) :=
  let# tag_header := ID3v2_read_tag_header_o f in
  match tag_header with
  | None => ret None
  | Some h =>
      match f with
      | None => lift (Ub NullDeref)
      | Some content =>
          let buffer_length := declared_length h in
          let# tag_buffer := ask (RFile buffer_length) in
          if tag_buffer then
            ID3v2_read_tag_from_buffer_o (Some (fread_into content buffer_length)) buffer_length
          else ret None
      end
  end.

(** id3v2lib.c:82-131 ID3v2_write_tag: the contents of the file when it returns,
    and the tag. *)
Definition ID3v2_write_tag_o (f : file) (tagp : option Tag) : oom (file * option Tag) :=
  match tagp with
  | None => ret (f, None)
  | Some tag =>
      let# existing := ID3v2_read_tag_header_o f in
      let original_size := match existing with Some h => declared_length h | None => 0 end in
      let# d := lift (isub ID3v2_TAG_DEFAULT_PADDING_LENGTH (t_padding tag)) in
      let extra := clamp_int d 0 ID3v2_TAG_DEFAULT_PADDING_LENGTH in
      let# padding := lift (iadd (t_padding tag) extra) in
      let tag := mkTag (t_header tag) (t_frames tag) padding (t_fresh tag) in
      let# tag_cs := Tag_to_char_stream_o tag in
      let# temp := lift (fwrite_bytes (firstn (Z.to_nat (cs_size tag_cs)) (cs_stream tag_cs))) in
      match f with
      | None => lift (Ub NullDeref)
      | Some content =>
          ret (Some (copy_loop (copy_loop (from_offset content original_size) temp) []), Some tag)
      end
  end.

(** id3v2lib.c:133-165 ID3v2_delete_tag. *)
Definition ID3v2_delete_tag_o (f : file) : oom file :=
  let# tag_header := ID3v2_read_tag_header_o f in
  match tag_header with
  | None => ret f
  | Some h =>
      match f with
      | None => lift (Ub NullDeref)
      | Some content =>
          ret (Some (copy_loop (copy_loop (from_offset content (declared_length h)) []) []))
      end
  end.

(** ** The interface of version 1 *)

(** compat.c:23-35 new_frame_list. *)
Definition new_frame_list_o : oom clist :=
  let# p := ask RCompatNode in
  ret (if p then new_frame_list else []).

(** compat.c:37-56 frame_to_compat_frame. *)
Definition frame_to_compat_frame_o (p : option fptr) : oom cframe :=
  let# compat_frame := ask RCompatFrame in
  let# p := lift (deref p) in
  let h := f_hdr (fp_frame p) in
  let# id := lift (memcpy_from (Some (fh_id h)) ID3v2_FRAME_HEADER_ID_LENGTH) in
  let# _ := used compat_frame in
  let# flags := lift (memcpy_from (Some (fh_flags h)) ID3v2_TAG_HEADER_FLAGS_LENGTH) in
  let# frame_cs := Frame_to_char_stream_o (Some (fp_frame p)) in
  let# frame_cs := lift (deref frame_cs) in
  let# frame_cs := lift (CharStream_seek frame_cs ID3v2_FRAME_HEADER_LENGTH SEEK_SET) in
  if fh_size h <? 0 then lift (Ub BadSize)
  else
    let# dest := ask (RCompatData (fh_size h)) in
    let# (data, after) := lift (read_into frame_cs (fh_size h)) in
    let# _ := if cs_cursor after =? cs_cursor frame_cs then ret tt else used dest in
    ret (mkCFrame id (fh_size h) (flags ++ [None])
                  (if dest then data else []) (fp_addr p)).

(** compat.c:58-77 add_to_list. *)
Definition add_to_list_o (l : clist) (f : cframe) : oom clist :=
  match l with
  | [] => lift (Ub NullDeref)
  | n :: rest =>
      if negb (cn_start n) then ret (mkCNode (Some f) true :: rest)
      else
        let# _ := must RCompatNode in
        ret ((n :: rest) ++ [mkCNode (Some f) true])
  end.

(** The tag of version 1 around a new tag, which may lack its header. *)
Inductive new_ctag_result :=
| CWhole (t : ctag)
| CHeadless (frames : clist) (inner : flist).

(** compat.c:112-124 new_tag. *)
Definition new_tag_o : oom new_ctag_result :=
  let# tag := ask RCompatTag in
  let# _ := must RCompatHeader in
  let# _ := used tag in
  let# frames := new_frame_list_o in
  let# inner := ID3v2_Tag_new_empty_o in
  ret (match inner with
       | Whole t => CWhole (mkCTag None (mkCH (cells (lit "ID3")) None None None None None) frames t)
       | Headless l => CHeadless frames l
       end).

(** compat.c:169-174. *)
Fixpoint load_frames_o (head : flist) (compat_frames : clist) : oom clist :=
  match head with
  | [] => ret compat_frames
  | n :: rest =>
      let# f := frame_to_compat_frame_o (n_frame n) in
      let# compat_frames := add_to_list_o compat_frames f in
      load_frames_o rest compat_frames
  end.

(** compat.c:143-179 load_tag_with_buffer. *)
Definition load_tag_with_buffer_o (buffer : cptr) (length : Z) : oom ctag :=
  let# tag := ID3v2_read_tag_from_buffer_o buffer length in
  let# compat_tag := ask RCompatTag in
  let# header := ask RCompatHeader in
  let# _ := used compat_tag in
  let# dest := ask (RCompatRaw length) in
  let# raw := lift (memcpy_from buffer length) in
  let# _ := used dest in
  let# tag := lift (deref tag) in
  let# _ := used header in
  let h := t_header tag in
  let header := mkCH (cells (th_identifier h)) (Some (th_major h)) (Some (th_minor h)) (Some (th_flags h))
                     (Some (to_i32 (th_tag_size h))) (Some (to_i32 (th_ext_size h))) in
  let# compat_frames := new_frame_list_o in
  let# frames := load_frames_o (t_frames tag) compat_frames in
  ret (mkCTag (Some raw) header frames tag).

(** compat.c:126-141 load_tag. *)
Definition load_tag_o (f : file) : oom ctag :=
  let# header := ID3v2_read_tag_header_o f in
  let# header := lift (deref header) in
  let buffer_size := declared_length header in
  let# buffer := ask (RCompatFile buffer_size) in
  let# content := lift (deref f) in
  let# _ := used buffer in
  load_tag_with_buffer_o (Some (fread_into content buffer_size)) buffer_size.

(** compat.c:181-184 remove_tag. *)
Definition remove_tag_o (f : file) : oom file := ID3v2_delete_tag_o f.

(** compat.c:186-189 set_tag. *)
Definition set_tag_o (f : file) (tag : option ctag) : oom (file * ctag) :=
  let# t := lift (deref tag) in
  let# (f, inner) := ID3v2_write_tag_o f (Some (ct_tag t)) in
  let# inner := lift (deref inner) in
  ret (f, mkCTag (ct_raw t) (ct_header t) (ct_frames t) inner).

(** compat.c:271-283 parse_text_frame_content. *)
Definition parse_text_frame_content_o (live : flist) (f : option cframe) : oom text_content :=
  let# content := ask RContent in
  let# f := lift (deref f) in
  let# g := lift (frame_at live (cf_frame f)) in
  match f_data g with
  | DText d =>
      let# _ := used content in
      let# dest := ask (RContentData (td_size d)) in
      let# data := lift (memcpy_from (Some (td_text d)) (td_size d)) in
      let# _ := used dest in
      ret (mkTC (td_size d) (td_encoding d) data)
  | _ => lift (Ub TypeConfusion)
  end.

(** compat.c:285-299 parse_comment_frame_content. *)
Definition parse_comment_frame_content_o (live : flist) (f : option cframe) : oom comment_content :=
  let# content := ask RContent in
  let# f := lift (deref f) in
  let# g := lift (frame_at live (cf_frame f)) in
  match f_data g with
  | DComment d =>
      let# _ := used content in
      let# _ := must RContent in
      ret (mkCC (cd_language d) (cd_short d) (mkTC (cd_size d) (cd_encoding d) (cd_comment d)))
  | _ => lift (Ub TypeConfusion)
  end.

(** compat.c:301-315 parse_apic_frame_content. *)
Definition parse_apic_frame_content_o (live : flist) (f : option cframe) : oom apic_content :=
  let# content := ask RContent in
  let# f := lift (deref f) in
  let# g := lift (frame_at live (cf_frame f)) in
  match f_data g with
  | DApic d =>
      let# _ := used content in
      ret (mkAC (ad_encoding d) (ad_mime d) (ad_type d) (ad_desc d) (ad_picture_size d) (ad_data d))
  | _ => lift (Ub TypeConfusion)
  end.

(** compat.c:317-415 and 440-453: the setters, by the call made on the
    underlying tag. *)
Definition set_compat_o (tag : option ctag) (c : call)
    (get : option Tag -> outcome (option fptr)) : oom ctag :=
  let# t := lift (deref tag) in
  let# inner := run_call_o (ct_tag t) c in
  let# p := lift (get (Some inner)) in
  let# f := frame_to_compat_frame_o p in
  let# frames := lift (add_uniq_to_list (ct_frames t) f) in
  ret (mkCTag (ct_raw t) (ct_header t) frames inner).

(** compat.c:317-325 *)
Definition tag_set_title_o title tag := set_compat_o tag (SetTitle title) ID3v2_Tag_get_title_frame.
(** compat.c:327-335 *)
Definition tag_set_artist_o artist tag := set_compat_o tag (SetArtist artist) ID3v2_Tag_get_artist_frame.
(** compat.c:337-345 *)
Definition tag_set_album_o album tag := set_compat_o tag (SetAlbum album) ID3v2_Tag_get_album_frame.
(** compat.c:347-355 *)
Definition tag_set_album_artist_o s tag :=
  set_compat_o tag (SetAlbumArtist s) ID3v2_Tag_get_album_artist_frame.
(** compat.c:357-365 *)
Definition tag_set_genre_o genre tag := set_compat_o tag (SetGenre genre) ID3v2_Tag_get_genre_frame.
(** compat.c:367-375 *)
Definition tag_set_track_o track tag := set_compat_o tag (SetTrack track) ID3v2_Tag_get_track_frame.
(** compat.c:377-385 *)
Definition tag_set_year_o year tag := set_compat_o tag (SetYear year) ID3v2_Tag_get_year_frame.
(** compat.c:387-395 *)
Definition tag_set_comment_o comment tag :=
  set_compat_o tag (SetComment (clit "eng") comment) ID3v2_Tag_get_comment_frame.
(** compat.c:397-405 *)
Definition tag_set_disc_number_o s tag :=
  set_compat_o tag (SetDiscNumber s) ID3v2_Tag_get_disc_number_frame.
(** compat.c:407-415 *)
Definition tag_set_composer_o composer tag :=
  set_compat_o tag (SetComposer composer) ID3v2_Tag_get_composer_frame.
(** compat.c:440-453 *)
Definition tag_set_album_cover_from_bytes_o (bytes mimetype : cptr) (picture_size : Z) tag :=
  set_compat_o tag (SetAlbumCover mimetype picture_size bytes) ID3v2_Tag_get_album_cover_frame.

(** compat.c:417-438 tag_set_album_cover. *)
Definition tag_set_album_cover_o (filename : cptr) (picture : file) (tag : option ctag) : oom ctag :=
  let# content := lift (deref picture) in
  let image_size := to_i32 (zlen content) in
  if image_size <? 0 then lift (Ub BadSize)
  else
    let# _ := must (RCover image_size) in
    let bytes := fread_into content image_size in
    let# name := lift (deref filename) in
    let# ext := lift (after_last "."%byte name None) in
    let# ext := lift (deref ext) in
    let# png := lift (strncmp_eq 4 ext (cells (lit "png" ++ [x00]))) in
    let mimetype := if png then ID3v2_MIME_TYPE_PNG else ID3v2_MIME_TYPE_JPG in
    tag_set_album_cover_from_bytes_o (Some bytes) mimetype image_size tag.
