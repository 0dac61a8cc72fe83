(** Model of src/id3v2lib.compat.c: the interface of version 1 on top of the
    current one. *)
From Verif Require Export File.

(** id3v2lib.compat.h:55-62 ID3v2_frame.  [cf_frame] is a pointer to a frame of
    the underlying tag: only its address is kept, what it points to is looked
    up in that tag. *)
Record cframe := mkCFrame {
  cf_id : mem; cf_size : Z; cf_flags : mem; cf_data : mem; cf_frame : nat }.

(** id3v2lib.compat.h:64-70.  As in FrameList.v a list is the sequence of its
    nodes and a node records whether [start] is non-NULL.  The [last] pointer
    is only used in the head node, where add_to_list keeps it at the end of the
    list; no node is ever unlinked. *)
Record cnode := mkCNode { cn_frame : option cframe; cn_start : bool }.
Definition clist := list cnode.

(** id3v2lib.compat.h:21-29 ID3v2_header; a field that has not been assigned
    is [None]. *)
Record cheader := mkCH {
  ch_tag : mem; ch_major : cell; ch_minor : cell; ch_flags : cell;
  ch_tag_size : option Z; ch_ext_size : option Z }.

(** id3v2lib.compat.h:72-78 ID3v2_tag; [ct_raw = None] when the pointer has not
    been assigned. *)
Record ctag := mkCTag {
  ct_raw : option mem; ct_header : cheader; ct_frames : clist; ct_tag : Tag }.

(** compat.c:23-35 new_frame_list. *)
Definition cempty_node : cnode := mkCNode None false.
Definition new_frame_list : clist := [cempty_node].

(** compat.c:37-56 frame_to_compat_frame.  The flags are copied with
    ID3v2_TAG_HEADER_FLAGS_LENGTH, so the second byte is not assigned. *)
Definition frame_to_compat_frame (p : option fptr) : outcome cframe :=
  let* p := deref p in
  let h := f_hdr (fp_frame p) in
  let* id := memcpy_from (Some (fh_id h)) ID3v2_FRAME_HEADER_ID_LENGTH in
  let* flags := memcpy_from (Some (fh_flags h)) ID3v2_TAG_HEADER_FLAGS_LENGTH in
  let* frame_cs := Frame_to_char_stream (Some (fp_frame p)) in
  let* frame_cs := deref frame_cs in
  let* frame_cs := CharStream_seek frame_cs ID3v2_FRAME_HEADER_LENGTH SEEK_SET in
  if fh_size h <? 0 then Ub BadSize
  else
    let* (data, _) := read_into frame_cs (fh_size h) in
    Ok (mkCFrame id (fh_size h) (flags ++ [None]) data (fp_addr p)).

(** compat.c:58-77 add_to_list. *)
Definition add_to_list (l : clist) (f : cframe) : outcome clist :=
  match l with
  | [] => Ub NullDeref
  | n :: rest =>
      if negb (cn_start n) then Ok (mkCNode (Some f) true :: rest)
      else Ok ((n :: rest) ++ [mkCNode (Some f) true])
  end.

(** memcmp(a, b, 4) == 0 of two frame ids. *)
Fixpoint memcmp_cells (n : nat) (a b : mem) : outcome bool :=
  match n with
  | O => Ok true
  | S n' =>
      match a, b with
      | Some x :: a', Some y :: b' => if beq x y then memcmp_cells n' a' b' else Ok false
      | [], _ | _, [] => Ub OobRead
      | None :: _, _ | _, None :: _ => Ub UninitRead
      end
  end.

(** compat.c:79-95 add_uniq_to_list.  The loop ends with [head] NULL, whose
    [start] is then read. *)
Fixpoint add_uniq_to_list (head : clist) (f : cframe) : outcome clist :=
  match head with
  | [] => Ub NullDeref
  | n :: rest =>
      let* g := deref (cn_frame n) in
      let* same := memcmp_cells 4 (cf_id g) (cf_id f) in
      if same then Ok (mkCNode (Some f) (cn_start n) :: rest)
      else
        let* rest := add_uniq_to_list rest f in
        Ok (n :: rest)
  end.

(** compat.c:97-110 get_from_list. *)
Fixpoint get_from_list (l : clist) (frame_id : cptr) : outcome (option cframe) :=
  match l with
  | [] => Ok None
  | n :: rest =>
      match cn_frame n with
      | None => Ok None
      | Some f =>
          let* i := deref frame_id in
          let* m := strncmp_eq 4 (cf_id f) i in
          if m then Ok (Some f) else get_from_list rest frame_id
      end
  end.

(** compat.c:112-124 new_tag: only the identifier of the header is assigned,
    and [raw] is not. *)
Definition new_tag : ctag :=
  mkCTag None (mkCH (cells (lit "ID3")) None None None None None) new_frame_list ID3v2_Tag_new_empty.

(** compat.c:169-174, the loop of load_tag_with_buffer. *)
Fixpoint load_frames (head : flist) (compat_frames : clist) : outcome clist :=
  match head with
  | [] => Ok compat_frames
  | n :: rest =>
      let* f := frame_to_compat_frame (n_frame n) in
      let* compat_frames := add_to_list compat_frames f in
      load_frames rest compat_frames
  end.

(** compat.c:143-179 load_tag_with_buffer.  The sizes are unsigned in the
    current header and int in this one. *)
Definition load_tag_with_buffer (buffer : cptr) (length : Z) : outcome ctag :=
  let* tag := ID3v2_read_tag_from_buffer buffer length in
  let* raw := memcpy_from buffer length in
  let* tag := deref tag in
  let h := t_header tag in
  let header := mkCH (cells (th_identifier h)) (Some (th_major h)) (Some (th_minor h)) (Some (th_flags h))
                     (Some (to_i32 (th_tag_size h))) (Some (to_i32 (th_ext_size h))) in
  let* frames := load_frames (t_frames tag) new_frame_list in
  Ok (mkCTag (Some raw) header frames tag).

(** compat.c:126-141 load_tag. *)
Definition load_tag (f : file) : outcome ctag :=
  let* header := ID3v2_read_tag_header f in
  let* header := deref header in
  let buffer_size := declared_length header in
  let* content := deref f in
  load_tag_with_buffer (Some (fread_into content buffer_size)) buffer_size.

(** compat.c:181-184 remove_tag. *)
Definition remove_tag (f : file) : outcome file := ID3v2_delete_tag f.

(** compat.c:186-189 set_tag; writing changes the padding of the tag. *)
Definition set_tag (f : file) (tag : option ctag) : outcome (file * ctag) :=
  let* t := deref tag in
  let* (f, inner) := ID3v2_write_tag f (Some (ct_tag t)) in
  let* inner := deref inner in
  Ok (f, mkCTag (ct_raw t) (ct_header t) (ct_frames t) inner).

(** compat.c:205-211, the loop of free_tag: free_frame (191-195) reads the data
    pointer of the frame. *)
Fixpoint free_nodes (l : clist) : outcome unit :=
  match l with
  | [] => Ok tt
  | n :: rest =>
      let* _ := deref (cn_frame n) in
      free_nodes rest
  end.

(** compat.c:197-214 free_tag.  (ID3v2_Tag_free: Heap.v.) *)
Definition free_tag (tag : option ctag) : outcome unit :=
  let* t := deref tag in
  match ct_raw t with
  | None => Ub UninitRead
  | Some _ => free_nodes (ct_frames t)
  end.

(** ** Getters, compat.c:216-269 *)

Definition get_compat (tag : option ctag) (frame_id : cptr) : outcome (option cframe) :=
  let* t := deref tag in
  get_from_list (ct_frames t) frame_id.

(** compat.c:216-219 *)
Definition tag_get_title tag := get_compat tag ID3v2_TITLE_FRAME_ID.
(** compat.c:221-224 *)
Definition tag_get_artist tag := get_compat tag ID3v2_ARTIST_FRAME_ID.
(** compat.c:226-229 *)
Definition tag_get_album tag := get_compat tag ID3v2_ALBUM_FRAME_ID.
(** compat.c:231-234 *)
Definition tag_get_album_artist tag := get_compat tag ID3v2_ALBUM_ARTIST_FRAME_ID.
(** compat.c:236-239 *)
Definition tag_get_genre tag := get_compat tag ID3v2_GENRE_FRAME_ID.
(** compat.c:241-244 *)
Definition tag_get_track tag := get_compat tag ID3v2_TRACK_FRAME_ID.
(** compat.c:246-249 *)
Definition tag_get_year tag := get_compat tag ID3v2_YEAR_FRAME_ID.
(** compat.c:251-254 *)
Definition tag_get_comment tag := get_compat tag ID3v2_COMMENT_FRAME_ID.
(** compat.c:256-259 *)
Definition tag_get_disc_number tag := get_compat tag ID3v2_DISC_NUMBER_FRAME_ID.
(** compat.c:261-264 *)
Definition tag_get_composer tag := get_compat tag ID3v2_COMPOSER_FRAME_ID.
(** compat.c:266-269 *)
Definition tag_get_album_cover tag := get_compat tag ID3v2_ALBUM_COVER_FRAME_ID.

(** ** Contents.  They read the underlying frame, which has to be alive: the
    frames alive are those in the list of the tag, since every function that
    takes a frame off the list frees it. *)

Fixpoint frame_at (l : flist) (a : nat) : outcome frame :=
  match l with
  | [] => Ub UseAfterFree
  | n :: rest =>
      match n_frame n with
      | Some p => if Nat.eqb (fp_addr p) a then Ok (fp_frame p) else frame_at rest a
      | None => frame_at rest a
      end
  end.

(** id3v2lib.compat.h:31-36 *)
Record text_content := mkTC { tc_size : Z; tc_encoding : byte; tc_data : mem }.
(** id3v2lib.compat.h:38-43 *)
Record comment_content := mkCC { cc_language : mem; cc_short : mem; cc_text : text_content }.
(** id3v2lib.compat.h:45-53 *)
Record apic_content := mkAC {
  ac_encoding : byte; ac_mime : mem; ac_type : byte; ac_desc : mem; ac_size : Z; ac_data : mem }.

(** compat.c:271-283 parse_text_frame_content; [live] is the list of the tag
    that the frame comes from. *)
Definition parse_text_frame_content (live : flist) (f : option cframe) : outcome text_content :=
  let* f := deref f in
  let* g := frame_at live (cf_frame f) in
  match f_data g with
  | DText d =>
      let* data := memcpy_from (Some (td_text d)) (td_size d) in
      Ok (mkTC (td_size d) (td_encoding d) data)
  | _ => Ub TypeConfusion
  end.

(** compat.c:285-299 parse_comment_frame_content. *)
Definition parse_comment_frame_content (live : flist) (f : option cframe) : outcome comment_content :=
  let* f := deref f in
  let* g := frame_at live (cf_frame f) in
  match f_data g with
  | DComment d =>
      Ok (mkCC (cd_language d) (cd_short d) (mkTC (cd_size d) (cd_encoding d) (cd_comment d)))
  | _ => Ub TypeConfusion
  end.

(** compat.c:301-315 parse_apic_frame_content. *)
Definition parse_apic_frame_content (live : flist) (f : option cframe) : outcome apic_content :=
  let* f := deref f in
  let* g := frame_at live (cf_frame f) in
  match f_data g with
  | DApic d =>
      Ok (mkAC (ad_encoding d) (ad_mime d) (ad_type d) (ad_desc d) (ad_picture_size d) (ad_data d))
  | _ => Ub TypeConfusion
  end.

(** ** Setters *)

(** The common shape of compat.c:317-415 and 440-453: set in the underlying
    tag, get the frame from it, put its copy into the list. *)
Definition set_compat (tag : option ctag) (set : Tag -> outcome Tag)
    (get : option Tag -> outcome (option fptr)) : outcome ctag :=
  let* t := deref tag in
  let* inner := set (ct_tag t) in
  let* p := get (Some inner) in
  let* f := frame_to_compat_frame p in
  let* frames := add_uniq_to_list (ct_frames t) f in
  Ok (mkCTag (ct_raw t) (ct_header t) frames inner).

(** compat.c:317-325; [encoding] is not used, here and below. *)
Definition tag_set_title (title : cptr) (encoding : byte) (tag : option ctag) : outcome ctag :=
  set_compat tag (fun t => ID3v2_Tag_set_title t title) ID3v2_Tag_get_title_frame.
(** compat.c:327-335 *)
Definition tag_set_artist (artist : cptr) (encoding : byte) (tag : option ctag) : outcome ctag :=
  set_compat tag (fun t => ID3v2_Tag_set_artist t artist) ID3v2_Tag_get_artist_frame.
(** compat.c:337-345 *)
Definition tag_set_album (album : cptr) (encoding : byte) (tag : option ctag) : outcome ctag :=
  set_compat tag (fun t => ID3v2_Tag_set_album t album) ID3v2_Tag_get_album_frame.
(** compat.c:347-355 *)
Definition tag_set_album_artist (album_artist : cptr) (encoding : byte) (tag : option ctag) : outcome ctag :=
  set_compat tag (fun t => ID3v2_Tag_set_album_artist t album_artist) ID3v2_Tag_get_album_artist_frame.
(** compat.c:357-365 *)
Definition tag_set_genre (genre : cptr) (encoding : byte) (tag : option ctag) : outcome ctag :=
  set_compat tag (fun t => ID3v2_Tag_set_genre t genre) ID3v2_Tag_get_genre_frame.
(** compat.c:367-375 *)
Definition tag_set_track (track : cptr) (encoding : byte) (tag : option ctag) : outcome ctag :=
  set_compat tag (fun t => ID3v2_Tag_set_track t track) ID3v2_Tag_get_track_frame.
(** compat.c:377-385 *)
Definition tag_set_year (year : cptr) (encoding : byte) (tag : option ctag) : outcome ctag :=
  set_compat tag (fun t => ID3v2_Tag_set_year t year) ID3v2_Tag_get_year_frame.
(** compat.c:387-395 *)
Definition tag_set_comment (comment : cptr) (encoding : byte) (tag : option ctag) : outcome ctag :=
  set_compat tag (fun t => ID3v2_Tag_set_comment t (clit "eng") comment) ID3v2_Tag_get_comment_frame.
(** compat.c:397-405 *)
Definition tag_set_disc_number (disc_number : cptr) (encoding : byte) (tag : option ctag) : outcome ctag :=
  set_compat tag (fun t => ID3v2_Tag_set_disc_number t disc_number) ID3v2_Tag_get_disc_number_frame.
(** compat.c:407-415 *)
Definition tag_set_composer (composer : cptr) (encoding : byte) (tag : option ctag) : outcome ctag :=
  set_compat tag (fun t => ID3v2_Tag_set_composer t composer) ID3v2_Tag_get_composer_frame.

(** compat.c:440-453 *)
Definition tag_set_album_cover_from_bytes (bytes mimetype : cptr) (picture_size : Z) (tag : option ctag)
  : outcome ctag :=
  set_compat tag (fun t => ID3v2_Tag_set_album_cover t mimetype picture_size bytes)
             ID3v2_Tag_get_album_cover_frame.

(** apic_frame.h:15-16 *)
Definition ID3v2_MIME_TYPE_JPG : cptr := clit "image/jpeg".
Definition ID3v2_MIME_TYPE_PNG : cptr := clit "image/png".

(** strrchr(name, c) + 1: the cells after the last [c] before the terminator.
    [found] is the result so far (NULL: None). *)
Fixpoint after_last (c : byte) (m : mem) (found : cptr) : outcome cptr :=
  match m with
  | [] => Ub OobRead
  | None :: _ => Ub UninitRead
  | Some b :: m' =>
      if beq b x00 then Ok found
      else after_last c m' (if beq b c then Some m' else found)
  end.

(** compat.c:417-438 tag_set_album_cover; [picture] is the file called
    [filename].  strcmp with "png" is comparison of four characters. *)
Definition tag_set_album_cover (filename : cptr) (picture : file) (tag : option ctag) : outcome ctag :=
  let* content := deref picture in
  let image_size := to_i32 (zlen content) in
  if image_size <? 0 then Ub BadSize
  else
    let bytes := fread_into content image_size in
    let* name := deref filename in
    let* ext := after_last "."%byte name None in
    let* ext := deref ext in
    let* png := strncmp_eq 4 ext (cells (lit "png" ++ [x00])) in
    let mimetype := if png then ID3v2_MIME_TYPE_PNG else ID3v2_MIME_TYPE_JPG in
    tag_set_album_cover_from_bytes (Some bytes) mimetype image_size tag.
