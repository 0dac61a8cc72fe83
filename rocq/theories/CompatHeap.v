(** The heap under src/id3v2lib.compat.c: the structs of the version 1
    interface, which it keeps beside the tag they show.

    As in Heap.v, what is computed is taken from Compat.v and the other files,
    a struct is allocated with the contents it is given right afterwards, and
    FILE objects are not modelled. *)
From Verif Require Export Compat HeapIO SpecCompat.

(** Access through a pointer of a given struct type. *)
Definition load_cframe (p : ptr) (h : heap) : outcome (mem * Z * mem * ptr * ptr) :=
  let* x := load p h in
  match x with BCFrame i s fl d f => Ok (i, s, fl, d, f) | _ => Ub TypeConfusion end.
Definition load_cnode (p : ptr) (h : heap) : outcome (ptr * ptr * option ptr * ptr) :=
  let* x := load p h in
  match x with BCNode f s la n => Ok (f, s, la, n) | _ => Ub TypeConfusion end.
Definition load_ctag (p : ptr) (h : heap) : outcome (option ptr * ptr * ptr * ptr) :=
  let* x := load p h in
  match x with BCTag r hd fr t => Ok (r, hd, fr, t) | _ => Ub TypeConfusion end.

(** Using the value of a field. *)
Definition assigned (p : option ptr) : outcome ptr :=
  match p with Some p => Ok p | None => Ub UninitRead end.

(** compat.c:23-35 new_frame_list: [last] is not assigned. *)
Definition new_frame_list_h (h : heap) : nat * heap := malloc (BCNode None None None None) h.

(** compat.c:37-56 frame_to_compat_frame. *)
Definition frame_to_compat_frame_h (frame : ptr) (h : heap) : outcome (nat * heap) :=
  let* hd := header_of frame h in
  let* id := memcpy_from (Some (fh_id hd)) ID3v2_FRAME_HEADER_ID_LENGTH in
  let* flags := memcpy_from (Some (fh_flags hd)) ID3v2_TAG_HEADER_FLAGS_LENGTH in
  let* (frame_cs, h) := Frame_to_char_stream_h frame h in
  let* h := CharStream_seek_h frame_cs ID3v2_FRAME_HEADER_LENGTH SEEK_SET h in
  if fh_size hd <? 0 then Ub BadSize
  else
    let* (data, h) := read_into_h frame_cs (fh_size hd) h in
    let (d, h) := malloc (BBytes data) h in
    let* h := CharStream_free frame_cs h in
    Ok (malloc (BCFrame id (fh_size hd) (flags ++ [None]) (Some d) frame) h).

(** compat.c:58-77 add_to_list. *)
Definition add_to_list_h (main frame : ptr) (h : heap) : outcome heap :=
  let* (_, st, _, nx) := load_cnode main h in
  match st with
  | None => store main (BCNode frame main (Some main) nx) h
  | Some _ =>
      let (current, h) := new_frame_list_h h in
      let* (_, st, _, _) := load_cnode main h in
      let* h := store (Some current) (BCNode frame st None None) h in
      let* (_, _, la, _) := load_cnode main h in
      let* la := assigned la in
      let* (f, s, l, _) := load_cnode la h in
      let* h := store la (BCNode f s l (Some current)) h in
      let* (f, s, _, n) := load_cnode main h in
      store main (BCNode f s (Some (Some current)) n) h
  end.

(** compat.c:191-195 free_frame. *)
Definition free_frame_h (frame : ptr) (h : heap) : outcome heap :=
  let* (_, _, _, data, _) := load_cframe frame h in
  let* h := free data h in
  free frame h.

(** compat.c:79-95 add_uniq_to_list. *)
Fixpoint add_uniq_loop (fuel : nat) (head frame : ptr) (h : heap) : outcome heap :=
  match fuel with
  | O => NoFuel
  | S fuel =>
      match head with
      | None =>
          let* (_, st, _, _) := load_cnode head h in
          add_to_list_h st frame h
      | Some _ =>
          let* (f, s, la, nx) := load_cnode head h in
          let* (id, _, _, _, _) := load_cframe f h in
          let* (new_id, _, _, _, _) := load_cframe frame h in
          let* same := memcmp_cells 4 id new_id in
          if same then
            let* h := free_frame_h f h in
            let* (_, s, la, nx) := load_cnode head h in
            store head (BCNode frame s la nx) h
          else add_uniq_loop fuel nx frame h
      end
  end.
Definition add_uniq_to_list_h (head frame : ptr) (h : heap) : outcome heap := add_uniq_loop (enough h) head frame h.

(** compat.c:97-110 get_from_list. *)
Fixpoint get_from_loop (fuel : nat) (list : ptr) (frame_id : cptr) (h : heap) : outcome ptr :=
  match fuel with
  | O => NoFuel
  | S fuel =>
      match list with
      | None => Ok None
      | Some _ =>
          let* (f, _, _, nx) := load_cnode list h in
          match f with
          | None => Ok None
          | Some _ =>
              let* (id, _, _, _, _) := load_cframe f h in
              let* i := deref frame_id in
              let* m := strncmp_eq 4 id i in
              if m then Ok f else get_from_loop fuel nx frame_id h
          end
      end
  end.
Definition get_from_list_h (list : ptr) (frame_id : cptr) (h : heap) : outcome ptr :=
  get_from_loop (enough h) list frame_id h.

(** compat.c:112-124 new_tag: [raw] and most of the header are not assigned. *)
Definition new_tag_h (h : heap) : nat * heap :=
  let (hd, h) := malloc (BCHeader (ct_header new_tag)) h in
  let (fr, h) := new_frame_list_h h in
  let (t, h) := ID3v2_Tag_new_empty_h h in
  malloc (BCTag None (Some hd) (Some fr) (Some t)) h.

(** compat.c:169-174, the loop of load_tag_with_buffer. *)
Fixpoint load_frames_h (fuel : nat) (head compat_frames : ptr) (h : heap) : outcome heap :=
  match fuel with
  | O => NoFuel
  | S fuel =>
      match head with
      | None => Ok h
      | Some _ =>
          let* (f, _, _) := load_node head h in
          let* (compat_frame, h) := frame_to_compat_frame_h f h in
          let* h := add_to_list_h compat_frames (Some compat_frame) h in
          let* (_, _, nx) := load_node head h in
          load_frames_h fuel nx compat_frames h
      end
  end.

(** compat.c:143-179 load_tag_with_buffer. *)
Definition load_tag_with_buffer_h (buffer : cptr) (length : Z) (h : heap) : outcome (nat * heap) :=
  let* (tag, h) := ID3v2_read_tag_from_buffer_h buffer length h in
  let* m := memcpy_from buffer length in
  let (raw, h) := malloc (BBytes m) h in
  let* th := tag_header_of tag h in
  let header := mkCH (cells (th_identifier th)) (Some (th_major th)) (Some (th_minor th)) (Some (th_flags th))
                     (Some (to_i32 (th_tag_size th))) (Some (to_i32 (th_ext_size th))) in
  let (hd, h) := malloc (BCHeader header) h in
  let* head := frames_of tag h in
  let (compat_frames, h) := new_frame_list_h h in
  let* h := load_frames_h (enough h) head (Some compat_frames) h in
  Ok (malloc (BCTag (Some (Some raw)) (Some hd) (Some compat_frames) tag) h).

(** compat.c:126-141 load_tag. *)
Definition load_tag_h (f : file) (h : heap) : outcome (nat * heap) :=
  let* (header, h) := ID3v2_read_tag_header_h f h in
  let* th := load_tag_header header h in
  let buffer_size := declared_length th in
  let* content := deref f in
  let (buffer, h) := malloc (BBytes (fread_into content buffer_size)) h in
  let* m := load_bytes (Some buffer) h in
  let* (tag, h) := load_tag_with_buffer_h (Some m) buffer_size h in
  let* h := free (Some buffer) h in
  let* h := ID3v2_TagHeader_free header h in
  Ok (tag, h).

(** compat.c:181-184 remove_tag. *)
Definition remove_tag_h (f : file) (h : heap) : outcome (list file * heap) := ID3v2_delete_tag_h f h.

(** compat.c:186-189 set_tag. *)
Definition set_tag_h (f : file) (tag : ptr) (h : heap) : outcome (list file * heap) :=
  let* (_, _, _, t) := load_ctag tag h in
  ID3v2_write_tag_h f t h.

(** compat.c:205-211, the loop of free_tag. *)
Fixpoint free_nodes_h (fuel : nat) (list : ptr) (h : heap) : outcome heap :=
  match fuel with
  | O => NoFuel
  | S fuel =>
      match list with
      | None => Ok h
      | Some _ =>
          let* (f, _, _, _) := load_cnode list h in
          let* h := free_frame_h f h in
          let* (_, _, _, new_head) := load_cnode list h in
          let* h := free list h in
          free_nodes_h fuel new_head h
      end
  end.

(** compat.c:197-214 free_tag. *)
Definition free_tag_h (tag : ptr) (h : heap) : outcome heap :=
  let* (raw, _, _, _) := load_ctag tag h in
  let* raw := assigned raw in
  let* h := free raw h in
  let* (_, hd, _, _) := load_ctag tag h in
  let* h := free hd h in
  let* (_, _, _, t) := load_ctag tag h in
  let* h := ID3v2_Tag_free t h in
  let* (_, _, fr, _) := load_ctag tag h in
  let* h := free_nodes_h (enough h) fr h in
  free tag h.

(** compat.c:216-269: the getters, which differ in the id. *)
Definition get_compat_h (tag : ptr) (frame_id : cptr) (h : heap) : outcome ptr :=
  let* (_, _, fr, _) := load_ctag tag h in
  get_from_list_h fr frame_id h.

(** ** Contents *)

(** compat.c:271-283 parse_text_frame_content. *)
Definition parse_text_frame_content_h (frame : ptr) (h : heap) : outcome (nat * heap) :=
  let* (_, _, _, _, f) := load_cframe frame h in
  let* (size, enc, text) := text_data f h in
  let* m := load_bytes text h in
  let* data := memcpy_from (Some m) size in
  let (d, h) := malloc (BBytes data) h in
  Ok (malloc (BTextContent size enc (Some d)) h).

(** frame->frame->data *)
Definition data_of (frame : ptr) (h : heap) : outcome ptr :=
  let* (_, da) := load_frame frame h in
  Ok da.

(** compat.c:285-299 parse_comment_frame_content.  [language] is an array in the
    struct of the data: the pointer to it is a pointer into that block. *)
Definition parse_comment_frame_content_h (frame : ptr) (h : heap) : outcome (nat * heap) :=
  let* (_, _, _, _, f) := load_cframe frame h in
  let* (size, enc, _, short, comment) := comment_data f h in
  let* da := data_of f h in
  let (t, h) := malloc (BTextContent size enc comment) h in
  Ok (malloc (BCommentContent da short (Some t)) h).

(** compat.c:301-315 parse_apic_frame_content. *)
Definition parse_apic_frame_content_h (frame : ptr) (h : heap) : outcome (nat * heap) :=
  let* (_, _, _, _, f) := load_cframe frame h in
  let* (enc, mime, type, desc, data, size) := apic_data f h in
  Ok (malloc (BApicContent enc mime type desc size data) h).

(** ** Setters *)

(** The common shape of compat.c:317-415 and 440-453. *)
Definition set_compat_h (tag : ptr) (c : call) (frame_id : cptr) (h : heap) : outcome heap :=
  let* (_, _, _, t) := load_ctag tag h in
  let* h := run_call_h t c h in
  let* (_, _, _, t) := load_ctag tag h in
  let* f := ID3v2_Tag_get_frame_h t frame_id h in
  let* (compat_frame, h) := frame_to_compat_frame_h f h in
  let* (_, _, fr, _) := load_ctag tag h in
  add_uniq_to_list_h fr (Some compat_frame) h.

(** compat.c:440-453 *)
Definition tag_set_album_cover_from_bytes_h (bytes mimetype : cptr) (picture_size : Z) (tag : ptr) (h : heap) : outcome heap :=
  set_compat_h tag (SetAlbumCover mimetype picture_size bytes) ID3v2_ALBUM_COVER_FRAME_ID h.

(** compat.c:417-438 tag_set_album_cover. *)
Definition tag_set_album_cover_h (filename : cptr) (picture : file) (tag : ptr) (h : heap) : outcome heap :=
  let* content := deref picture in
  let image_size := to_i32 (zlen content) in
  if image_size <? 0 then Ub BadSize
  else
    let (album_cover_bytes, h) := malloc (BBytes (fread_into content image_size)) h in
    let* name := deref filename in
    let* ext := after_last "."%byte name None in
    let* ext := deref ext in
    let* png := strncmp_eq 4 ext (cells (lit "png" ++ [x00])) in
    let mimetype := if png then ID3v2_MIME_TYPE_PNG else ID3v2_MIME_TYPE_JPG in
    let* m := load_bytes (Some album_cover_bytes) h in
    let* h := tag_set_album_cover_from_bytes_h (Some m) mimetype image_size tag h in
    free (Some album_cover_bytes) h.

(** The setters by name: compat.c:317-453. *)
Definition run_ccall_h (c : ccall) (tag : ptr) (h : heap) : outcome heap :=
  match c with
  | CTitle s _ => set_compat_h tag (SetTitle s) ID3v2_TITLE_FRAME_ID h
  | CArtist s _ => set_compat_h tag (SetArtist s) ID3v2_ARTIST_FRAME_ID h
  | CAlbum s _ => set_compat_h tag (SetAlbum s) ID3v2_ALBUM_FRAME_ID h
  | CAlbumArtist s _ => set_compat_h tag (SetAlbumArtist s) ID3v2_ALBUM_ARTIST_FRAME_ID h
  | CGenre s _ => set_compat_h tag (SetGenre s) ID3v2_GENRE_FRAME_ID h
  | CTrack s _ => set_compat_h tag (SetTrack s) ID3v2_TRACK_FRAME_ID h
  | CYear s _ => set_compat_h tag (SetYear s) ID3v2_YEAR_FRAME_ID h
  | CComment s _ => set_compat_h tag (SetComment (clit "eng") s) ID3v2_COMMENT_FRAME_ID h
  | CDiscNumber s _ => set_compat_h tag (SetDiscNumber s) ID3v2_DISC_NUMBER_FRAME_ID h
  | CComposer s _ => set_compat_h tag (SetComposer s) ID3v2_COMPOSER_FRAME_ID h
  | CCoverBytes b m n => tag_set_album_cover_from_bytes_h b m n tag h
  | CCoverFile name f => tag_set_album_cover_h name f tag h
  end.

(** What a program does with a version 1 tag between loading and freeing it:
    setting frames, and saving it to a file. *)
Inductive v1_op := OpSet (c : ccall) | OpSave (f : file).

Fixpoint run_ops (ops : list v1_op) (t : ctag) : outcome (list file * ctag) :=
  match ops with
  | [] => Ok ([], t)
  | OpSet c :: ops => let* t := run_ccall c (Some t) in run_ops ops t
  | OpSave f :: ops =>
      let* (f, t) := set_tag f (Some t) in
      let* (fs, t) := run_ops ops t in
      Ok (f :: fs, t)
  end.

Fixpoint run_ops_h (ops : list v1_op) (tag : ptr) (h : heap) : outcome (list file * heap) :=
  match ops with
  | [] => Ok ([], h)
  | OpSet c :: ops => let* h := run_ccall_h c tag h in run_ops_h ops tag h
  | OpSave f :: ops =>
      let* (states, h) := set_tag_h f tag h in
      let* (fs, h) := run_ops_h ops tag h in
      Ok (last states f :: fs, h)
  end.

(** A tag is loaded from a file, used and freed. *)
Definition v1_program (f : file) (ops : list v1_op) : outcome (list file * ctag) :=
  let* t := load_tag f in
  let* (fs, t) := run_ops ops t in
  let* _ := free_tag (Some t) in
  Ok (fs, t).

Definition v1_program_h (f : file) (ops : list v1_op) (h : heap) : outcome (list file * heap) :=
  let* (a, h) := load_tag_h f h in
  let* (fs, h) := run_ops_h ops (Some a) h in
  let* h := free_tag_h (Some a) h in
  Ok (fs, h).
