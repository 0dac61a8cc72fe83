(** Arguments that point into the heap.  Heap.v takes the strings a caller
    passes in as values; here they may be pointers into blocks, also into those
    of the tag that is edited: a text of one of its frames, the id or the flags
    in a header, the language of a comment.  They are read where the code reads
    them, so that it matters what has happened to the block until then.

    Simplification: the functions that make the data of a frame read their
    arguments before and after their mallocs, here before; they do nothing
    else in between. *)
From Verif Require Export Heap.

(** The arrays of characters in the blocks. *)
Inductive part := TheBytes | TheId | TheFlags | TheLanguage.

(** A [const char*]: to memory of the caller, or [offset] characters into an
    array of a block. *)
Inductive carg := Own (c : cptr) | Inside (p : nat) (what : part) (offset : nat).

Definition array (what : part) (x : block) : option mem :=
  match what, x with
  | TheBytes, BBytes m => Some m
  | TheId, BFrameHeader hd => Some (fh_id hd)
  | TheFlags, BFrameHeader hd => Some (fh_flags hd)
  | TheLanguage, BComment _ _ l _ _ => Some l
  | _, _ => None
  end.

(** What is there to be read. *)
Definition fetch (x : carg) (h : heap) : outcome cptr :=
  match x with
  | Own c => Ok c
  | Inside p what offset =>
      let* b := load (Some p) h in
      match array what b with
      | Some m => Ok (Some (skipn offset m))
      | None => Ub TypeConfusion
      end
  end.

(** frame_header.c:20-29 FrameHeader_new. *)
Definition FrameHeader_new_a (id flags : carg) (size : Z) (h : heap) : outcome (nat * heap) :=
  let* i := fetch id h in
  let* f := fetch flags h in
  FrameHeader_new_h i f size h.

(** text_frame.c:21-31 TextFrame_new. *)
Definition TextFrame_new_a (id flags text : carg) (h : heap) : outcome (nat * heap) :=
  let* t := fetch text h in
  let* (d, size, h) := TextFrameData_new_h t h in
  let* frame_size := iadd ID3v2_FRAME_ENCODING_LENGTH size in
  let* (hd, h) := FrameHeader_new_a id flags frame_size h in
  Ok (malloc (BFrame (Some hd) (Some d)) h).

(** comment_frame.c:22-40 CommentFrame_new. *)
Definition CommentFrame_new_a (flags lang short_desc comment : carg) (h : heap) : outcome (nat * heap) :=
  let* l := fetch lang h in
  let* s := fetch short_desc h in
  let* c := fetch comment h in
  let* (d, size, h) := CommentFrameData_new_h l s c h in
  let* s := fetch short_desc h in
  let* short_desc_size := ID3v2_strlent s in
  let* s := iadd size short_desc_size in
  let* s := iadd s ID3v2_FRAME_ENCODING_LENGTH in
  let* frame_size := iadd s ID3v2_COMMENT_FRAME_LANGUAGE_LENGTH in
  let* (hd, h) := FrameHeader_new_a (Own ID3v2_COMMENT_FRAME_ID) flags frame_size h in
  Ok (malloc (BFrame (Some hd) (Some d)) h).

(** apic_frame.c:23-45 ApicFrame_new. *)
Definition ApicFrame_new_a (flags description : carg) (picture_type : byte) (mime_type : carg)
    (picture_size : Z) (data : carg) (h : heap) : outcome (nat * heap) :=
  let* e := fetch description h in
  let* m := fetch mime_type h in
  let* b := fetch data h in
  let* (d, size, h) := ApicFrameData_new_h e picture_type m picture_size b h in
  let* e := fetch description h in
  let* description_size := ID3v2_strlent e in
  let* m := fetch mime_type h in
  let* mime_type_size := ID3v2_strlent m in
  let* s := iadd ID3v2_FRAME_ENCODING_LENGTH mime_type_size in
  let* s := iadd s ID3v2_APIC_FRAME_PICTURE_TYPE_LENGTH in
  let* s := iadd s description_size in
  let* frame_size := iadd s size in
  let* (hd, h) := FrameHeader_new_a (Own ID3v2_ALBUM_COVER_FRAME_ID) flags frame_size h in
  Ok (malloc (BFrame (Some hd) (Some d)) h).

(** strncmp(frame->header->id, frame_id, 4) == 0 *)
Definition id_matches_a (frame : ptr) (frame_id : carg) (h : heap) : outcome bool :=
  let* hd := header_of frame h in
  let* i := fetch frame_id h in
  let* i := deref i in
  strncmp_eq 4 (fh_id hd) i.

(** frame_list.c:60-73 FrameList_get_frame_by_id. *)
Fixpoint get_frame_by_id_a (fuel : nat) (list : ptr) (frame_id : carg) (h : heap) : outcome ptr :=
  match fuel with
  | O => NoFuel
  | S fuel =>
      match list with
      | None => Ok None
      | Some _ =>
          let* (f, _, nx) := load_node list h in
          match f with
          | None => Ok None
          | Some _ =>
              let* m := id_matches_a f frame_id h in
              if m then Ok f else get_frame_by_id_a fuel nx frame_id h
          end
      end
  end.
Definition FrameList_get_frame_by_id_a (list : ptr) (frame_id : carg) (h : heap) : outcome ptr :=
  get_frame_by_id_a (enough h) list frame_id h.

(** frame_list.c:82-90, the loop of FrameList_get_frames_by_id. *)
Fixpoint get_frames_loop_a (fuel : nat) (list : ptr) (frame_id : carg) (sublist : ptr) (h : heap) : outcome heap :=
  match fuel with
  | O => NoFuel
  | S fuel =>
      match list with
      | None => Ok h
      | Some _ =>
          let* (f, _, _) := load_node list h in
          match f with
          | None => Ok h
          | Some _ =>
              let* m := id_matches_a f frame_id h in
              let* h := if m then FrameList_add_frame_h sublist f h else Ok h in
              let* (_, _, nx) := load_node list h in
              get_frames_loop_a fuel nx frame_id sublist h
          end
      end
  end.
(** frame_list.c:78-93 FrameList_get_frames_by_id. *)
Definition FrameList_get_frames_by_id_a (list : ptr) (frame_id : carg) (h : heap) : outcome (ptr * heap) :=
  let (sublist, h) := FrameList_new_h h in
  let* h := get_frames_loop_a (enough h) list frame_id (Some sublist) h in
  Ok (Some sublist, h).

(** frame_list.c:116-135 FrameList_remove_frame_by_id. *)
Fixpoint remove_by_id_a (fuel : nat) (list : ptr) (frame_id : carg) (h : heap) : outcome (ptr * heap) :=
  match fuel with
  | O => NoFuel
  | S fuel =>
      match list with
      | None => Ok (None, h)
      | Some _ =>
          let* (f, _, nx) := load_node list h in
          let* m := id_matches_a f frame_id h in
          if m then let* h := cut_node list h in Ok (f, h)
          else remove_by_id_a fuel nx frame_id h
      end
  end.

(** tag.c:111-121 ID3v2_Tag_get_frame, ID3v2_Tag_get_frames. *)
Definition ID3v2_Tag_get_frame_a (tag : ptr) (frame_id : carg) (h : heap) : outcome ptr :=
  match tag with
  | None => Ok None
  | Some _ => let* fr := frames_of tag h in FrameList_get_frame_by_id_a fr frame_id h
  end.
Definition ID3v2_Tag_get_frames_a (tag : ptr) (frame_id : carg) (h : heap) : outcome (ptr * heap) :=
  match tag with
  | None => Ok (None, h)
  | Some _ => let* fr := frames_of tag h in FrameList_get_frames_by_id_a fr frame_id h
  end.

(** The calls with arguments. *)
Inductive acall :=
| ASetText (id flags text : carg)                                  (* tag.c:201-222 *)
| ASetComment (flags lang short_desc comment : carg)               (* tag.c:335-356 *)
| AAddComment (flags lang short_desc comment : carg)               (* tag.c:358-364 *)
| ASetApic (flags mime description : carg) (type : byte) (size : Z) (data : carg)  (* tag.c:382-409 *)
| AAddApic (flags mime description : carg) (type : byte) (size : Z) (data : carg)  (* tag.c:411-423 *)
| ADelete (id : carg).                                             (* tag.c:455-462 *)

Definition run_acall (tag : ptr) (c : acall) (h : heap) : outcome heap :=
  match c with
  | ASetText id flags text =>
      let* (new_frame, h) := TextFrame_new_a id flags text h in
      let* fr := frames_of tag h in
      let* existing_frame := FrameList_get_frame_by_id_a fr id h in
      install_frame_h tag existing_frame (Some new_frame) h
  | ASetComment flags lang short_desc comment =>
      let* (new_frame, h) := CommentFrame_new_a flags lang short_desc comment h in
      let* fr := frames_of tag h in
      let* existing_frame := FrameList_get_frame_by_id_h fr ID3v2_COMMENT_FRAME_ID h in
      install_frame_h tag existing_frame (Some new_frame) h
  | AAddComment flags lang short_desc comment =>
      let* (new_frame, h) := CommentFrame_new_a flags lang short_desc comment h in
      install_frame_h tag None (Some new_frame) h
  | ASetApic flags mime description type size data =>
      let* (new_frame, h) := ApicFrame_new_a flags description type mime size data h in
      let* fr := frames_of tag h in
      let* existing_frame := FrameList_get_frame_by_id_h fr ID3v2_ALBUM_COVER_FRAME_ID h in
      install_frame_h tag existing_frame (Some new_frame) h
  | AAddApic flags mime description type size data =>
      let* (new_frame, h) := ApicFrame_new_a flags description type mime size data h in
      install_frame_h tag None (Some new_frame) h
  | ADelete id =>
      let* fr := frames_of tag h in
      let* (deleted, h) := remove_by_id_a (enough h) fr id h in
      let* hd := header_of deleted h in
      let* n := iadd (fh_size hd) ID3v2_FRAME_HEADER_LENGTH in
      let* h := grow tag (- n) h in
      ID3v2_Frame_free deleted h
  end.
