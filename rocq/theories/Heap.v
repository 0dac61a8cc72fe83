(** The heap under frame_list.c, frame.c, frames/*.c and tag.c: which objects
    are allocated, by whom they are pointed to, and who frees them.

    The other files of the model give tags, lists and frames as values.  Here
    every malloc'ed object is a block of its own, with pointers to others, and
    the functions of the library are written on top of malloc and free.  What
    is computed (sizes, encodings, copied bytes) is taken from the other
    files.  Fields that hold strings by value there are pointers to blocks
    here.

    Simplifications: an address is a number that malloc never gives out again,
    so that any use of a pointer to a freed object is noticed; allocation does
    not fail; the objects the caller passes in (strings, structs of inputs)
    are not blocks. *)
From Verif Require Export Calls.
From Verif Require Compat.
#[local] Notation cheader := Compat.cheader.

(** NULL is [None]. *)
Definition ptr := option nat.

Inductive block :=
| BNode (frame start next : ptr)                                   (* frame_list.h:15-20 *)
| BFrame (header data : ptr)                                       (* frame.h:20-24, text_frame.h:22-26, comment_frame.h:26-30, apic_frame.h:30-34 *)
| BFrameHeader (h : FrameHeader)                                   (* frame_header.h:18-23 *)
| BText (size : Z) (encoding : byte) (text : ptr)                  (* text_frame.h:15-20 *)
| BComment (size : Z) (encoding : byte) (language : mem) (short comment : ptr)   (* comment_frame.h:17-24 *)
| BApic (encoding : byte) (mime : ptr) (type : byte) (desc data : ptr) (size : Z) (* apic_frame.h:20-28 *)
| BBytes (m : mem)                                                 (* char[] *)
| BTagHeader (h : TagHeader)                                       (* tag_header.h:21-29 *)
| BTag (header frames : ptr) (padding : Z)                         (* tag.h:21-26 *)
| BStream (stream : ptr) (cursor size : Z)                         (* char_stream.private.h:13-18 *)
(* The structs of the version 1 interface, for CompatHeap.v; a field of type
   [option ptr] may not have been assigned. *)
| BCFrame (id : mem) (size : Z) (flags : mem) (data frame : ptr)   (* id3v2lib.compat.h:55-62 *)
| BCNode (frame start : ptr) (last : option ptr) (next : ptr)      (* id3v2lib.compat.h:64-70 *)
| BCHeader (h : cheader)                                           (* id3v2lib.compat.h:21-29 *)
| BCTag (raw : option ptr) (header frames tag : ptr)               (* id3v2lib.compat.h:72-78 *)
| BTextContent (size : Z) (encoding : byte) (data : ptr)           (* id3v2lib.compat.h:31-36 *)
| BCommentContent (language short text : ptr)                      (* id3v2lib.compat.h:38-43 *)
| BApicContent (encoding : byte) (mime : ptr) (type : byte) (desc : ptr) (size : Z) (data : ptr). (* id3v2lib.compat.h:45-53 *)

(** The blocks that are allocated, and the address of the next one. *)
Record heap := mkHeap { live : list (nat * block); next : nat }.

Fixpoint lookup (a : nat) (l : list (nat * block)) : option block :=
  match l with
  | [] => None
  | (b, x) :: l => if Nat.eqb b a then Some x else lookup a l
  end.
Fixpoint update (a : nat) (y : block) (l : list (nat * block)) : list (nat * block) :=
  match l with
  | [] => []
  | (b, x) :: l => if Nat.eqb b a then (b, y) :: l else (b, x) :: update a y l
  end.
Fixpoint discard (a : nat) (l : list (nat * block)) : list (nat * block) :=
  match l with
  | [] => []
  | (b, x) :: l => if Nat.eqb b a then l else (b, x) :: discard a l
  end.

Definition malloc (x : block) (h : heap) : nat * heap :=
  (next h, mkHeap ((next h, x) :: live h) (S (next h))).

Definition load (p : ptr) (h : heap) : outcome block :=
  let* a := deref p in
  match lookup a (live h) with None => Ub UseAfterFree | Some x => Ok x end.

Definition store (p : ptr) (x : block) (h : heap) : outcome heap :=
  let* _ := load p h in
  let* a := deref p in
  Ok (mkHeap (update a x (live h)) (next h)).

(** free(NULL) does nothing; freeing what is not allocated is an error. *)
Definition free (p : ptr) (h : heap) : outcome heap :=
  match p with
  | None => Ok h
  | Some a =>
      match lookup a (live h) with
      | None => Ub BadFree
      | Some _ => Ok (mkHeap (discard a (live h)) (next h))
      end
  end.

(** The value of a pointer to a freed object is indeterminate, so it must not
    even be compared. *)
Definition usable (p : ptr) (h : heap) : outcome unit :=
  match p with
  | None => Ok tt
  | Some _ => let* _ := load p h in Ok tt
  end.
Definition ptr_eqb (p q : ptr) : bool :=
  match p, q with
  | None, None => true
  | Some a, Some b => Nat.eqb a b
  | _, _ => false
  end.
Definition same_pointer (p q : ptr) (h : heap) : outcome bool :=
  let* _ := usable p h in
  let* _ := usable q h in
  Ok (ptr_eqb p q).

(** Access through a pointer of a given struct type. *)
Definition load_node (p : ptr) (h : heap) : outcome (ptr * ptr * ptr) :=
  let* x := load p h in
  match x with BNode f s n => Ok (f, s, n) | _ => Ub TypeConfusion end.
Definition load_frame (p : ptr) (h : heap) : outcome (ptr * ptr) :=
  let* x := load p h in
  match x with BFrame hd da => Ok (hd, da) | _ => Ub TypeConfusion end.
Definition load_frame_header (p : ptr) (h : heap) : outcome FrameHeader :=
  let* x := load p h in
  match x with BFrameHeader hd => Ok hd | _ => Ub TypeConfusion end.
Definition load_text (p : ptr) (h : heap) : outcome ptr :=
  let* x := load p h in
  match x with BText _ _ t => Ok t | _ => Ub TypeConfusion end.
Definition load_comment (p : ptr) (h : heap) : outcome (ptr * ptr) :=
  let* x := load p h in
  match x with BComment _ _ _ s c => Ok (s, c) | _ => Ub TypeConfusion end.
Definition load_apic (p : ptr) (h : heap) : outcome (ptr * ptr * ptr) :=
  let* x := load p h in
  match x with BApic _ m _ d b _ => Ok (m, d, b) | _ => Ub TypeConfusion end.
Definition load_tag_header (p : ptr) (h : heap) : outcome TagHeader :=
  let* x := load p h in
  match x with BTagHeader hd => Ok hd | _ => Ub TypeConfusion end.
Definition load_tag_block (p : ptr) (h : heap) : outcome (ptr * ptr * Z) :=
  let* x := load p h in
  match x with BTag hd fr pa => Ok (hd, fr, pa) | _ => Ub TypeConfusion end.

(** frame->header *)
Definition header_of (frame : ptr) (h : heap) : outcome FrameHeader :=
  let* (hd, _) := load_frame frame h in
  load_frame_header hd h.

(** ** Frames *)

(** frame_header.c:20-29 FrameHeader_new; 88-91 FrameHeader_free is free. *)
Definition FrameHeader_new_h (id flags : cptr) (size : Z) (h : heap) : outcome (nat * heap) :=
  let* hd := FrameHeader_new id flags size in
  Ok (malloc (BFrameHeader hd) h).

(** text_frame.c:76-90 TextFrameData_new. *)
Definition TextFrameData_new_h (text : cptr) (h : heap) : outcome (nat * Z * heap) :=
  let* d := TextFrameData_new text in
  let (t, h) := malloc (BBytes (td_text d)) h in
  let (a, h) := malloc (BText (td_size d) (td_encoding d) (Some t)) h in
  Ok (a, td_size d, h).

(** text_frame.c:21-31 TextFrame_new.  (A struct is allocated with the
    contents it is given right afterwards, here and below.) *)
Definition TextFrame_new_h (id flags text : cptr) (h : heap) : outcome (nat * heap) :=
  let* (d, size, h) := TextFrameData_new_h text h in
  let* frame_size := iadd ID3v2_FRAME_ENCODING_LENGTH size in
  let* (hd, h) := FrameHeader_new_h id flags frame_size h in
  Ok (malloc (BFrame (Some hd) (Some d)) h).

(** comment_frame.c:99-124 CommentFrameData_new. *)
Definition CommentFrameData_new_h (lang short_desc comment : cptr) (h : heap) : outcome (nat * Z * heap) :=
  let* d := CommentFrameData_new lang short_desc comment in
  let (c, h) := malloc (BBytes (cd_comment d)) h in
  let (s, h) := malloc (BBytes (cd_short d)) h in
  let (a, h) := malloc (BComment (cd_size d) (cd_encoding d) (cd_language d) (Some s) (Some c)) h in
  Ok (a, cd_size d, h).

(** comment_frame.c:22-40 CommentFrame_new. *)
Definition CommentFrame_new_h (flags lang short_desc comment : cptr) (h : heap) : outcome (nat * heap) :=
  let* (d, size, h) := CommentFrameData_new_h lang short_desc comment h in
  let* short_desc_size := ID3v2_strlent short_desc in
  let* s := iadd size short_desc_size in
  let* s := iadd s ID3v2_FRAME_ENCODING_LENGTH in
  let* frame_size := iadd s ID3v2_COMMENT_FRAME_LANGUAGE_LENGTH in
  let* (hd, h) := FrameHeader_new_h ID3v2_COMMENT_FRAME_ID flags frame_size h in
  Ok (malloc (BFrame (Some hd) (Some d)) h).

(** apic_frame.c:107-136 ApicFrameData_new. *)
Definition ApicFrameData_new_h (description : cptr) (picture_type : byte) (mime_type : cptr)
    (picture_size : Z) (picture_data : cptr) (h : heap) : outcome (nat * Z * heap) :=
  let* d := ApicFrameData_new description picture_type mime_type picture_size picture_data in
  let (e, h) := malloc (BBytes (ad_desc d)) h in
  let (m, h) := malloc (BBytes (ad_mime d)) h in
  let (b, h) := malloc (BBytes (ad_data d)) h in
  let (a, h) := malloc (BApic (ad_encoding d) (Some m) (ad_type d) (Some e) (Some b) (ad_picture_size d)) h in
  Ok (a, ad_picture_size d, h).

(** apic_frame.c:23-45 ApicFrame_new. *)
Definition ApicFrame_new_h (flags description : cptr) (picture_type : byte) (mime_type : cptr)
    (picture_size : Z) (data : cptr) (h : heap) : outcome (nat * heap) :=
  let* (d, size, h) := ApicFrameData_new_h description picture_type mime_type picture_size data h in
  let* description_size := ID3v2_strlent description in
  let* mime_type_size := ID3v2_strlent mime_type in
  let* s := iadd ID3v2_FRAME_ENCODING_LENGTH mime_type_size in
  let* s := iadd s ID3v2_APIC_FRAME_PICTURE_TYPE_LENGTH in
  let* s := iadd s description_size in
  let* frame_size := iadd s size in
  let* (hd, h) := FrameHeader_new_h ID3v2_ALBUM_COVER_FRAME_ID flags frame_size h in
  Ok (malloc (BFrame (Some hd) (Some d)) h).

(** text_frame.c:68-74 TextFrame_free. *)
Definition TextFrame_free (frame : ptr) (h : heap) : outcome heap :=
  let* (hd, _) := load_frame frame h in
  let* h := free hd h in
  let* (_, da) := load_frame frame h in
  let* text := load_text da h in
  let* h := free text h in
  let* (_, da) := load_frame frame h in
  let* h := free da h in
  free frame h.

(** comment_frame.c:90-97 CommentFrame_free. *)
Definition CommentFrame_free (frame : ptr) (h : heap) : outcome heap :=
  let* (hd, _) := load_frame frame h in
  let* h := free hd h in
  let* (_, da) := load_frame frame h in
  let* (_, comment) := load_comment da h in
  let* h := free comment h in
  let* (_, da) := load_frame frame h in
  let* (short, _) := load_comment da h in
  let* h := free short h in
  let* (_, da) := load_frame frame h in
  let* h := free da h in
  free frame h.

(** apic_frame.c:97-105 ApicFrame_free. *)
Definition ApicFrame_free (frame : ptr) (h : heap) : outcome heap :=
  let* (hd, _) := load_frame frame h in
  let* h := free hd h in
  let* (_, da) := load_frame frame h in
  let* (_, _, data) := load_apic da h in
  let* h := free data h in
  let* (_, da) := load_frame frame h in
  let* (_, desc, _) := load_apic da h in
  let* h := free desc h in
  let* (_, da) := load_frame frame h in
  let* (mime, _, _) := load_apic da h in
  let* h := free mime h in
  let* (_, da) := load_frame frame h in
  let* h := free da h in
  free frame h.

(** frame.c:86-108 ID3v2_Frame_free. *)
Definition ID3v2_Frame_free (frame : ptr) (h : heap) : outcome heap :=
  match frame with
  | None => Ok h
  | Some _ =>
      let* header := header_of frame h in
      let* is_text := FrameHeader_isTextFrame header in
      let* is_comment := FrameHeader_isCommentFrame header in
      let* is_apic := FrameHeader_isApicFrame header in
      if is_text then TextFrame_free frame h
      else if is_comment then CommentFrame_free frame h
      else if is_apic then ApicFrame_free frame h
      else
        let* (hd, _) := load_frame frame h in
        let* h := free hd h in
        let* (_, da) := load_frame frame h in
        free da h
  end.

(** ** Lists.  A loop follows next pointers; there are no more nodes than
    blocks, which bounds the number of rounds. *)

Definition enough (h : heap) : nat := S (S (length (live h))).

(** frame_list.c:19-31 FrameList_new. *)
Definition FrameList_new_h (h : heap) : nat * heap := malloc (BNode None None None) h.

(** frame_list.c:47-51: the last node. *)
Fixpoint last_node (fuel : nat) (last : ptr) (h : heap) : outcome ptr :=
  match fuel with
  | O => NoFuel
  | S fuel =>
      let* (_, _, nx) := load_node last h in
      match nx with
      | None => Ok last
      | Some _ => last_node fuel nx h
      end
  end.

(** frame_list.c:33-55 FrameList_add_frame. *)
Definition FrameList_add_frame_h (list frame : ptr) (h : heap) : outcome heap :=
  let* (_, st, nx) := load_node list h in
  match st with
  | None => store list (BNode frame list nx) h
  | Some _ =>
      let (current, h) := FrameList_new_h h in
      let* (_, st, _) := load_node list h in
      let* h := store (Some current) (BNode frame st None) h in
      let* last := last_node (enough h) list h in
      let* (f, s, _) := load_node last h in
      store last (BNode f s (Some current)) h
  end.

(** strncmp(frame->header->id, frame_id, 4) == 0 *)
Definition id_matches_h (frame : ptr) (frame_id : cptr) (h : heap) : outcome bool :=
  let* hd := header_of frame h in
  let* i := deref frame_id in
  strncmp_eq 4 (fh_id hd) i.

(** frame_list.c:60-73 FrameList_get_frame_by_id. *)
Fixpoint get_frame_by_id_h (fuel : nat) (list : ptr) (frame_id : cptr) (h : heap) : outcome ptr :=
  match fuel with
  | O => NoFuel
  | S fuel =>
      match list with
      | None => Ok None
      | Some _ =>
          let* (f, _, nx) := load_node list h in
          match f with
          | None => Ok None
          | Some _ =>
              let* m := id_matches_h f frame_id h in
              if m then Ok f else get_frame_by_id_h fuel nx frame_id h
          end
      end
  end.
Definition FrameList_get_frame_by_id_h (list : ptr) (frame_id : cptr) (h : heap) : outcome ptr :=
  get_frame_by_id_h (enough h) list frame_id h.

(** frame_list.c:82-90, the loop of FrameList_get_frames_by_id. *)
Fixpoint get_frames_loop_h (fuel : nat) (list : ptr) (frame_id : cptr) (sublist : ptr) (h : heap) : outcome heap :=
  match fuel with
  | O => NoFuel
  | S fuel =>
      match list with
      | None => Ok h
      | Some _ =>
          let* (f, _, _) := load_node list h in
          match f with
          | None => Ok h
          | Some _ =>
              let* m := id_matches_h f frame_id h in
              let* h := if m then FrameList_add_frame_h sublist f h else Ok h in
              let* (_, _, nx) := load_node list h in
              get_frames_loop_h fuel nx frame_id sublist h
          end
      end
  end.
(** frame_list.c:78-93 FrameList_get_frames_by_id. *)
Definition FrameList_get_frames_by_id_h (list : ptr) (frame_id : cptr) (h : heap) : outcome (ptr * heap) :=
  let (sublist, h) := FrameList_new_h h in
  let* h := get_frames_loop_h (enough h) list frame_id (Some sublist) h in
  Ok (Some sublist, h).

(** frame_list.c:95-104 ID3v2_FrameList_free. *)
Fixpoint free_list (fuel : nat) (list : ptr) (h : heap) : outcome heap :=
  match fuel with
  | O => NoFuel
  | S fuel =>
      match list with
      | None => Ok h
      | Some _ =>
          let* (f, _, _) := load_node list h in
          let* h := ID3v2_Frame_free f h in
          let* (_, _, next_head) := load_node list h in
          let* h := free list h in
          free_list fuel next_head h
      end
  end.
Definition ID3v2_FrameList_free (list : ptr) (h : heap) : outcome heap := free_list (enough h) list h.

(** frame_list.c:106-114 ID3v2_FrameList_unlink. *)
Fixpoint unlink (fuel : nat) (list : ptr) (h : heap) : outcome heap :=
  match fuel with
  | O => NoFuel
  | S fuel =>
      match list with
      | None => Ok h
      | Some _ =>
          let* (_, _, next_head) := load_node list h in
          let* h := free list h in
          unlink fuel next_head h
      end
  end.
Definition ID3v2_FrameList_unlink (list : ptr) (h : heap) : outcome heap := unlink (enough h) list h.

(** frame_list.c:125-127 and 145-147: overwrite the node with its successor, or
    with a new node, and free that one. *)
Definition cut_node (list : ptr) (h : heap) : outcome heap :=
  let* (_, _, nx) := load_node list h in
  let (new_head_old_ptr, h) :=
    match nx with
    | Some a => (a, h)
    | None => FrameList_new_h h
    end in
  let* (f, s, n) := load_node (Some new_head_old_ptr) h in
  let* h := store list (BNode f s n) h in
  free (Some new_head_old_ptr) h.

(** frame_list.c:116-135 FrameList_remove_frame_by_id. *)
Fixpoint remove_by_id (fuel : nat) (list : ptr) (frame_id : cptr) (h : heap) : outcome (ptr * heap) :=
  match fuel with
  | O => NoFuel
  | S fuel =>
      match list with
      | None => Ok (None, h)
      | Some _ =>
          let* (f, _, nx) := load_node list h in
          let* m := id_matches_h f frame_id h in
          if m then let* h := cut_node list h in Ok (f, h)
          else remove_by_id fuel nx frame_id h
      end
  end.
Definition FrameList_remove_frame_by_id_h (list : ptr) (frame_id : cptr) (h : heap) : outcome (ptr * heap) :=
  remove_by_id (enough h) list frame_id h.

(** frame_list.c:137-155 FrameList_remove_frame. *)
Fixpoint remove_frame (fuel : nat) (list to_remove : ptr) (h : heap) : outcome (ptr * heap) :=
  match fuel with
  | O => NoFuel
  | S fuel =>
      match list with
      | None => Ok (None, h)
      | Some _ =>
          let* (f, _, nx) := load_node list h in
          let* m := same_pointer f to_remove h in
          if m then let* h := cut_node list h in Ok (to_remove, h)
          else remove_frame fuel nx to_remove h
      end
  end.
Definition FrameList_remove_frame_h (list to_remove : ptr) (h : heap) : outcome (ptr * heap) :=
  remove_frame (enough h) list to_remove h.

(** frame_list.c:161-175 FrameList_replace_frame. *)
Fixpoint replace_frame (fuel : nat) (list old_frame new_frame : ptr) (h : heap) : outcome heap :=
  match fuel with
  | O => NoFuel
  | S fuel =>
      match list with
      | None => Ok h
      | Some _ =>
          let* (f, s, nx) := load_node list h in
          let* m := same_pointer f old_frame h in
          if m then store list (BNode new_frame s nx) h
          else replace_frame fuel nx old_frame new_frame h
      end
  end.
Definition FrameList_replace_frame_h (list old_frame new_frame : ptr) (h : heap) : outcome heap :=
  replace_frame (enough h) list old_frame new_frame h.

(** ** Tags *)

(** tag.c:29-37 ID3v2_Tag_new; [header] is NULL or a header that the tag takes
    over. *)
Definition ID3v2_Tag_new_h (header : ptr) (h : heap) : nat * heap :=
  let (hd, h) := match header with
                 | Some a => (a, h)
                 | None => malloc (BTagHeader TagHeader_new_empty) h
                 end in
  let (fr, h) := FrameList_new_h h in
  malloc (BTag (Some hd) (Some fr) 0) h.

(** tag.c:39-42 ID3v2_Tag_new_empty. *)
Definition ID3v2_Tag_new_empty_h (h : heap) : nat * heap := ID3v2_Tag_new_h None h.

(** tag->header->tag_size += d *)
Definition grow (tag : ptr) (d : Z) (h : heap) : outcome heap :=
  let* (hd, _, _) := load_tag_block tag h in
  let* th := load_tag_header hd h in
  store hd (BTagHeader (with_tag_size th (th_tag_size th + d))) h.

(** tag->frames *)
Definition frames_of (tag : ptr) (h : heap) : outcome ptr :=
  let* (_, fr, _) := load_tag_block tag h in
  Ok fr.

(** tag.c:111-115 ID3v2_Tag_get_frame. *)
Definition ID3v2_Tag_get_frame_h (tag : ptr) (frame_id : cptr) (h : heap) : outcome ptr :=
  match tag with
  | None => Ok None
  | Some _ => let* fr := frames_of tag h in FrameList_get_frame_by_id_h fr frame_id h
  end.

(** tag.c:117-121 ID3v2_Tag_get_frames. *)
Definition ID3v2_Tag_get_frames_h (tag : ptr) (frame_id : cptr) (h : heap) : outcome (ptr * heap) :=
  match tag with
  | None => Ok (None, h)
  | Some _ => let* fr := frames_of tag h in FrameList_get_frames_by_id_h fr frame_id h
  end.

(** tag.c:207-221, 341-355, 394-408. *)
Definition install_frame_h (tag existing_frame new_frame : ptr) (h : heap) : outcome heap :=
  let* fr := frames_of tag h in
  match existing_frame with
  | None =>
      let* h := FrameList_add_frame_h fr new_frame h in
      let* hd := header_of new_frame h in
      grow tag (fh_size hd) h
  | Some _ =>
      let* h := FrameList_replace_frame_h fr existing_frame new_frame h in
      let* hn := header_of new_frame h in
      let* he := header_of existing_frame h in
      let* d := isub (fh_size hn) (fh_size he) in
      let* h := grow tag d h in
      ID3v2_Frame_free existing_frame h
  end.

(** tag.c:201-222 ID3v2_Tag_set_text_frame. *)
Definition ID3v2_Tag_set_text_frame_h (tag : ptr) (input : TextFrameInput) (h : heap) : outcome heap :=
  let* (new_frame, h) := TextFrame_new_h (ti_id input) (ti_flags input) (ti_text input) h in
  let* fr := frames_of tag h in
  let* existing_frame := FrameList_get_frame_by_id_h fr (ti_id input) h in
  install_frame_h tag existing_frame (Some new_frame) h.

(** tag.c:335-356 ID3v2_Tag_set_comment_frame. *)
Definition ID3v2_Tag_set_comment_frame_h (tag : ptr) (input : CommentFrameInput) (h : heap) : outcome heap :=
  let* (new_frame, h) := CommentFrame_new_h (ci_flags input) (ci_language input)
                                            (ci_short_description input) (ci_comment input) h in
  let* fr := frames_of tag h in
  let* existing_frame := FrameList_get_frame_by_id_h fr ID3v2_COMMENT_FRAME_ID h in
  install_frame_h tag existing_frame (Some new_frame) h.

(** tag.c:358-364 ID3v2_Tag_add_comment_frame. *)
Definition ID3v2_Tag_add_comment_frame_h (tag : ptr) (input : CommentFrameInput) (h : heap) : outcome heap :=
  let* (new_frame, h) := CommentFrame_new_h (ci_flags input) (ci_language input)
                                            (ci_short_description input) (ci_comment input) h in
  install_frame_h tag None (Some new_frame) h.

(** tag.c:382-409 ID3v2_Tag_set_apic_frame. *)
Definition ID3v2_Tag_set_apic_frame_h (tag : ptr) (input : ApicFrameInput) (h : heap) : outcome heap :=
  let* (new_frame, h) := ApicFrame_new_h (ai_flags input) (ai_description input) (ai_picture_type input)
                                         (ai_mime_type input) (ai_picture_size input) (ai_data input) h in
  let* fr := frames_of tag h in
  let* existing_frame := FrameList_get_frame_by_id_h fr ID3v2_ALBUM_COVER_FRAME_ID h in
  install_frame_h tag existing_frame (Some new_frame) h.

(** tag.c:411-423 ID3v2_Tag_add_apic_frame. *)
Definition ID3v2_Tag_add_apic_frame_h (tag : ptr) (input : ApicFrameInput) (h : heap) : outcome heap :=
  let* (new_frame, h) := ApicFrame_new_h (ai_flags input) (ai_description input) (ai_picture_type input)
                                         (ai_mime_type input) (ai_picture_size input) (ai_data input) h in
  install_frame_h tag None (Some new_frame) h.

(** tag.c:448-453 ID3v2_Tag_free. *)
Definition ID3v2_Tag_free (tag : ptr) (h : heap) : outcome heap :=
  let* (hd, _, _) := load_tag_block tag h in
  let* h := free hd h in
  let* (_, fr, _) := load_tag_block tag h in
  let* h := ID3v2_FrameList_free fr h in
  free tag h.

(** tag.c:455-462 ID3v2_Tag_delete_frame. *)
Definition ID3v2_Tag_delete_frame_h (tag : ptr) (frame_id : cptr) (h : heap) : outcome heap :=
  let* fr := frames_of tag h in
  let* (deleted, h) := FrameList_remove_frame_by_id_h fr frame_id h in
  let* hd := header_of deleted h in
  let* n := iadd (fh_size hd) ID3v2_FRAME_HEADER_LENGTH in
  let* h := grow tag (- n) h in
  ID3v2_Frame_free deleted h.

(** tag.c:514-527 and 542-555; returns [head]. *)
Fixpoint delete_nth_loop_h (fuel : nat) (tag head : ptr) (i index : Z) (h : heap) : outcome (ptr * heap) :=
  match fuel with
  | O => NoFuel
  | S fuel =>
      match head with
      | None => Ok (None, h)
      | Some _ =>
          let* (to_delete, _, nx) := load_node head h in
          if i =? index then
            let* fr := frames_of tag h in
            let* (_, h) := FrameList_remove_frame_h fr to_delete h in
            let* h := ID3v2_Frame_free to_delete h in
            Ok (head, h)
          else delete_nth_loop_h fuel tag nx (i + 1) index h
      end
  end.

(** tag.c:509-530 ID3v2_Tag_delete_comment_frame and 537-558
    ID3v2_Tag_delete_apic_frame, which differ in the id. *)
Definition delete_nth_frame_h (tag : ptr) (frame_id : cptr) (index : Z) (h : heap) : outcome heap :=
  let* fr := frames_of tag h in
  let* (head, h) := FrameList_get_frames_by_id_h fr frame_id h in
  let* (head, h) := delete_nth_loop_h (enough h) tag head 0 index h in
  ID3v2_FrameList_unlink head h.

(** The calls that change a tag; the named ones (tag.c:224-330, 366-377,
    428-446, 464-507, 532-535, 560-563) only fill in ids and flags. *)
Definition run_call_h (tag : ptr) (c : call) (h : heap) : outcome heap :=
  let text id s := ID3v2_Tag_set_text_frame_h tag (mkTextInput id NO_FLAGS s) h in
  let delete id := ID3v2_Tag_delete_frame_h tag id h in
  match c with
  | SetTextFrame i => ID3v2_Tag_set_text_frame_h tag i h
  | SetArtist s => text ID3v2_ARTIST_FRAME_ID s
  | SetAlbum s => text ID3v2_ALBUM_FRAME_ID s
  | SetTitle s => text ID3v2_TITLE_FRAME_ID s
  | SetTrack s => text ID3v2_TRACK_FRAME_ID s
  | SetAlbumArtist s => text ID3v2_ALBUM_ARTIST_FRAME_ID s
  | SetGenre s => text ID3v2_GENRE_FRAME_ID s
  | SetYear s => text ID3v2_YEAR_FRAME_ID s
  | SetDiscNumber s => text ID3v2_DISC_NUMBER_FRAME_ID s
  | SetComposer s => text ID3v2_COMPOSER_FRAME_ID s
  | SetCommentFrame i => ID3v2_Tag_set_comment_frame_h tag i h
  | AddCommentFrame i => ID3v2_Tag_add_comment_frame_h tag i h
  | SetComment l c => ID3v2_Tag_set_comment_frame_h tag (mkCommentInput NO_FLAGS l EMPTY_UNICODE_STR c) h
  | SetApicFrame i => ID3v2_Tag_set_apic_frame_h tag i h
  | AddApicFrame i => ID3v2_Tag_add_apic_frame_h tag i h
  | SetAlbumCover m n d =>
      ID3v2_Tag_set_apic_frame_h tag
        (mkApicInput NO_FLAGS m EMPTY_UNICODE_STR ID3v2_PIC_TYPE_FRONT_COVER n d) h
  | DeleteFrame id => delete id
  | DeleteArtist => delete ID3v2_ARTIST_FRAME_ID
  | DeleteAlbum => delete ID3v2_ALBUM_FRAME_ID
  | DeleteTitle => delete ID3v2_TITLE_FRAME_ID
  | DeleteTrack => delete ID3v2_TRACK_FRAME_ID
  | DeleteAlbumArtist => delete ID3v2_ALBUM_ARTIST_FRAME_ID
  | DeleteGenre => delete ID3v2_GENRE_FRAME_ID
  | DeleteYear => delete ID3v2_YEAR_FRAME_ID
  | DeleteDiscNumber => delete ID3v2_DISC_NUMBER_FRAME_ID
  | DeleteComposer => delete ID3v2_COMPOSER_FRAME_ID
  | DeleteComment => delete ID3v2_COMMENT_FRAME_ID
  | DeleteAlbumCover => delete ID3v2_ALBUM_COVER_FRAME_ID
  | DeleteCommentFrame i => delete_nth_frame_h tag ID3v2_COMMENT_FRAME_ID i h
  | DeleteApicFrame i => delete_nth_frame_h tag ID3v2_ALBUM_COVER_FRAME_ID i h
  end.

Fixpoint run_calls_h (tag : ptr) (cs : list call) (h : heap) : outcome heap :=
  match cs with
  | [] => Ok h
  | c :: cs => let* h := run_call_h tag c h in run_calls_h tag cs h
  end.
