(** Threads that share tags.  The functions of Heap.v once more, as sequences
    of single accesses to memory, in the order of the source text; and several
    threads that take turns at them.

    An access reads or writes one member of one struct (or a whole string), so
    that two threads that use different members of a struct do not meet, as in
    C11 3.14.  The compiler may make fewer accesses than these, not other ones.

    Simplifications: malloc gives each thread addresses from a range of its own
    (the library only ever compares addresses for equality); a struct is
    allocated with the contents it is given right afterwards, as in Heap.v;
    what a thread passes to the library (strings, structs of inputs) is its
    own, and so are the streams and the file of ID3v2_write_tag, which are
    values here and not blocks (HeapIO.v, Threads.v have them as memory and as
    a shared file); every loop may make [rounds] rounds, any number. *)
From Verif Require Export Heap File.

(** A member of a struct.  [Lifetime] is that a block is still allocated. *)
Inductive field :=
| NodeFrame | NodeStart | NodeNext                                  (* frame_list.h:15-20 *)
| FrameHead | FrameData                                             (* frame.h:20-24 and the like *)
| HeadId | HeadSize | HeadFlags                                     (* frame_header.h:18-23 *)
| TextSize | TextEncoding | TextText                                (* text_frame.h:15-20 *)
| CommentSize | CommentEncoding | CommentLanguage | CommentShort | CommentText (* comment_frame.h:17-24 *)
| ApicEncoding | ApicMime | ApicType | ApicDesc | ApicPicture | ApicSize       (* apic_frame.h:20-28 *)
| TagIdentifier | TagMajor | TagMinor | TagFlags | TagSize          (* tag_header.h:21-29 *)
| TagHead | TagFrames | TagPadding                                  (* tag.h:21-26 *)
| Chars                                                             (* char[] *)
| Lifetime.

Inductive value := VPtr (p : ptr) | VInt (n : Z) | VChars (m : mem) | VAlive.

Definition get_field (f : field) (x : block) : option value :=
  match f, x with
  | NodeFrame, BNode p _ _ => Some (VPtr p)
  | NodeStart, BNode _ p _ => Some (VPtr p)
  | NodeNext, BNode _ _ p => Some (VPtr p)
  | FrameHead, BFrame p _ => Some (VPtr p)
  | FrameData, BFrame _ p => Some (VPtr p)
  | HeadId, BFrameHeader h => Some (VChars (fh_id h))
  | HeadSize, BFrameHeader h => Some (VInt (fh_size h))
  | HeadFlags, BFrameHeader h => Some (VChars (fh_flags h))
  | TextSize, BText n _ _ => Some (VInt n)
  | TextEncoding, BText _ e _ => Some (VChars [Some e])
  | TextText, BText _ _ p => Some (VPtr p)
  | CommentSize, BComment n _ _ _ _ => Some (VInt n)
  | CommentEncoding, BComment _ e _ _ _ => Some (VChars [Some e])
  | CommentLanguage, BComment _ _ l _ _ => Some (VChars l)
  | CommentShort, BComment _ _ _ p _ => Some (VPtr p)
  | CommentText, BComment _ _ _ _ p => Some (VPtr p)
  | ApicEncoding, BApic e _ _ _ _ _ => Some (VChars [Some e])
  | ApicMime, BApic _ p _ _ _ _ => Some (VPtr p)
  | ApicType, BApic _ _ t _ _ _ => Some (VChars [Some t])
  | ApicDesc, BApic _ _ _ p _ _ => Some (VPtr p)
  | ApicPicture, BApic _ _ _ _ p _ => Some (VPtr p)
  | ApicSize, BApic _ _ _ _ _ n => Some (VInt n)
  | TagIdentifier, BTagHeader h => Some (VChars (cells (th_identifier h)))
  | TagMajor, BTagHeader h => Some (VChars [Some (th_major h)])
  | TagMinor, BTagHeader h => Some (VChars [Some (th_minor h)])
  | TagFlags, BTagHeader h => Some (VChars [Some (th_flags h)])
  | TagSize, BTagHeader h => Some (VInt (th_tag_size h))
  | TagHead, BTag p _ _ => Some (VPtr p)
  | TagFrames, BTag _ p _ => Some (VPtr p)
  | TagPadding, BTag _ _ n => Some (VInt n)
  | Chars, BBytes m => Some (VChars m)
  | Lifetime, _ => Some VAlive
  | _, _ => None
  end.

(** Only these members are ever assigned after a struct has been made. *)
Definition set_field (f : field) (v : value) (x : block) : option block :=
  match f, v, x with
  | NodeFrame, VPtr p, BNode _ s n => Some (BNode p s n)
  | NodeStart, VPtr p, BNode f _ n => Some (BNode f p n)
  | NodeNext, VPtr p, BNode f s _ => Some (BNode f s p)
  | TagSize, VInt n, BTagHeader h => Some (BTagHeader (with_tag_size h n))
  | TagPadding, VInt n, BTag hd fr _ => Some (BTag hd fr n)
  | _, _, _ => None
  end.

(** What a thread has still to do. *)
Inductive prog (A : Type) : Type :=
| Stop (o : outcome A)
| Look (p : ptr) (f : field) (k : value -> prog A)    (* read a member *)
| Change (p : ptr) (f : field) (v : value) (k : prog A) (* write a member *)
| Make (x : block) (k : nat -> prog A)                (* malloc *)
| Drop (p : ptr) (k : prog A).                        (* free *)
Arguments Stop {A} o.
Arguments Look {A} p f k.
Arguments Change {A} p f v k.
Arguments Make {A} x k.
Arguments Drop {A} p k.

Fixpoint bindp {A B} (p : prog A) (f : A -> prog B) : prog B :=
  match p with
  | Stop (Ok a) => f a
  | Stop (Ub u) => Stop (Ub u)
  | Stop (Exit n) => Stop (Exit n)
  | Stop NoFuel => Stop NoFuel
  | Look q g k => Look q g (fun v => bindp (k v) f)
  | Change q g v k => Change q g v (bindp k f)
  | Make x k => Make x (fun a => bindp (k a) f)
  | Drop q k => Drop q (bindp k f)
  end.
Definition retp {A} (a : A) : prog A := Stop (Ok a).
Notation "'do!' x := m 'in' k" := (bindp m (fun x => k)) (at level 200, x pattern, right associativity).

Definition look_ptr (p : ptr) (f : field) : prog ptr :=
  Look p f (fun v => match v with VPtr q => retp q | _ => Stop (Ub TypeConfusion) end).
Definition look_int (p : ptr) (f : field) : prog Z :=
  Look p f (fun v => match v with VInt n => retp n | _ => Stop (Ub TypeConfusion) end).
Definition look_chars (p : ptr) (f : field) : prog mem :=
  Look p f (fun v => match v with VChars m => retp m | _ => Stop (Ub TypeConfusion) end).
Definition set_ptr (p : ptr) (f : field) (q : ptr) : prog unit := Change p f (VPtr q) (retp tt).
Definition set_int (p : ptr) (f : field) (n : Z) : prog unit := Change p f (VInt n) (retp tt).
Definition make (x : block) : prog nat := Make x retp.
Definition drop (p : ptr) : prog unit := Drop p (retp tt).

(** p == q, as Heap.same_pointer: neither may point to a freed block. *)
Definition alive (p : ptr) : prog unit :=
  match p with None => retp tt | Some _ => Look p Lifetime (fun _ => retp tt) end.
Definition same_pointer_p (p q : ptr) : prog bool :=
  do! _ := alive p in
  do! _ := alive q in
  retp (ptr_eqb p q).

(** frame->header->id, frame->header->size *)
Definition id_of (frame : ptr) : prog mem :=
  do! hd := look_ptr frame FrameHead in look_chars hd HeadId.
Definition size_of (frame : ptr) : prog Z :=
  do! hd := look_ptr frame FrameHead in look_int hd HeadSize.

(** ** Frames *)

(** frame_header.c:20-29 FrameHeader_new. *)
Definition FrameHeader_new_p (id flags : cptr) (size : Z) : prog nat :=
  do! hd := Stop (FrameHeader_new id flags size) in
  make (BFrameHeader hd).

(** text_frame.c:76-90 TextFrameData_new. *)
Definition TextFrameData_new_p (text : cptr) : prog (nat * Z) :=
  do! d := Stop (TextFrameData_new text) in
  do! t := make (BBytes (td_text d)) in
  do! a := make (BText (td_size d) (td_encoding d) (Some t)) in
  retp (a, td_size d).

(** text_frame.c:21-31 TextFrame_new. *)
Definition TextFrame_new_p (id flags text : cptr) : prog nat :=
  do! (d, size) := TextFrameData_new_p text in
  do! frame_size := Stop (iadd ID3v2_FRAME_ENCODING_LENGTH size) in
  do! hd := FrameHeader_new_p id flags frame_size in
  make (BFrame (Some hd) (Some d)).

(** comment_frame.c:99-124 CommentFrameData_new. *)
Definition CommentFrameData_new_p (lang short_desc comment : cptr) : prog (nat * Z) :=
  do! d := Stop (CommentFrameData_new lang short_desc comment) in
  do! c := make (BBytes (cd_comment d)) in
  do! s := make (BBytes (cd_short d)) in
  do! a := make (BComment (cd_size d) (cd_encoding d) (cd_language d) (Some s) (Some c)) in
  retp (a, cd_size d).

(** comment_frame.c:22-40 CommentFrame_new. *)
Definition CommentFrame_new_p (flags lang short_desc comment : cptr) : prog nat :=
  do! (d, size) := CommentFrameData_new_p lang short_desc comment in
  do! short_desc_size := Stop (ID3v2_strlent short_desc) in
  do! s := Stop (iadd size short_desc_size) in
  do! s := Stop (iadd s ID3v2_FRAME_ENCODING_LENGTH) in
  do! frame_size := Stop (iadd s ID3v2_COMMENT_FRAME_LANGUAGE_LENGTH) in
  do! hd := FrameHeader_new_p ID3v2_COMMENT_FRAME_ID flags frame_size in
  make (BFrame (Some hd) (Some d)).

(** apic_frame.c:107-136 ApicFrameData_new. *)
Definition ApicFrameData_new_p (description : cptr) (picture_type : byte) (mime_type : cptr)
    (picture_size : Z) (picture_data : cptr) : prog (nat * Z) :=
  do! d := Stop (ApicFrameData_new description picture_type mime_type picture_size picture_data) in
  do! e := make (BBytes (ad_desc d)) in
  do! m := make (BBytes (ad_mime d)) in
  do! b := make (BBytes (ad_data d)) in
  do! a := make (BApic (ad_encoding d) (Some m) (ad_type d) (Some e) (Some b) (ad_picture_size d)) in
  retp (a, ad_picture_size d).

(** apic_frame.c:23-45 ApicFrame_new. *)
Definition ApicFrame_new_p (flags description : cptr) (picture_type : byte) (mime_type : cptr)
    (picture_size : Z) (data : cptr) : prog nat :=
  do! (d, size) := ApicFrameData_new_p description picture_type mime_type picture_size data in
  do! description_size := Stop (ID3v2_strlent description) in
  do! mime_type_size := Stop (ID3v2_strlent mime_type) in
  do! s := Stop (iadd ID3v2_FRAME_ENCODING_LENGTH mime_type_size) in
  do! s := Stop (iadd s ID3v2_APIC_FRAME_PICTURE_TYPE_LENGTH) in
  do! s := Stop (iadd s description_size) in
  do! frame_size := Stop (iadd s size) in
  do! hd := FrameHeader_new_p ID3v2_ALBUM_COVER_FRAME_ID flags frame_size in
  make (BFrame (Some hd) (Some d)).

(** text_frame.c:68-74 TextFrame_free. *)
Definition TextFrame_free_p (frame : ptr) : prog unit :=
  do! hd := look_ptr frame FrameHead in
  do! _ := drop hd in
  do! da := look_ptr frame FrameData in
  do! text := look_ptr da TextText in
  do! _ := drop text in
  do! da := look_ptr frame FrameData in
  do! _ := drop da in
  drop frame.

(** comment_frame.c:90-97 CommentFrame_free. *)
Definition CommentFrame_free_p (frame : ptr) : prog unit :=
  do! hd := look_ptr frame FrameHead in
  do! _ := drop hd in
  do! da := look_ptr frame FrameData in
  do! comment := look_ptr da CommentText in
  do! _ := drop comment in
  do! da := look_ptr frame FrameData in
  do! short := look_ptr da CommentShort in
  do! _ := drop short in
  do! da := look_ptr frame FrameData in
  do! _ := drop da in
  drop frame.

(** apic_frame.c:97-105 ApicFrame_free. *)
Definition ApicFrame_free_p (frame : ptr) : prog unit :=
  do! hd := look_ptr frame FrameHead in
  do! _ := drop hd in
  do! da := look_ptr frame FrameData in
  do! data := look_ptr da ApicPicture in
  do! _ := drop data in
  do! da := look_ptr frame FrameData in
  do! desc := look_ptr da ApicDesc in
  do! _ := drop desc in
  do! da := look_ptr frame FrameData in
  do! mime := look_ptr da ApicMime in
  do! _ := drop mime in
  do! da := look_ptr frame FrameData in
  do! _ := drop da in
  drop frame.

(** frame.c:86-108 ID3v2_Frame_free; the three tests (frame_header.c:73-86) look
    at the id only. *)
Definition ID3v2_Frame_free_p (frame : ptr) : prog unit :=
  match frame with
  | None => retp tt
  | Some _ =>
      do! id := id_of frame in
      do! is_text := Stop (FrameHeader_isTextFrame (mkFH id 0 [])) in
      do! is_comment := Stop (FrameHeader_isCommentFrame (mkFH id 0 [])) in
      do! is_apic := Stop (FrameHeader_isApicFrame (mkFH id 0 [])) in
      if is_text then TextFrame_free_p frame
      else if is_comment then CommentFrame_free_p frame
      else if is_apic then ApicFrame_free_p frame
      else
        do! hd := look_ptr frame FrameHead in
        do! _ := drop hd in
        do! da := look_ptr frame FrameData in
        drop da
  end.

(** ** Lists *)

(** frame_list.c:19-31 FrameList_new. *)
Definition FrameList_new_p : prog nat := make (BNode None None None).

(** strncmp(list->frame->header->id, frame_id, 4) == 0 *)
Definition id_matches_p (list : ptr) (frame_id : cptr) : prog bool :=
  do! f := look_ptr list NodeFrame in
  do! id := id_of f in
  do! i := Stop (deref frame_id) in
  Stop (strncmp_eq 4 id i).

(** frame_list.c:47-51: the last node. *)
Fixpoint last_node_p (fuel : nat) (last : ptr) : prog ptr :=
  match fuel with
  | O => Stop NoFuel
  | S fuel =>
      do! nx := look_ptr last NodeNext in
      match nx with
      | None => retp last
      | Some _ => do! nx := look_ptr last NodeNext in last_node_p fuel nx
      end
  end.

(** frame_list.c:60-73 FrameList_get_frame_by_id. *)
Fixpoint get_frame_by_id_p (fuel : nat) (list : ptr) (frame_id : cptr) : prog ptr :=
  match fuel with
  | O => Stop NoFuel
  | S fuel =>
      match list with
      | None => retp None
      | Some _ =>
          do! f := look_ptr list NodeFrame in
          match f with
          | None => retp None
          | Some _ =>
              do! m := id_matches_p list frame_id in
              if m then look_ptr list NodeFrame
              else do! nx := look_ptr list NodeNext in get_frame_by_id_p fuel nx frame_id
          end
      end
  end.

(** frame_list.c:106-114 ID3v2_FrameList_unlink. *)
Fixpoint unlink_p (fuel : nat) (list : ptr) : prog unit :=
  match fuel with
  | O => Stop NoFuel
  | S fuel =>
      match list with
      | None => retp tt
      | Some _ =>
          do! next_head := look_ptr list NodeNext in
          do! _ := drop list in
          unlink_p fuel next_head
      end
  end.

(** frame_list.c:95-104 ID3v2_FrameList_free. *)
Fixpoint free_list_p (fuel : nat) (list : ptr) : prog unit :=
  match fuel with
  | O => Stop NoFuel
  | S fuel =>
      match list with
      | None => retp tt
      | Some _ =>
          do! f := look_ptr list NodeFrame in
          do! _ := ID3v2_Frame_free_p f in
          do! next_head := look_ptr list NodeNext in
          do! _ := drop list in
          free_list_p fuel next_head
      end
  end.

(** frame_list.c:125-127 and 145-147. *)
Definition cut_node_p (list : ptr) : prog unit :=
  do! nx := look_ptr list NodeNext in
  do! new_head_old_ptr :=
    match nx with
    | Some _ => look_ptr list NodeNext
    | None => do! a := FrameList_new_p in retp (Some a)
    end in
  do! f := look_ptr new_head_old_ptr NodeFrame in
  do! s := look_ptr new_head_old_ptr NodeStart in
  do! n := look_ptr new_head_old_ptr NodeNext in
  do! _ := set_ptr list NodeFrame f in
  do! _ := set_ptr list NodeStart s in
  do! _ := set_ptr list NodeNext n in
  drop new_head_old_ptr.

(** frame_list.c:116-135 FrameList_remove_frame_by_id. *)
Fixpoint remove_by_id_p (fuel : nat) (list : ptr) (frame_id : cptr) : prog ptr :=
  match fuel with
  | O => Stop NoFuel
  | S fuel =>
      match list with
      | None => retp None
      | Some _ =>
          do! m := id_matches_p list frame_id in
          if m then
            do! removed := look_ptr list NodeFrame in
            do! _ := cut_node_p list in
            retp removed
          else do! nx := look_ptr list NodeNext in remove_by_id_p fuel nx frame_id
      end
  end.

(** frame_list.c:137-155 FrameList_remove_frame. *)
Fixpoint remove_frame_p (fuel : nat) (list to_remove : ptr) : prog ptr :=
  match fuel with
  | O => Stop NoFuel
  | S fuel =>
      match list with
      | None => retp None
      | Some _ =>
          do! f := look_ptr list NodeFrame in
          do! m := same_pointer_p f to_remove in
          if m then do! _ := cut_node_p list in retp to_remove
          else do! nx := look_ptr list NodeNext in remove_frame_p fuel nx to_remove
      end
  end.

(** frame_list.c:161-175 FrameList_replace_frame. *)
Fixpoint replace_frame_p (fuel : nat) (list old_frame new_frame : ptr) : prog unit :=
  match fuel with
  | O => Stop NoFuel
  | S fuel =>
      match list with
      | None => retp tt
      | Some _ =>
          do! f := look_ptr list NodeFrame in
          do! m := same_pointer_p f old_frame in
          if m then set_ptr list NodeFrame new_frame
          else do! nx := look_ptr list NodeNext in replace_frame_p fuel nx old_frame new_frame
      end
  end.

(** tag->header->tag_size += d *)
Definition grow_p (tag : ptr) (d : Z) : prog unit :=
  do! hd := look_ptr tag TagHead in
  do! n := look_int hd TagSize in
  set_int hd TagSize (n + d).

(** ** Writing *)

(** frame_header.c:60-71 FrameHeader_to_char_stream. *)
Definition FrameHeader_to_char_stream_p (header : ptr) : prog CharStream :=
  do! cs := Stop (CharStream_new ID3v2_FRAME_HEADER_LENGTH) in
  do! id := look_chars header HeadId in
  do! cs := Stop (CharStream_write cs id ID3v2_FRAME_HEADER_ID_LENGTH) in
  do! size := look_int header HeadSize in
  do! cs := Stop (CharStream_write cs (itob size) ID3v2_FRAME_HEADER_SIZE_LENGTH) in
  do! flags := look_chars header HeadFlags in
  Stop (CharStream_write cs flags ID3v2_FRAME_HEADER_FLAGS_LENGTH).

(** text_frame.c:54-59, comment_frame.c:70-75, apic_frame.c:80-85. *)
Definition start_frame_stream_p (frame : ptr) : prog CharStream :=
  do! hd := look_ptr frame FrameHead in
  do! header_cs := FrameHeader_to_char_stream_p hd in
  do! size := size_of frame in
  do! n := Stop (iadd size ID3v2_FRAME_HEADER_LENGTH) in
  do! cs := Stop (CharStream_new n) in
  Stop (CharStream_write cs (cs_stream header_cs) (cs_size header_cs)).

(** text_frame.c:50-66 TextFrame_to_char_stream. *)
Definition TextFrame_to_char_stream_p (frame : ptr) : prog CharStream :=
  do! cs := start_frame_stream_p frame in
  do! d := look_ptr frame FrameData in
  do! e := look_chars d TextEncoding in
  do! cs := Stop (CharStream_write cs e ID3v2_FRAME_ENCODING_LENGTH) in
  do! d := look_ptr frame FrameData in
  do! t := look_ptr d TextText in
  do! d := look_ptr frame FrameData in
  do! n := look_int d TextSize in
  do! m := look_chars t Chars in
  Stop (CharStream_write cs m n).

(** CharStream_write(cs, s, ID3v2_strlent(s)): the string is read twice. *)
Definition write_string_p (cs : CharStream) (frame : ptr) (f : field) : prog CharStream :=
  do! d := look_ptr frame FrameData in
  do! s := look_ptr d f in
  do! d := look_ptr frame FrameData in
  do! s' := look_ptr d f in
  do! m := look_chars s' Chars in
  do! n := Stop (ID3v2_strlent (Some m)) in
  do! m := look_chars s Chars in
  Stop (CharStream_write cs m n).

(** comment_frame.c:66-88 CommentFrame_to_char_stream. *)
Definition CommentFrame_to_char_stream_p (frame : ptr) : prog CharStream :=
  do! cs := start_frame_stream_p frame in
  do! d := look_ptr frame FrameData in
  do! e := look_chars d CommentEncoding in
  do! cs := Stop (CharStream_write cs e ID3v2_FRAME_ENCODING_LENGTH) in
  do! d := look_ptr frame FrameData in
  do! l := look_chars d CommentLanguage in
  do! cs := Stop (CharStream_write cs l ID3v2_COMMENT_FRAME_LANGUAGE_LENGTH) in
  do! cs := write_string_p cs frame CommentShort in
  do! d := look_ptr frame FrameData in
  do! c := look_ptr d CommentText in
  do! d := look_ptr frame FrameData in
  do! n := look_int d CommentSize in
  do! m := look_chars c Chars in
  Stop (CharStream_write cs m n).

(** apic_frame.c:76-95 ApicFrame_to_char_stream. *)
Definition ApicFrame_to_char_stream_p (frame : ptr) : prog CharStream :=
  do! cs := start_frame_stream_p frame in
  do! d := look_ptr frame FrameData in
  do! e := look_chars d ApicEncoding in
  do! cs := Stop (CharStream_write cs e ID3v2_FRAME_ENCODING_LENGTH) in
  do! cs := write_string_p cs frame ApicMime in
  do! d := look_ptr frame FrameData in
  do! t := look_chars d ApicType in
  do! cs := Stop (CharStream_write cs t ID3v2_APIC_FRAME_PICTURE_TYPE_LENGTH) in
  do! cs := write_string_p cs frame ApicDesc in
  do! d := look_ptr frame FrameData in
  do! p := look_ptr d ApicPicture in
  do! d := look_ptr frame FrameData in
  do! n := look_int d ApicSize in
  do! m := look_chars p Chars in
  Stop (CharStream_write cs m n).

(** frame.c:59-84 Frame_to_char_stream; the three tests look at the id only. *)
Definition Frame_to_char_stream_p (frame : ptr) : prog (option CharStream) :=
  match frame with
  | None => retp None
  | Some _ =>
      do! id := id_of frame in
      do! is_text := Stop (FrameHeader_isTextFrame (mkFH id 0 [])) in
      do! is_comment := Stop (FrameHeader_isCommentFrame (mkFH id 0 [])) in
      do! is_apic := Stop (FrameHeader_isApicFrame (mkFH id 0 [])) in
      if is_text then do! cs := TextFrame_to_char_stream_p frame in retp (Some cs)
      else if is_comment then do! cs := CommentFrame_to_char_stream_p frame in retp (Some cs)
      else if is_apic then do! cs := ApicFrame_to_char_stream_p frame in retp (Some cs)
      else
        do! size := size_of frame in
        do! n := Stop (iadd size ID3v2_FRAME_HEADER_LENGTH) in
        do! cs := Stop (CharStream_new n) in
        do! hd := look_ptr frame FrameHead in
        do! header_cs := FrameHeader_to_char_stream_p hd in
        do! cs := Stop (CharStream_write cs (cs_stream header_cs) ID3v2_FRAME_HEADER_LENGTH) in
        do! d := look_ptr frame FrameData in
        do! size := size_of frame in
        do! m := look_chars d Chars in
        do! cs := Stop (CharStream_write cs m size) in
        retp (Some cs)
  end.

(** tag.c:93-103, the frame loop of Tag_to_char_stream. *)
Fixpoint write_frames_p (fuel : nat) (frames : ptr) (cs : CharStream) : prog CharStream :=
  match fuel with
  | O => Stop NoFuel
  | S fuel =>
      match frames with
      | None => retp cs
      | Some _ =>
          do! f := look_ptr frames NodeFrame in
          do! frame_cs := Frame_to_char_stream_p f in
          match frame_cs with
          | None => Stop (Exit 1)
          | Some fcs =>
              do! cs := Stop (CharStream_write cs (cs_stream fcs) (cs_size fcs)) in
              do! nx := look_ptr frames NodeNext in
              write_frames_p fuel nx cs
          end
      end
  end.

(** A member of tag->header, written to the stream. *)
Definition write_member_p (cs : CharStream) (tag : ptr) (f : field) (n : Z) : prog CharStream :=
  do! hd := look_ptr tag TagHead in
  do! m := look_chars hd f in
  Stop (CharStream_write cs m n).

(** tag.c:70-106 Tag_to_char_stream. *)
Definition Tag_to_char_stream_p (fuel : nat) (tag : ptr) : prog CharStream :=
  do! hd := look_ptr tag TagHead in
  do! size := look_int hd TagSize in
  do! cs := Stop (CharStream_new (to_i32 (to_u32 (size + ID3v2_TAG_HEADER_LENGTH)))) in
  do! cs := write_member_p cs tag TagIdentifier ID3v2_TAG_HEADER_IDENTIFIER_LENGTH in
  do! cs := write_member_p cs tag TagMajor ID3v2_TAG_HEADER_MAJOR_VERSION_LENGTH in
  do! cs := write_member_p cs tag TagMinor ID3v2_TAG_HEADER_MINOR_VERSION_LENGTH in
  do! cs := write_member_p cs tag TagFlags ID3v2_TAG_HEADER_FLAGS_LENGTH in
  do! hd := look_ptr tag TagHead in
  do! size := look_int hd TagSize in
  do! enc := Stop (syncint_encode (to_i32 size)) in
  do! cs := Stop (CharStream_write cs (itob enc) ID3v2_TAG_HEADER_TAG_SIZE_LENGTH) in
  do! frames := look_ptr tag TagFrames in
  do! f := look_ptr frames NodeFrame in
  match f with
  | None => retp cs
  | Some _ => write_frames_p fuel frames cs
  end.

(** id3v2lib.c:82-131 ID3v2_write_tag: what the file holds when it returns.
    Line 96 reads padding_size once more. *)
Definition write_tag_p (fuel : nat) (f : file) (tag : ptr) : prog file :=
  match tag with
  | None => retp f
  | Some _ =>
      do! existing := Stop (ID3v2_read_tag_header f) in
      let original_size := match existing with Some h => declared_length h | None => 0 end in
      do! padding := look_int tag TagPadding in
      do! d := Stop (isub ID3v2_TAG_DEFAULT_PADDING_LENGTH padding) in
      let extra := clamp_int d 0 ID3v2_TAG_DEFAULT_PADDING_LENGTH in
      do! padding := look_int tag TagPadding in
      do! padding := Stop (iadd padding extra) in
      do! _ := set_int tag TagPadding padding in
      do! tag_cs := Tag_to_char_stream_p fuel tag in
      do! temp := Stop (fwrite_bytes (firstn (Z.to_nat (cs_size tag_cs)) (cs_stream tag_cs))) in
      match f with
      | None => Stop (Ub NullDeref)
      | Some content => retp (Some (copy_loop (copy_loop (from_offset content original_size) temp) []))
      end
  end.

Section Rounds.
  Variable rounds : nat.

  (** frame_list.c:33-55 FrameList_add_frame. *)
  Definition FrameList_add_frame_p (list frame : ptr) : prog unit :=
    do! st := look_ptr list NodeStart in
    match st with
    | None =>
        do! _ := set_ptr list NodeStart list in
        set_ptr list NodeFrame frame
    | Some _ =>
        do! current := FrameList_new_p in
        do! _ := set_ptr (Some current) NodeFrame frame in
        do! st := look_ptr list NodeStart in
        do! _ := set_ptr (Some current) NodeStart st in
        do! last := last_node_p rounds list in
        set_ptr last NodeNext (Some current)
    end.

  (** frame_list.c:82-90, the loop of FrameList_get_frames_by_id. *)
  Fixpoint get_frames_loop_p (fuel : nat) (list : ptr) (frame_id : cptr) (sublist : ptr) : prog unit :=
    match fuel with
    | O => Stop NoFuel
    | S fuel =>
        match list with
        | None => retp tt
        | Some _ =>
            do! f := look_ptr list NodeFrame in
            match f with
            | None => retp tt
            | Some _ =>
                do! m := id_matches_p list frame_id in
                do! _ := if m then do! f := look_ptr list NodeFrame in FrameList_add_frame_p sublist f
                         else retp tt in
                do! nx := look_ptr list NodeNext in
                get_frames_loop_p fuel nx frame_id sublist
            end
        end
    end.
  (** frame_list.c:78-93 FrameList_get_frames_by_id. *)
  Definition FrameList_get_frames_by_id_p (list : ptr) (frame_id : cptr) : prog ptr :=
    do! sublist := FrameList_new_p in
    do! _ := get_frames_loop_p rounds list frame_id (Some sublist) in
    retp (Some sublist).

  (** ** Tags *)

  (** tag.c:111-115 ID3v2_Tag_get_frame. *)
  Definition ID3v2_Tag_get_frame_p (tag : ptr) (frame_id : cptr) : prog ptr :=
    match tag with
    | None => retp None
    | Some _ => do! fr := look_ptr tag TagFrames in get_frame_by_id_p rounds fr frame_id
    end.

  (** tag.c:117-121 ID3v2_Tag_get_frames. *)
  Definition ID3v2_Tag_get_frames_p (tag : ptr) (frame_id : cptr) : prog ptr :=
    match tag with
    | None => retp None
    | Some _ => do! fr := look_ptr tag TagFrames in FrameList_get_frames_by_id_p fr frame_id
    end.

  (** tag.c:207-221, 341-355, 394-408. *)
  Definition install_frame_p (tag existing_frame new_frame : ptr) : prog unit :=
    do! fr := look_ptr tag TagFrames in
    match existing_frame with
    | None =>
        do! _ := FrameList_add_frame_p fr new_frame in
        do! size := size_of new_frame in
        grow_p tag size
    | Some _ =>
        do! _ := replace_frame_p rounds fr existing_frame new_frame in
        do! n := size_of new_frame in
        do! e := size_of existing_frame in
        do! d := Stop (isub n e) in
        do! _ := grow_p tag d in
        ID3v2_Frame_free_p existing_frame
    end.

  (** tag.c:201-222 ID3v2_Tag_set_text_frame. *)
  Definition ID3v2_Tag_set_text_frame_p (tag : ptr) (input : TextFrameInput) : prog unit :=
    do! new_frame := TextFrame_new_p (ti_id input) (ti_flags input) (ti_text input) in
    do! fr := look_ptr tag TagFrames in
    do! existing_frame := get_frame_by_id_p rounds fr (ti_id input) in
    install_frame_p tag existing_frame (Some new_frame).

  (** tag.c:335-356 ID3v2_Tag_set_comment_frame. *)
  Definition ID3v2_Tag_set_comment_frame_p (tag : ptr) (input : CommentFrameInput) : prog unit :=
    do! new_frame := CommentFrame_new_p (ci_flags input) (ci_language input)
                                        (ci_short_description input) (ci_comment input) in
    do! fr := look_ptr tag TagFrames in
    do! existing_frame := get_frame_by_id_p rounds fr ID3v2_COMMENT_FRAME_ID in
    install_frame_p tag existing_frame (Some new_frame).

  (** tag.c:358-364 ID3v2_Tag_add_comment_frame. *)
  Definition ID3v2_Tag_add_comment_frame_p (tag : ptr) (input : CommentFrameInput) : prog unit :=
    do! new_frame := CommentFrame_new_p (ci_flags input) (ci_language input)
                                        (ci_short_description input) (ci_comment input) in
    install_frame_p tag None (Some new_frame).

  (** tag.c:382-409 ID3v2_Tag_set_apic_frame. *)
  Definition ID3v2_Tag_set_apic_frame_p (tag : ptr) (input : ApicFrameInput) : prog unit :=
    do! new_frame := ApicFrame_new_p (ai_flags input) (ai_description input) (ai_picture_type input)
                                     (ai_mime_type input) (ai_picture_size input) (ai_data input) in
    do! fr := look_ptr tag TagFrames in
    do! existing_frame := get_frame_by_id_p rounds fr ID3v2_ALBUM_COVER_FRAME_ID in
    install_frame_p tag existing_frame (Some new_frame).

  (** tag.c:411-423 ID3v2_Tag_add_apic_frame. *)
  Definition ID3v2_Tag_add_apic_frame_p (tag : ptr) (input : ApicFrameInput) : prog unit :=
    do! new_frame := ApicFrame_new_p (ai_flags input) (ai_description input) (ai_picture_type input)
                                     (ai_mime_type input) (ai_picture_size input) (ai_data input) in
    install_frame_p tag None (Some new_frame).

  (** tag.c:448-453 ID3v2_Tag_free. *)
  Definition ID3v2_Tag_free_p (tag : ptr) : prog unit :=
    do! hd := look_ptr tag TagHead in
    do! _ := drop hd in
    do! fr := look_ptr tag TagFrames in
    do! _ := free_list_p rounds fr in
    drop tag.

  (** tag.c:455-462 ID3v2_Tag_delete_frame. *)
  Definition ID3v2_Tag_delete_frame_p (tag : ptr) (frame_id : cptr) : prog unit :=
    do! fr := look_ptr tag TagFrames in
    do! deleted := remove_by_id_p rounds fr frame_id in
    do! size := size_of deleted in
    do! n := Stop (iadd size ID3v2_FRAME_HEADER_LENGTH) in
    do! _ := grow_p tag (- n) in
    ID3v2_Frame_free_p deleted.

  (** tag.c:514-527 and 542-555; returns [head]. *)
  Fixpoint delete_nth_loop_p (fuel : nat) (tag head : ptr) (i index : Z) : prog ptr :=
    match fuel with
    | O => Stop NoFuel
    | S fuel =>
        match head with
        | None => retp None
        | Some _ =>
            do! to_delete := look_ptr head NodeFrame in
            if i =? index then
              do! fr := look_ptr tag TagFrames in
              do! _ := remove_frame_p rounds fr to_delete in
              do! _ := ID3v2_Frame_free_p to_delete in
              retp head
            else do! nx := look_ptr head NodeNext in delete_nth_loop_p fuel tag nx (i + 1) index
        end
    end.

  (** tag.c:509-530 ID3v2_Tag_delete_comment_frame and 537-558
      ID3v2_Tag_delete_apic_frame, which differ in the id. *)
  Definition delete_nth_frame_p (tag : ptr) (frame_id : cptr) (index : Z) : prog unit :=
    do! fr := look_ptr tag TagFrames in
    do! head := FrameList_get_frames_by_id_p fr frame_id in
    do! head := delete_nth_loop_p rounds tag head 0 index in
    unlink_p rounds head.

  (** The calls that change a tag, as Heap.run_call_h. *)
  Definition run_call_p (tag : ptr) (c : call) : prog unit :=
    let text id s := ID3v2_Tag_set_text_frame_p tag (mkTextInput id NO_FLAGS s) in
    let delete id := ID3v2_Tag_delete_frame_p tag id in
    match c with
    | SetTextFrame i => ID3v2_Tag_set_text_frame_p tag i
    | SetArtist s => text ID3v2_ARTIST_FRAME_ID s
    | SetAlbum s => text ID3v2_ALBUM_FRAME_ID s
    | SetTitle s => text ID3v2_TITLE_FRAME_ID s
    | SetTrack s => text ID3v2_TRACK_FRAME_ID s
    | SetAlbumArtist s => text ID3v2_ALBUM_ARTIST_FRAME_ID s
    | SetGenre s => text ID3v2_GENRE_FRAME_ID s
    | SetYear s => text ID3v2_YEAR_FRAME_ID s
    | SetDiscNumber s => text ID3v2_DISC_NUMBER_FRAME_ID s
    | SetComposer s => text ID3v2_COMPOSER_FRAME_ID s
    | SetCommentFrame i => ID3v2_Tag_set_comment_frame_p tag i
    | AddCommentFrame i => ID3v2_Tag_add_comment_frame_p tag i
    | SetComment l c => ID3v2_Tag_set_comment_frame_p tag (mkCommentInput NO_FLAGS l EMPTY_UNICODE_STR c)
    | SetApicFrame i => ID3v2_Tag_set_apic_frame_p tag i
    | AddApicFrame i => ID3v2_Tag_add_apic_frame_p tag i
    | SetAlbumCover m n d =>
        ID3v2_Tag_set_apic_frame_p tag
          (mkApicInput NO_FLAGS m EMPTY_UNICODE_STR ID3v2_PIC_TYPE_FRONT_COVER n d)
    | DeleteFrame id => delete id
    | DeleteArtist => delete ID3v2_ARTIST_FRAME_ID
    | DeleteAlbum => delete ID3v2_ALBUM_FRAME_ID
    | DeleteTitle => delete ID3v2_TITLE_FRAME_ID
    | DeleteTrack => delete ID3v2_TRACK_FRAME_ID
    | DeleteAlbumArtist => delete ID3v2_ALBUM_ARTIST_FRAME_ID
    | DeleteGenre => delete ID3v2_GENRE_FRAME_ID
    | DeleteYear => delete ID3v2_YEAR_FRAME_ID
    | DeleteDiscNumber => delete ID3v2_DISC_NUMBER_FRAME_ID
    | DeleteComposer => delete ID3v2_COMPOSER_FRAME_ID
    | DeleteComment => delete ID3v2_COMMENT_FRAME_ID
    | DeleteAlbumCover => delete ID3v2_ALBUM_COVER_FRAME_ID
    | DeleteCommentFrame i => delete_nth_frame_p tag ID3v2_COMMENT_FRAME_ID i
    | DeleteApicFrame i => delete_nth_frame_p tag ID3v2_ALBUM_COVER_FRAME_ID i
    end.

  (** The caller walks over a list that it got and collects the frames. *)
  Fixpoint frames_on (fuel : nat) (l : ptr) : prog (list ptr) :=
    match fuel with
    | O => Stop NoFuel
    | S fuel =>
        match l with
        | None => retp []
        | Some _ =>
            do! f := look_ptr l NodeFrame in
            match f with
            | None => retp []
            | Some _ =>
                do! nx := look_ptr l NodeNext in
                do! fs := frames_on fuel nx in
                retp (f :: fs)
            end
        end
    end.

  (** What a thread may do with a tag: get a frame; get all frames of an id,
      look through them and unlink the list; look at the text of a frame that
      it has a pointer to; call a function that changes the tag; free it; write
      it to a file that no other thread uses. *)
  Inductive request :=
  | Get (tag : ptr) (id : cptr)
  | GetAll (tag : ptr) (id : cptr)
  | Text (frame : ptr)
  | Edit (tag : ptr) (c : call)
  | FreeTag (tag : ptr)
  | Save (tag : ptr) (f : file).
  Inductive reply := Found (p : ptr) | FoundAll (l : list ptr) | TextIs (m : mem) | Nothing | Saved (f : file).

  Definition request_p (r : request) : prog reply :=
    match r with
    | Get tag id => do! p := ID3v2_Tag_get_frame_p tag id in retp (Found p)
    | GetAll tag id =>
        do! l := ID3v2_Tag_get_frames_p tag id in
        do! ps := frames_on rounds l in
        do! _ := unlink_p rounds l in
        retp (FoundAll ps)
    | Text frame =>
        do! d := look_ptr frame FrameData in
        do! t := look_ptr d TextText in
        do! m := look_chars t Chars in
        retp (TextIs m)
    | Edit tag c => do! _ := run_call_p tag c in retp Nothing
    | FreeTag tag => do! _ := ID3v2_Tag_free_p tag in retp Nothing
    | Save tag f => do! f := write_tag_p rounds f tag in retp (Saved f)
    end.
  Fixpoint requests_p (l : list request) : prog (list reply) :=
    match l with
    | [] => retp []
    | r :: l => do! x := request_p r in do! xs := requests_p l in retp (x :: xs)
    end.
End Rounds.

(** ** Threads *)

(** One access of a program. *)
Definition next_step {A B} (o : outcome B) (h : heap) (k : B -> prog A * heap) : prog A * heap :=
  match o with
  | Ok b => k b
  | Ub u => (Stop (Ub u), h)
  | Exit n => (Stop (Exit n), h)
  | NoFuel => (Stop NoFuel, h)
  end.
Definition as_outcome {B} (o : option B) : outcome B :=
  match o with Some b => Ok b | None => Ub TypeConfusion end.
Definition advance {A} (x : prog A * heap) : prog A * heap :=
  match x with
  | (Stop o, h) => (Stop o, h)
  | (Look p f k, h) =>
      next_step (let* b := load p h in as_outcome (get_field f b)) h (fun v => (k v, h))
  | (Change p f v k, h) =>
      next_step (let* b := load p h in let* b := as_outcome (set_field f v b) in store p b h) h (fun h => (k, h))
  | (Make x k, h) => let (a, h) := malloc x h in (k a, h)
  | (Drop p k, h) => next_step (free p h) h (fun h => (k, h))
  end.

(** A program that is left alone for so many accesses. *)
Fixpoint alone {A} (n : nat) (x : prog A * heap) : prog A * heap :=
  match n with O => x | S n => advance (alone n x) end.

(** The blocks are shared; each thread has a program and the address that malloc
    gives it next. *)
Definition world (A : Type) := (list (nat * block) * (nat -> prog A * nat))%type.

(** It is the turn of thread [i]. *)
Definition turn {A} (w : world A) (i : nat) : world A :=
  let (l, ts) := w in
  let (p, n) := ts i in
  let (p, h) := advance (p, mkHeap l n) in
  (live h, fun j => if Nat.eqb j i then (p, next h) else ts j).
Definition turns {A} (w : world A) (schedule : list nat) : world A := fold_left turn schedule w.
