(** Model of src/modules/frame_list.c.

    A list is the sequence of its nodes from the head on; [[]] is a NULL list
    pointer.  A node records its frame pointer (NULL, or the address of a frame
    together with the frame) and whether its [start] pointer is non-NULL (the
    code only ever tests it).  Overwriting a node with its successor and
    freeing the successor ( *list = *next; free(next) ) removes one element of
    the sequence.  Heap.v models the same functions on nodes with addresses
    and next pointers and proves that this view is right. *)
From Verif Require Export Frames.

(** A frame pointer that is not NULL: address and the frame found there. *)
Definition fptr := (nat * frame)%type.
Definition fp_addr (p : fptr) : nat := fst p.
Definition fp_frame (p : fptr) : frame := snd p.

(** frame_list.h:15-20 *)
Record node := mkNode { n_frame : option fptr; n_start : bool }.
Definition flist := list node.

(** frame_list.c:19-31 FrameList_new. *)
Definition empty_node : node := mkNode None false.
Definition FrameList_new : flist := [empty_node].

(** frame_list.c:33-55 FrameList_add_frame. *)
Definition FrameList_add_frame (l : flist) (f : fptr) : outcome flist :=
  match l with
  | [] => Ub NullDeref
  | n :: rest =>
      if negb (n_start n) then Ok (mkNode (Some f) true :: rest)
      else Ok ((n :: rest) ++ [mkNode (Some f) true])
  end.

(** strncmp(frame->header->id, frame_id, 4) == 0 *)
Definition id_matches (f : frame) (frame_id : cptr) : outcome bool :=
  let* i := deref frame_id in
  strncmp_eq 4 (fh_id (f_hdr f)) i.

(** frame_list.c:60-73 FrameList_get_frame_by_id. *)
Fixpoint FrameList_get_frame_by_id (l : flist) (frame_id : cptr) : outcome (option fptr) :=
  match l with
  | [] => Ok None
  | n :: rest =>
      match n_frame n with
      | None => Ok None
      | Some p =>
          let* m := id_matches (fp_frame p) frame_id in
          if m then Ok (Some p) else FrameList_get_frame_by_id rest frame_id
      end
  end.

(** frame_list.c:82-90, the loop of FrameList_get_frames_by_id. *)
Fixpoint get_frames_loop (l : flist) (frame_id : cptr) (sublist : flist) : outcome flist :=
  match l with
  | [] => Ok sublist
  | n :: rest =>
      match n_frame n with
      | None => Ok sublist
      | Some p =>
          let* m := id_matches (fp_frame p) frame_id in
          if m then
            let* sublist := FrameList_add_frame sublist p in
            get_frames_loop rest frame_id sublist
          else get_frames_loop rest frame_id sublist
      end
  end.

(** frame_list.c:78-93 FrameList_get_frames_by_id. *)
Definition FrameList_get_frames_by_id (l : flist) (frame_id : cptr) : outcome flist :=
  get_frames_loop l frame_id FrameList_new.

(** frame_list.c:125-128 and 145-148: the node is overwritten by its successor
    or by a new empty node. *)
Definition unlink_node (rest : flist) : flist :=
  match rest with
  | [] => [empty_node]
  | _ => rest
  end.

(** frame_list.c:116-135 FrameList_remove_frame_by_id. *)
Fixpoint FrameList_remove_frame_by_id (l : flist) (frame_id : cptr)
  : outcome (option fptr * flist) :=
  match l with
  | [] => Ok (None, [])
  | n :: rest =>
      let* p := deref (n_frame n) in
      let* m := id_matches (fp_frame p) frame_id in
      if m then Ok (Some p, unlink_node rest)
      else
        let* (r, rest') := FrameList_remove_frame_by_id rest frame_id in
        Ok (r, n :: rest')
  end.

(** Comparison of frame pointers; NULL is [None]. *)
Definition addr_of (p : option fptr) : option nat := option_map fp_addr p.
Definition same_ptr (a b : option fptr) : bool :=
  match addr_of a, addr_of b with
  | None, None => true
  | Some x, Some y => Nat.eqb x y
  | _, _ => false
  end.

(** frame_list.c:137-155 FrameList_remove_frame. *)
Fixpoint FrameList_remove_frame (l : flist) (to_remove : option fptr) : option fptr * flist :=
  match l with
  | [] => (None, [])
  | n :: rest =>
      if same_ptr (n_frame n) to_remove then (to_remove, unlink_node rest)
      else
        let '(r, rest') := FrameList_remove_frame rest to_remove in
        (r, n :: rest')
  end.

(** frame_list.c:161-175 FrameList_replace_frame. *)
Fixpoint FrameList_replace_frame (l : flist) (old_frame : option fptr) (new_frame : fptr) : flist :=
  match l with
  | [] => []
  | n :: rest =>
      if same_ptr (n_frame n) old_frame then mkNode (Some new_frame) (n_start n) :: rest
      else n :: FrameList_replace_frame rest old_frame new_frame
  end.
