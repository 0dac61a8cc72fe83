(** Programs that use the library: any number of tags and files, in any order.
    This is no code of /repo but the client of the functions that are; it is
    given twice, on values and on the heap.  A program tests a tag pointer for
    NULL before it uses it, sets it to NULL when it has freed the tag, and
    frees the lists of found frames with ID3v2_FrameList_unlink. *)
From Verif Require Export HeapIO.

Inductive step :=
| NewTag                            (* tags[n] = ID3v2_Tag_new_empty() *)
| ReadTag (name : nat)              (* tags[n] = ID3v2_read_tag(name) *)
| ReadBuffer (p : cptr) (size : Z)  (* tags[n] = ID3v2_read_tag_from_buffer(p, size) *)
| ReadHeader (name : nat)           (* h = ID3v2_read_tag_header(name), and free it *)
| GetFrame (i : nat) (id : cptr)    (* ID3v2_Tag_get_frame(tags[i], id) *)
| GetFrames (i : nat) (id : cptr)   (* l = ID3v2_Tag_get_frames(tags[i], id), and unlink it *)
| Call (i : nat) (c : call)
| WriteTag (i : nat) (name : nat)   (* ID3v2_write_tag(name, tags[i]) *)
| DeleteTag (name : nat)            (* ID3v2_delete_tag(name) *)
| FreeTag (i : nat).                (* ID3v2_Tag_free(tags[i]), tags[i] = NULL *)

Definition disk := nat -> file.
Definition on_disk (d : disk) (name : nat) (f : file) : disk := fun n => if Nat.eqb n name then f else d n.

(** Assignment to an existing element. *)
Fixpoint assign {A} (l : list A) (i : nat) (x : A) : list A :=
  match l, i with
  | [], _ => []
  | _ :: l, O => x :: l
  | y :: l, S i => y :: assign l i x
  end.

(** ** On values *)

Record world := mkWorld { w_disk : disk; w_tags : list (option Tag) }.

Definition with_tag (w : world) (i : nat) (k : Tag -> outcome world) : outcome world :=
  match nth i (w_tags w) None with None => Ok w | Some t => k t end.
Definition new_tag (w : world) (t : option Tag) : world := mkWorld (w_disk w) (w_tags w ++ [t]).
Definition set_tag (w : world) (i : nat) (t : option Tag) : world := mkWorld (w_disk w) (assign (w_tags w) i t).
Definition set_file (w : world) (name : nat) (states : list file) : world :=
  mkWorld (on_disk (w_disk w) name (last states (w_disk w name))) (w_tags w).

Definition run_step (w : world) (s : step) : outcome world :=
  match s with
  | NewTag => Ok (new_tag w (Some ID3v2_Tag_new_empty))
  | ReadTag name => let* t := ID3v2_read_tag (w_disk w name) in Ok (new_tag w t)
  | ReadBuffer p size => let* t := ID3v2_read_tag_from_buffer p size in Ok (new_tag w t)
  | ReadHeader name => let* _ := ID3v2_read_tag_header (w_disk w name) in Ok w
  | GetFrame i id => with_tag w i (fun t => let* _ := ID3v2_Tag_get_frame (Some t) id in Ok w)
  | GetFrames i id => with_tag w i (fun t => let* _ := ID3v2_Tag_get_frames (Some t) id in Ok w)
  | Call i c => with_tag w i (fun t => let* t := run_call t c in Ok (set_tag w i (Some t)))
  | WriteTag i name =>
      with_tag w i (fun t =>
        let* (states, t) := ID3v2_write_tag_states (w_disk w name) (Some t) in
        Ok (set_file (set_tag w i t) name states))
  | DeleteTag name => let* states := ID3v2_delete_tag_states (w_disk w name) in Ok (set_file w name states)
  | FreeTag i => with_tag w i (fun _ => Ok (set_tag w i None))
  end.

Fixpoint run (w : world) (prog : list step) : outcome world :=
  match prog with
  | [] => Ok w
  | s :: prog => let* w := run_step w s in run w prog
  end.

(** ** On the heap *)

Record machine := mkMachine { m_disk : disk; m_tags : list ptr; m_heap : heap }.

Definition with_ptr (w : machine) (i : nat) (k : ptr -> outcome machine) : outcome machine :=
  match nth i (m_tags w) None with None => Ok w | Some a => k (Some a) end.
Definition new_ptr (w : machine) (r : ptr * heap) : machine := mkMachine (m_disk w) (m_tags w ++ [fst r]) (snd r).
Definition set_ptr (w : machine) (i : nat) (p : ptr) (h : heap) : machine := mkMachine (m_disk w) (assign (m_tags w) i p) h.
Definition set_heap (w : machine) (h : heap) : machine := mkMachine (m_disk w) (m_tags w) h.
Definition set_file_h (w : machine) (name : nat) (states : list file) (h : heap) : machine :=
  mkMachine (on_disk (m_disk w) name (last states (m_disk w name))) (m_tags w) h.

Definition run_step_h (w : machine) (s : step) : outcome machine :=
  match s with
  | NewTag => let (a, h) := ID3v2_Tag_new_empty_h (m_heap w) in Ok (new_ptr w (Some a, h))
  | ReadTag name => let* r := ID3v2_read_tag_h (m_disk w name) (m_heap w) in Ok (new_ptr w r)
  | ReadBuffer p size => let* r := ID3v2_read_tag_from_buffer_h p size (m_heap w) in Ok (new_ptr w r)
  | ReadHeader name =>
      let* (p, h) := ID3v2_read_tag_header_h (m_disk w name) (m_heap w) in
      let* h := match p with None => Ok h | Some _ => ID3v2_TagHeader_free p h end in
      Ok (set_heap w h)
  | GetFrame i id => with_ptr w i (fun p => let* _ := ID3v2_Tag_get_frame_h p id (m_heap w) in Ok w)
  | GetFrames i id =>
      with_ptr w i (fun p =>
        let* (list, h) := ID3v2_Tag_get_frames_h p id (m_heap w) in
        let* h := ID3v2_FrameList_unlink list h in
        Ok (set_heap w h))
  | Call i c => with_ptr w i (fun p => let* h := run_call_h p c (m_heap w) in Ok (set_heap w h))
  | WriteTag i name =>
      with_ptr w i (fun p =>
        let* (states, h) := ID3v2_write_tag_h (m_disk w name) p (m_heap w) in
        Ok (set_file_h w name states h))
  | DeleteTag name =>
      let* (states, h) := ID3v2_delete_tag_h (m_disk w name) (m_heap w) in
      Ok (set_file_h w name states h)
  | FreeTag i => with_ptr w i (fun p => let* h := ID3v2_Tag_free p (m_heap w) in Ok (set_ptr w i None h))
  end.

Fixpoint run_h (w : machine) (prog : list step) : outcome machine :=
  match prog with
  | [] => Ok w
  | s :: prog => let* w := run_step_h w s in run_h w prog
  end.
