(** What the functions that work on files do to the whole system: to the files
    of other names, to temporary files, to open streams, and to the disk at
    every moment of the call. *)
From Verif Require Export Stdio.

(** Nothing is refused from here on; output may be delayed. *)
Definition calm (s : sys) : Prop := forall n, ~ In (Refuse n) (s_answers s).

(** The numbers of streams to come are not in use. *)
Definition sound (s : sys) : Prop :=
  forall k, (s_next s <= k)%nat -> s_open s k = None /\ s_disk s (Temp k) = None.

(** The same streams are open as before and there are no new temporary files. *)
Definition tidy (s s' : sys) : Prop :=
  (forall k, s_open s' k = s_open s k) /\
  (forall k, s_disk s' (Temp k) = s_disk s (Temp k)) /\
  sound s' /\ (calm s -> calm s').

(** No file was touched, not even for a moment. *)
Definition untouched (s s' : sys) : Prop :=
  (forall t, s_disk s' t = s_disk s t) /\ s_log s' = s_log s.

(** The states of the disk since [s]. *)
Definition since (s s' : sys) (l : list disk) : Prop := s_log s' = l ++ s_log s.

(** At every moment all files but [n] were as in [s], and [n] was, or it held a
    beginning of what it holds in the end. *)
Definition careful (n : list byte) (s s' : sys) : Prop :=
  exists l, since s s' l /\
  forall d, In d (s_disk s' :: l) ->
    (forall m, m <> n -> d (Named m) = s_disk s (Named m)) /\
    (d (Named n) = s_disk s (Named n) \/
     exists x y, d (Named n) = Some x /\ s_disk s' (Named n) = Some (x ++ y)).

(** [a] is [b] with some elements left out. *)
Inductive part_of {A} : list A -> list A -> Prop :=
| part_nil l : part_of [] l
| part_take x a b : part_of a b -> part_of (x :: a) (x :: b)
| part_skip x a b : part_of a b -> part_of a (x :: b).

(** A program that uses the functions on files, whatever it passes to them. *)
Inductive file_call :=
| ReadHeader (n : list byte) | ReadTag (n : list byte)
| WriteTag (n : list byte) (tag : option Tag) | DeleteTag (n : list byte)
| LoadTag (n : list byte) | SetTag (n : list byte) (tag : option ctag) | RemoveTag (n : list byte)
| SetCover (filename : cptr) (picture : list byte) (tag : option ctag).

Definition done {A} (m : io A) : io unit := let! _ := m in ret tt.
Definition call_file (c : file_call) : io unit :=
  match c with
  | ReadHeader n => done (ID3v2_read_tag_header_s n)
  | ReadTag n => done (ID3v2_read_tag_s n)
  | WriteTag n tag => done (ID3v2_write_tag_s n tag)
  | DeleteTag n => ID3v2_delete_tag_s n
  | LoadTag n => done (load_tag_s n)
  | SetTag n tag => done (set_tag_s n tag)
  | RemoveTag n => remove_tag_s n
  | SetCover filename picture tag => done (tag_set_album_cover_s filename picture tag)
  end.
Fixpoint call_files (l : list file_call) : io unit :=
  match l with
  | [] => ret tt
  | c :: l => let! _ := call_file c in call_files l
  end.

(** The file that a call is to change. *)
Definition changes (c : file_call) (n : list byte) : Prop :=
  match c with
  | WriteTag m _ | DeleteTag m | SetTag m _ | RemoveTag m => m = n
  | _ => False
  end.
