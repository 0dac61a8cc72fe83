(** Specification of reading and writing on the heap, and of whole programs. *)
From Verif Require Import Spec SpecEdit Heap HeapIO SpecHeap Program.

(** Not undefined by the use of freed memory, by freeing what is not allocated,
    or by taking a block for one of another type. *)
Definition tidy {A} (o : outcome A) : Prop :=
  match o with Ub UseAfterFree | Ub BadFree | Ub TypeConfusion => False | _ => True end.

(** A function that returns a tag, or NULL and leaves the heap as it was. *)
Definition loaded (m : list (nat * block)) (v : option Tag) (r : ptr * heap) : Prop :=
  match v with
  | None => fst r = None /\ heap_is (snd r) m
  | Some t => exists a, fst r = Some a /\ tag_at (snd r) a t m
  end.

(** The same for a header, which is one block. *)
Definition header_loaded (m : list (nat * block)) (v : option TagHeader) (r : ptr * heap) : Prop :=
  match v with
  | None => fst r = None /\ heap_is (snd r) m
  | Some th => exists a, fst r = Some a /\ heap_is (snd r) ((a, BTagHeader th) :: m)
  end.

(** The number of frames of unknown kinds among those that are written. *)
Definition written_leak (l : flist) : nat := list_sum (map frame_leak (visible l)).

(** The file goes through the same states, the tag is where it was, with all
    its parts, and [2 * k] blocks are lost. *)
Definition stored (a : nat) (pl : list pnode) (k : nat) (rest : list (nat * block))
  (v : list file * option Tag) (r : list file * heap) : Prop :=
  fst v = fst r /\ exists t lost, snd v = Some t /\ tag_laid (snd r) a t pl (lost ++ rest) /\ length lost = (2 * k)%nat.

(** ** Programs *)

(** Text frames are only set under ids that start with T; sizes are ints. *)
Definition step_ok (s : step) : Prop :=
  match s with
  | Call _ c => call_kind c
  | ReadBuffer _ size => size < 2 ^ 31
  | _ => True
  end.

(** A tag with its blocks, and whether the kinds of its frames fit the ids. *)
Definition tag_of (a : nat) (t : Tag) (bs : list (nat * block)) : Prop :=
  (exists ah head l, bs = tag_blocks a ah head t l
    /\ t_frames t = map p_node l /\ first_addr l = Some head
    /\ Forall node_ok (t_frames t) /\ NoDup (addresses (t_frames t)) /\ Forall (fun x => (x < t_fresh t)%nat) (addresses (t_frames t)))
  /\ kinds_ok (t_frames t).

(** The tags of the program, the pointers to them, and all their blocks. *)
Inductive owned : list (option Tag) -> list ptr -> list (nat * block) -> Prop :=
| OwnedNil : owned [] [] []
| OwnedNull ts ps bs : owned ts ps bs -> owned (None :: ts) (None :: ps) bs
| OwnedTag t ts a ps b bs : tag_of a t b -> owned ts ps bs -> owned (Some t :: ts) (Some a :: ps) (b ++ bs).

(** The machine is in the state that the values describe, and [m] is all that
    is allocated beside the tags. *)
Definition shows_world (w : world) (x : machine) (m : list (nat * block)) : Prop :=
  m_disk x = w_disk w /\ exists bs, owned (w_tags w) (m_tags x) bs /\ heap_is (m_heap x) (bs ++ m).

(** How many blocks a step loses. *)
Definition tag_frames (w : world) (i : nat) : flist :=
  match nth i (w_tags w) None with Some t => t_frames t | None => [] end.

Definition step_leak (w : world) (s : step) : nat :=
  match s with
  | Call i c => match nth i (w_tags w) None with
                | Some t => (node_leak c (t_frames t) + struct_leak c)%nat
                | None => 0
                end
  | WriteTag i _ => (2 * written_leak (tag_frames w i))%nat
  | FreeTag i => list_leak (tag_frames w i)
  | _ => 0
  end.

Fixpoint leaks (w : world) (prog : list step) : nat :=
  match prog with
  | [] => 0
  | s :: prog => (step_leak w s + match run_step w s with Ok w => leaks w prog | _ => 0 end)%nat
  end.
