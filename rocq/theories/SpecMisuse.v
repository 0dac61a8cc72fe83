(** Specification of frames whose id does not stand for the kind of their data:
    a text frame can be set under any id, but the library tells the kind of a
    frame by the first letter of its id. *)
From Verif Require Import Heap Spec SpecEdit SpecHeap.

(** The kinds that the library has functions for. *)
Definition known (c : byte) : bool := beq c "T" || beq c "C" || beq c "A".
Definition stands_for (c : byte) (d : fdata) : bool :=
  match d with
  | DText _ => beq c "T"
  | DComment _ => beq c "C"
  | DApic _ => beq c "A"
  | DRaw _ => negb (known c)
  end.

(** What comes of freeing such a frame: the number of blocks that stay
    allocated.  If no function is known for the letter, those are the struct
    and the strings that the data pointed to; if one is, it takes the data for
    what the letter stands for. *)
Definition strings (d : fdata) : nat :=
  match d with DText _ => 1 | DComment _ => 2 | DApic _ => 3 | DRaw _ => 0 end.
Definition release (f : frame) : outcome nat :=
  match fh_id (f_hdr f) with
  | Some c :: _ =>
      if known c then if stands_for c (f_data f) then Ok 0%nat else Ub TypeConfusion
      else Ok (1 + strings (f_data f))%nat
  | None :: _ => Ub UninitRead
  | [] => Ub OobRead
  end.
Fixpoint releases (l : flist) : outcome nat :=
  match l with
  | [] => Ok 0%nat
  | n :: rest =>
      let* k := match n_frame n with Some p => release (fp_frame p) | None => Ok 0%nat end in
      let* j := releases rest in
      Ok (k + j)%nat
  end.

(** The first four characters are the same, or are up to a zero. *)
Fixpoint alike (n : nat) (a b : mem) : bool :=
  match n, a, b with
  | O, _, _ => true
  | S n, Some x :: a, Some y :: b => beq x y && (beq y x00 || alike n a b)
  | _, _, _ => false
  end.
Definition called (id : cptr) (f : frame) : bool :=
  match id with Some id => alike 4 (fh_id (f_hdr f)) id | None => false end.

(** The frame that a call frees: the one that it replaces or deletes. *)
Definition freed (c : call) (l : flist) : option frame :=
  let first id := find (called id) (visible l) in
  let nth id i := if 0 <=? i then nth_error (filter (called id) (visible l)) (Z.to_nat i) else None in
  match c with
  | SetTextFrame i => first (ti_id i)
  | SetArtist _ | DeleteArtist => first (clit "TPE1")
  | SetAlbum _ | DeleteAlbum => first (clit "TALB")
  | SetTitle _ | DeleteTitle => first (clit "TIT2")
  | SetTrack _ | DeleteTrack => first (clit "TRCK")
  | SetAlbumArtist _ | DeleteAlbumArtist => first (clit "TPE2")
  | SetGenre _ | DeleteGenre => first (clit "TCON")
  | SetYear _ | DeleteYear => first (clit "TYER")
  | SetDiscNumber _ | DeleteDiscNumber => first (clit "TPOS")
  | SetComposer _ | DeleteComposer => first (clit "TCOM")
  | SetCommentFrame _ | SetComment _ _ | DeleteComment => first (clit "COMM")
  | SetApicFrame _ | SetAlbumCover _ _ _ | DeleteAlbumCover => first (clit "APIC")
  | AddCommentFrame _ | AddApicFrame _ => None
  | DeleteFrame id => first id
  | DeleteCommentFrame i => nth (clit "COMM") i
  | DeleteApicFrame i => nth (clit "APIC") i
  end.
Definition release_freed (c : call) (l : flist) : outcome nat :=
  match freed c l with Some f => release f | None => Ok 0%nat end.

(** A call, and calls, with the number of blocks that are lost. *)
Definition call_result (t : Tag) (c : call) : outcome (Tag * nat) :=
  let* t' := run_call t c in
  let* k := release_freed c (t_frames t) in
  Ok (t', (node_leak c (t_frames t) + k)%nat).
Fixpoint calls_result (t : Tag) (cs : list call) : outcome (Tag * nat) :=
  match cs with
  | [] => Ok (t, 0%nat)
  | c :: cs =>
      let* (t, k) := call_result t c in
      let* (t, j) := calls_result t cs in
      Ok (t, (k + j)%nat)
  end.

(** The tag is at [a], and so many blocks are lost. *)
Definition left_at (a : nat) (rest : list (nat * block)) (v : Tag * nat) (h : heap) : Prop :=
  exists lost, length lost = snd v /\ tag_at h a (fst v) (lost ++ rest).

(** A frame whose id does not stand for the kind of its data. *)
Definition misfiled (f : frame) : Prop := exists c r, fh_id (f_hdr f) = Some c :: r /\ stands_for c (f_data f) = false.

(** The same outcome if that is a result, else none. *)
Definition fares {A B} (R : A -> B -> Prop) (o : outcome A) (o' : outcome B) : Prop :=
  match o with
  | Ok a => exists b, o' = Ok b /\ R a b
  | _ => forall b, o' <> Ok b
  end.
