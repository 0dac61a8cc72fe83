(** Specification of tags whose list has an entry without a frame (a hole),
    and of every edit on any tag, whether it leaves a hole or not.  Uses
    no function of the model of the code. *)
From Verif Require Import File Calls Spec SpecEdit.

(** What a tag holds: the frames that the getters see and, if its list has an
    entry without a frame, the frames behind that entry. *)
Record shelf := mkShelf { seen : list frame; behind : option (list frame) }.

Definition filled (p : fptr) : node := mkNode (Some p) true.

Definition tag_holds (t : Tag) (s : shelf) : Prop :=
  exists ps qs,
    map fp_frame ps = seen s
    /\ NoDup (map fp_addr (ps ++ qs)) /\ Forall (fun a => (a < t_fresh t)%nat) (map fp_addr (ps ++ qs))
    /\ match behind s with
       | None => ps <> [] /\ qs = [] /\ t_frames t = map filled ps
       | Some hidden => map fp_frame qs = hidden /\ t_frames t = map filled ps ++ mkNode None false :: map filled qs
       end.

(** Every frame it holds. *)
Definition held (s : shelf) : list frame :=
  seen s ++ match behind s with Some hidden => hidden | None => [] end.

(** A tag without hole, for [tag_has]: the list of a tag without frames is one
    entry without a frame. *)
Definition whole (fs : list frame) : shelf :=
  mkShelf fs match fs with [] => Some [] | _ => None end.

(** A frame is put into the first entry if that has none, else after the last. *)
Definition add_to (f : frame) (s : shelf) : shelf :=
  match behind s, seen s with
  | None, l => mkShelf (l ++ [f]) None
  | Some hidden, [] => mkShelf (f :: hidden) None
  | Some hidden, l => mkShelf l (Some (hidden ++ [f]))
  end.

(** The frame at position [n] is removed; the last entry of the list stays,
    without a frame. *)
Definition take_at (n : nat) (s : shelf) : shelf :=
  mkShelf (firstn n (seen s) ++ skipn (S n) (seen s))
          match behind s with
          | Some hidden => Some hidden
          | None => if (S n =? length (seen s))%nat then Some [] else None
          end.

(** Every edit; [None] where NULL is dereferenced.  The indexed delete number
    0, where no such frame is seen, closes a hole with frames behind it. *)
Definition edit_shelf (e : edit) (s : shelf) : option shelf :=
  match e with
  | Put f => Some (if existsb (named (frame_id f)) (seen s)
                   then mkShelf (put (named (frame_id f)) (frame_of f) (seen s)) (behind s)
                   else add_to (frame_of f) s)
  | Append f => Some (add_to (frame_of f) s)
  | Remove id => option_map (fun n => take_at n s) (victim_pos e (seen s))
  | RemoveNth id i =>
      Some match victim_pos e (seen s) with
           | Some n => take_at n s
           | None => match behind s with
                     | Some (f :: hidden) => if i =? 0 then mkShelf (seen s ++ f :: hidden) None else s
                     | _ => s
                     end
           end
  end.

(** A sequence of edits: what is held at the end, and the sum of the changes
    of the recorded size. *)
Fixpoint edit_shelves (es : list edit) (s : shelf) : option (shelf * Z) :=
  match es with
  | [] => Some (s, 0)
  | e :: es =>
      match edit_shelf e s with
      | None => None
      | Some s' => option_map (fun r => (fst r, size_delta e (seen s) + snd r)) (edit_shelves es s')
      end
  end.

(** The frame an edit takes out of the tag, and the frame it puts into it. *)
Definition taken_out (e : edit) (l : list frame) : list frame :=
  match match e with Put f => find (named (frame_id f)) l | _ => victim e l end with
  | Some f => [f]
  | None => []
  end.
Definition put_in (e : edit) : list frame :=
  match e with Put f | Append f => [frame_of f] | Remove _ | RemoveNth _ _ => [] end.
