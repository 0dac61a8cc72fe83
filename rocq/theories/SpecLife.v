(** Specification of the life of a tagged file: sessions and deletions of the
    tag in any order, to the end or to the first that fails.  Uses no function
    of the model of the code, except that [run_life] calls the API. *)
From Verif Require Import File Calls Spec SpecEdit SpecFile SpecSession SpecHole SpecTotal.

(** A step as a program makes it, and what it asks for. *)
Inductive step := Visit (cs : list call) | Erase.
Inductive wish := Edit (es : list edit) | Strip.

Definition asks (s : step) (w : wish) : Prop :=
  match s, w with
  | Visit cs, Edit es => Forall2 means cs es
  | Erase, Strip => True
  | _, _ => False
  end.

Fixpoint run_life (steps : list step) (f : file) : outcome file :=
  match steps with
  | [] => Ok f
  | Visit cs :: steps => let* f := run_session cs f in run_life steps f
  | Erase :: steps => let* f := ID3v2_delete_tag f in run_life steps f
  end.

(** The frames of the tag and its recorded size, [None] without tag. *)
Inductive fate := Lives (tag : option (list frame * Z)) | Quits | Breaks.

Fixpoint life (ws : list wish) (tag : option (list frame * Z)) : fate :=
  match ws, tag with
  | [], _ => Lives tag
  | Strip :: ws, _ => life ws None
  | Edit _ :: ws, None => life ws None
  | Edit es :: ws, Some (fs, n) =>
      match edit_shelves es (whole fs) with
      | None => Breaks
      | Some (s, d) =>
          let n := (n + d) mod 2 ^ 32 in
          if (bytes_needed (seen s) <=? n) && (n + 10 <? 2 ^ 31)
          then match seen s, has_hole s with
               | _ :: _, true => Quits
               | fs, _ => life ws (Some (fs, n))
               end
          else Breaks
      end
  end.

(** Frames that are put into the tag are kept when it is read again. *)
Definition edit_keeps (major : byte) (e : edit) : bool :=
  match e with
  | Put f | Append f => survives major f
  | Remove _ | RemoveNth _ _ => true
  end.

Definition wish_keeps (major : byte) (w : wish) : bool :=
  match w with Edit es => forallb (edit_keeps major) es | Strip => true end.

(** The bytes of all frames that are put in. *)
Definition edit_growth (e : edit) : Z :=
  match e with Put f | Append f => 10 + body_size f | Remove _ | RemoveNth _ _ => 0 end.

Definition edits_growth (es : list edit) : Z := fold_right (fun e n => edit_growth e + n) 0 es.

Definition growth (ws : list wish) : Z :=
  fold_right (fun w n => match w with Edit es => edits_growth es | Strip => 0 end + n) 0 ws.
