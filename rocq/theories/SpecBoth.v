(** Specification of files that are edited through both interfaces in turn.
    Uses no function of the model of the code, except that [run_old] and
    [run_both] call the API. *)
From Verif Require Import File Calls Spec SpecEdit SpecFile Compat SpecCompat SpecSession SpecHole SpecTotal SpecLife.

(** A session with the version 1 interface, as a client writes it: load the
    tag, set frames, save the tag, free it. *)
Definition run_old (ccs : list ccall) (f : file) : outcome file :=
  let* c := load_tag f in
  let* c := run_ccalls ccs c in
  let* (f, c) := set_tag f (Some c) in
  let* _ := free_tag (Some c) in
  Ok f.

(** A step with either interface, and what it asks for: frames to be set. *)
Inductive any_step := New (s : step) | Old (ccs : list ccall) | OldErase.
Inductive any_wish := NewWish (w : wish) | OldWish (gs : list fspec) | OldStrip.

Definition any_asks (s : any_step) (w : any_wish) : Prop :=
  match s, w with
  | New s, NewWish w => asks s w
  | Old ccs, OldWish gs => Forall2 cmeans ccs gs
  | OldErase, OldStrip => True
  | _, _ => False
  end.

Fixpoint run_both (steps : list any_step) (f : file) : outcome file :=
  match steps with
  | [] => Ok f
  | New s :: steps => let* f := run_life [s] f in run_both steps f
  | Old ccs :: steps => let* f := run_old ccs f in run_both steps f
  | OldErase :: steps => let* f := remove_tag f in run_both steps f
  end.

(** The old interface is the new one for frames that are there, and undefined
    for others, for tags without frames and for files without a tag. *)
Definition all_there (gs : list fspec) (fs : list frame) : bool :=
  forallb (fun g => existsb (named (frame_id g)) fs) gs.

Definition one_fate (w : any_wish) (tag : option (list frame * Z)) : fate :=
  match w with
  | NewWish w => life [w] tag
  | OldStrip => life [Strip] tag
  | OldWish gs =>
      match tag with
      | Some ((_ :: _) as fs, _) => if all_there gs fs then life [Edit (map Put gs)] tag else Breaks
      | _ => Breaks
      end
  end.

Fixpoint both_fate (ws : list any_wish) (tag : option (list frame * Z)) : fate :=
  match ws with
  | [] => Lives tag
  | w :: ws => match one_fate w tag with Lives tag => both_fate ws tag | other => other end
  end.

Definition as_wish (w : any_wish) : wish :=
  match w with NewWish w => w | OldWish gs => Edit (map Put gs) | OldStrip => Strip end.
