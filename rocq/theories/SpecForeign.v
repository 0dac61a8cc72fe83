(** Specification of the version 1 interface for the files of other programs,
    whose last frame may be cut off.  Uses no function of the model of the
    code. *)
From Verif Require Import Compat Calls Spec SpecEdit SpecRewrite SpecCompat.

(** The struct that shows the frame [g] at address [a]; what was never read of
    the frame is indeterminate in it.  For a whole frame this is [compat_of]
    (C61_whole). *)
Definition compat_any (a : nat) (g : frame) : cframe :=
  mkCFrame (fh_id (f_hdr g)) (fh_size (f_hdr g)) (firstn 1 (fh_flags (f_hdr g)) ++ [None]) (body_cells g) a.

Definition mirrored_any (c : ctag) (ps : list fptr) : Prop :=
  t_frames (ct_tag c) = list_of ps
  /\ ct_frames c = clist_of (map (fun p => compat_any (fp_addr p) (fp_frame p)) ps)
  /\ NoDup (map fp_addr ps) /\ Forall (fun a => (a < t_fresh (ct_tag c))%nat) (map fp_addr ps).
Definition mirrors_any (c : ctag) (gs : list frame) : Prop :=
  exists ps, mirrored_any c ps /\ map fp_frame ps = gs.

(** The frames after setting these, if each setter finds a frame to replace. *)
Fixpoint put_over (fs : list fspec) (gs : list frame) : option (list frame) :=
  match fs with
  | [] => Some gs
  | f :: fs => if existsb (named (frame_id f)) gs
               then put_over fs (put (named (frame_id f)) (frame_of f) gs) else None
  end.
