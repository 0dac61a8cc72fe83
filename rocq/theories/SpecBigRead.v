(** What is seen of a tag that is bigger than its size field says: C97. *)
From Verif Require Import File Spec SpecFile.

(** A frame of which only the first [known] bytes of the picture, or of the body
    of an unknown frame, were read. *)
Definition cut_short (known : Z) (f : fspec) : frame :=
  let short l := cells (firstn (Z.to_nat known) l) ++ repeat None (Z.to_nat (zlen l - known)) in
  match f with
  | FPicture flags m ty d pic =>
      mkFrame (mkFH (cells (lit "APIC")) (body_size f) (cells flags))
        (DApic (mkAD (text_encoding d) (cells (text_image m)) ty (cells (text_image d)) (short pic) (zlen pic)))
  | FOther id flags body => mkFrame (mkFH (cells id) (body_size f) (cells flags)) (DRaw (short body))
  | _ => frame_of f
  end.

(** The bytes before it and its length; no other kind of frame has such a part. *)
Definition part_before (f : fspec) : Z :=
  match f with FPicture _ m _ d _ => 12 + zlen (text_image m) + zlen (text_image d) | _ => 10 end.
Definition part_length (f : fspec) : Z :=
  match f with FPicture _ _ _ _ pic => zlen pic | FOther _ _ body => zlen body | _ => 0 end.

(** After [n] bytes, the frame is within its texts. *)
Definition in_text (f : fspec) (n : Z) : Prop :=
  match f with FPicture _ _ _ _ _ => n < part_before f | FOther _ _ _ => False | _ => n < 10 + body_size f end.
