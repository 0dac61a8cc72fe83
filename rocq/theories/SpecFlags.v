(** Flags of the tag header and footers ("ID3 tag version 2.4.0 - Main
    Structure", sections 3.1 and 3.4).  Uses no function of the model of the
    code. *)
From Verif Require Import File Spec SpecFile SpecRead.

(** The file with other flags in its header, the sixth byte. *)
Definition with_flags (flags : byte) (content : list byte) : list byte :=
  match content with
  | a :: b :: c :: major :: minor :: _ :: rest => a :: b :: c :: major :: minor :: flags :: rest
  | _ => content
  end.
Definition flags_of (content : list byte) : byte := nth 5 content x00.

Definition reflagged (flags : byte) (r : option (TagHeader * list frame * Z)) : option (TagHeader * list frame * Z) :=
  match r with
  | Some (h, gs, pad) => Some (mkTH (th_identifier h) (th_major h) (th_minor h) flags (th_tag_size h) (th_ext_size h), gs, pad)
  | None => None
  end.

(** A footer: "3DI" and a copy of the rest of the header. *)
Definition footer (minor flags : byte) (n : Z) : list byte := lit "3DI" ++ [x04; minor; flags] ++ synchsafe32 n.
