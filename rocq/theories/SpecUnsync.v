(** The unsynchronisation scheme of the documents "ID3 tag version 2.3.0"
    (section 5) and "ID3 tag version 2.4.0 - Main Structure" (section 6.1), by
    which a tag holds no byte FF that is followed by three set bits; and what a
    reader that knows nothing of it makes of such tags.  Uses no function of
    the model of the code. *)
From Verif Require Import File Spec SpecFile.

(** "Whenever a false synchronisation is found within the tag, one zeroed byte
    is inserted after the first false synchronisation byte."  FF 00 becomes
    FF 00 00, and a zero is put behind an FF at the end. *)
Fixpoint unsynced (l : list byte) : list byte :=
  match l with
  | [] => []
  | b :: l =>
      if Byte.eqb b xff then
        match l with
        | c :: _ => if (224 <=? bv c) || is_zero c then xff :: x00 :: unsynced l else xff :: unsynced l
        | [] => [xff; x00]
        end
      else b :: unsynced l
  end.

(** What undoes it: a zero behind an FF is left out. *)
Fixpoint resynced (l : list byte) : list byte :=
  match l with
  | [] => []
  | b :: l =>
      b :: match l with
           | c :: m => if Byte.eqb b xff && is_zero c then resynced m else resynced l
           | [] => []
           end
  end.

Definition no_ff (l : list byte) : bool := forallb (fun b => negb (Byte.eqb b xff)) l.

(** ** Version 2.3: the tag is unsynchronised as a whole, so frames hold the
    sizes they had before. *)
Definition unsynced_file (minor flags : byte) (body sound : list byte) : list byte :=
  header_image x03 minor flags (zlen (unsynced body)) ++ unsynced body ++ sound.

(** ** Version 2.4: every frame is unsynchronised on its own, and its size is
    that of what is stored (2.4.0 section 4.1.2). *)
Definition unsynced_image (f : fspec) : list byte :=
  let body := unsynced (frame_body f) in
  frame_id f ++ synchsafe32 (zlen body) ++ frame_flags f ++ body.
Definition unsynced_tag (minor flags : byte) (fs : list fspec) (pad : Z) (sound : list byte) : list byte :=
  let l := flat_map unsynced_image fs in
  header_image x04 minor flags (zlen l + pad) ++ l ++ zeros pad ++ sound.

(** What is taken for a text: FF FE and units become FF 00 FE and units, the
    character FF and its terminator; FE FF 00 becomes FE FF 00 00, no units. *)
Definition mistaken_text (t : text) : text :=
  match t with
  | Iso s => Iso s
  | Utf16 false _ => Iso [xff]
  | Utf16 true ((high, low) :: units) => Utf16 true (if is_zero high then [] else (high, low) :: units)
  | Utf16 true [] => Utf16 true []
  end.

(** The frame that is taken for [f]. *)
Definition mistaken (f : fspec) : fspec :=
  match f with
  | FText id flags t => FText id flags (mistaken_text t)
  | FComment flags lang d c => FComment flags lang d c
  | FPicture flags m ty d pic => FPicture flags m ty d (unsynced pic)
  | FOther id flags body => FOther id flags (unsynced body)
  end.

(** FF stands only where it usually does: at the start of a UTF-16 text, in
    the data of pictures and of frames that are neither texts nor comments. *)
Definition flat_units (units : list (byte * byte)) : list byte := flat_map (fun u => [fst u; snd u]) units.
Definition usual (f : fspec) : bool :=
  match f with
  | FText _ _ (Iso s) => no_ff s
  | FText _ _ (Utf16 be units) =>
      no_ff (flat_units units)
      && match units with (high, _) :: _ => negb be || (bv high <? 224) | [] => true end
  | FComment _ lang (Iso d) (Iso c) => no_ff lang && no_ff d && no_ff c
  | FPicture _ (Iso m) ty (Iso d) _ => no_ff m && negb (Byte.eqb ty xff) && no_ff d
  | FOther _ _ _ => true
  | _ => false
  end.
