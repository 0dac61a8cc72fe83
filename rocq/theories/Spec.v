(** Independent specification: what strings, frames and tags are on disk and
    in the structs the API hands out.  Written from the ID3v2.3/2.4 layout and
    the public headers; it uses the model's data types (the structs) and no
    function of the model of the code. *)
From Verif Require Import File.

(** ** Strings *)

(** A string as the user means it: ISO-8859-1 characters, or UTF-16 code units
    with a byte order mark.  A unit is kept as its two bytes in file order. *)
Inductive text :=
| Iso (chars : list byte)
| Utf16 (big_endian : bool) (units : list (byte * byte)).

Definition is_zero (b : byte) : bool := Byte.eqb b x00.

Definition starts_with_bom (l : list byte) : bool :=
  match l with
  | a :: b :: _ =>
      (Byte.eqb a xff && Byte.eqb b xfe) || (Byte.eqb a xfe && Byte.eqb b xff)
  | _ => false
  end.

(** No character is the terminator; ISO characters do not look like a BOM. *)
Definition text_ok (t : text) : bool :=
  match t with
  | Iso chars => forallb (fun c => negb (is_zero c)) chars && negb (starts_with_bom chars)
  | Utf16 _ units => forallb (fun u => negb (is_zero (fst u) && is_zero (snd u))) units
  end.

Definition bom_bytes (big_endian : bool) : list byte :=
  if big_endian then [xfe; xff] else [xff; xfe].

(** The bytes before the terminator, the terminator, and both. *)
Definition text_bytes (t : text) : list byte :=
  match t with
  | Iso chars => chars
  | Utf16 be units => bom_bytes be ++ flat_map (fun u => [fst u; snd u]) units
  end.
Definition text_end (t : text) : list byte :=
  match t with Iso _ => [x00] | Utf16 _ _ => [x00; x00] end.
Definition text_image (t : text) : list byte := text_bytes t ++ text_end t.

(** The encoding byte: 0 for ISO-8859-1, 1 for UTF-16 with BOM. *)
Definition text_encoding (t : text) : byte :=
  match t with Iso _ => x00 | Utf16 _ _ => x01 end.

(** [p] points to the bytes [l], followed by arbitrary memory. *)
Definition points_to (p : cptr) (l : list byte) : Prop :=
  exists tail, p = Some (cells l ++ tail).

(** ** Numbers on disk *)

(** Big-endian 32-bit number. *)
Definition be32 (n : Z) : list byte :=
  [zb (n / 2 ^ 24); zb (n / 2 ^ 16); zb (n / 2 ^ 8); zb n].

(** Synchsafe 28-bit number: 7 bits per byte. *)
Definition synchsafe32 (n : Z) : list byte :=
  [zb (n / 2 ^ 21 mod 128); zb (n / 2 ^ 14 mod 128); zb (n / 2 ^ 7 mod 128); zb (n mod 128)].

(** The number a big-endian byte string stands for. *)
Definition be_value (l : list byte) : Z := fold_left (fun acc b => acc * 256 + bv b) l 0.

(** The number four synchsafe bytes stand for.  The bytes are combined with
    "or": when every top bit is clear this is the sum (UtilsFacts.synchsafe_sum),
    a set top bit overlaps the lowest bit of the byte before. *)
Definition synchsafe_value (l : list byte) : Z :=
  match l with
  | [d; c; b; a] =>
      Z.lor (Z.lor (Z.lor (bv a) (bv b * 2 ^ 7)) (bv c * 2 ^ 14)) (bv d * 2 ^ 21)
  | _ => 0
  end.

(** Bytes without terminator: no zero byte, or (after a byte order mark) no
    zero code unit. *)
Definition unterminated (l : list byte) : Prop :=
  (forallb (fun c => negb (is_zero c)) l = true /\ starts_with_bom l = false)
  \/ exists be us odd, l = text_bytes (Utf16 be us) ++ odd
       /\ forallb (fun u => negb (is_zero (fst u) && is_zero (snd u))) us = true /\ (length odd < 2)%nat.

(** ** Frames *)

(** The size a frame header declares, by tag version. *)
Definition declared_size (ver : Z) (sz : list byte) : Z :=
  if ver =? 4 then synchsafe_value sz else to_i32 (be_value sz).

Inductive fspec :=
| FText (id flags : list byte) (t : text)
| FComment (flags lang : list byte) (desc comment : text)
| FPicture (flags : list byte) (mime : text) (ptype : byte) (desc : text) (pic : list byte)
| FOther (id flags body : list byte).

Definition frame_id (f : fspec) : list byte :=
  match f with
  | FText id _ _ => id
  | FComment _ _ _ _ => lit "COMM"
  | FPicture _ _ _ _ _ => lit "APIC"
  | FOther id _ _ => id
  end.

Definition frame_flags (f : fspec) : list byte :=
  match f with
  | FText _ fl _ => fl
  | FComment fl _ _ _ => fl
  | FPicture fl _ _ _ _ => fl
  | FOther _ fl _ => fl
  end.

(** The body, given the encoding byte that stands at its start. *)
Definition body_with (enc : byte) (f : fspec) : list byte :=
  match f with
  | FText _ _ t => [enc] ++ text_image t
  | FComment _ lang d c => [enc] ++ lang ++ text_image d ++ text_image c
  | FPicture _ m ty d pic => [enc] ++ text_image m ++ [ty] ++ text_image d ++ pic
  | FOther _ _ body => body
  end.

(** The encoding byte the library writes: that of the text, of the comment
    (not its description), of the picture description. *)
Definition frame_encoding (f : fspec) : byte :=
  match f with
  | FText _ _ t => text_encoding t
  | FComment _ _ _ c => text_encoding c
  | FPicture _ _ _ d _ => text_encoding d
  | FOther _ _ _ => x00
  end.

Definition frame_body (f : fspec) : list byte := body_with (frame_encoding f) f.
Definition body_size (f : fspec) : Z := zlen (frame_body f).

(** Bytes of a frame on disk; [size_field] is [be32] in v2.3 tags and
    [synchsafe32] in v2.4 tags. *)
Definition frame_image (size_field : Z -> list byte) (f : fspec) : list byte :=
  frame_id f ++ size_field (body_size f) ++ frame_flags f ++ frame_body f.

(** First letter of a frame id. *)
Definition id_starts (id : list byte) (c : byte) : bool :=
  match id with x :: _ => Byte.eqb x c | [] => false end.

Definition len_is {A} (l : list A) (n : nat) : bool := Nat.eqb (length l) n.

(** A frame that the library can hold and write. *)
Definition frame_ok (f : fspec) : bool :=
  len_is (frame_id f) 4 && len_is (frame_flags f) 2 && (body_size f + 10 <? 2 ^ 31) &&
  match f with
  | FText id _ t => id_starts id "T" && text_ok t
  | FComment _ lang d c => len_is lang 3 && text_ok d && text_ok c
  | FPicture _ m _ d _ => text_ok m && text_ok d
  | FOther id _ _ =>
      negb (id_starts id "T") && negb (id_starts id "C") && negb (id_starts id "A")
      && negb (forallb is_zero id)
  end.

(** A frame that the library can read back wherever it stands: the picture and
    the body of an unknown frame are not empty.  A frame with an empty picture
    is never read back, an empty unknown frame unless a tag without padding
    ends with it. *)
Definition readable (f : fspec) : bool :=
  match f with
  | FPicture _ _ _ _ pic => negb (len_is pic 0)
  | FOther _ _ body => negb (len_is body 0)
  | _ => true
  end.

(** The struct contents by which the API shows a frame. *)
Definition frame_of (f : fspec) : frame :=
  mkFrame
    (mkFH (cells (frame_id f)) (body_size f) (cells (frame_flags f)))
    (match f with
     | FText _ _ t => DText (mkTD (zlen (text_image t)) (text_encoding t) (cells (text_image t)))
     | FComment _ lang d c =>
         DComment (mkCD (zlen (text_image c)) (text_encoding c) (cells lang)
                        (cells (text_image d)) (cells (text_image c)))
     | FPicture _ m ty d pic =>
         DApic (mkAD (text_encoding d) (cells (text_image m)) ty (cells (text_image d))
                     (cells pic) (zlen pic))
     | FOther _ _ body => DRaw (cells body)
     end).

(** A struct that shows a well-formed frame. *)
Definition well_formed (g : frame) : Prop := exists f, frame_ok f = true /\ g = frame_of f.

(** ** Tags *)

(** The 10 bytes of a tag header. *)
Definition header_image (major minor flags : byte) (size : Z) : list byte :=
  lit "ID3" ++ [major; minor; flags] ++ synchsafe32 size.

Definition images (size_field : Z -> list byte) (fs : list fspec) : list byte :=
  flat_map (frame_image size_field) fs.

Definition zeros (n : Z) : list byte := repeat x00 (Z.to_nat n).

(** Bytes the frames take in a tag: 10 for each header, and the bodies. *)
Definition frames_size (fs : list fspec) : Z :=
  fold_right (fun f n => 10 + body_size f + n) 0 fs.

(** How frame sizes are stored in a tag of a given version. *)
Definition size_field_of (major : byte) : Z -> list byte :=
  if Byte.eqb major x04 then synchsafe32 else be32.

(** The three identifier bytes. *)
Definition is_id3 (a b c : byte) : bool := Byte.eqb a "I" && Byte.eqb b "D" && Byte.eqb c "3".

(** A version the library reads. *)
Definition known_version (major : byte) : bool := Byte.eqb major x03 || Byte.eqb major x04.

(** Bit 6 of the flags announces an extended header. *)
Definition has_extended_header (flags : byte) : bool := Z.testbit (bv flags) 6.

(** ** Tags in memory *)

(** The frame list as a program walks it: one node per frame, in order; the
    list of a tag without frames is one empty node. *)
Definition list_of (ps : list fptr) : flist :=
  match ps with
  | [] => [mkNode None false]
  | _ => map (fun p => mkNode (Some p) true) ps
  end.

(** The tag's list holds exactly the frames [fs], at distinct addresses, none
    of which the allocator will hand out again. *)
Definition tag_has (t : Tag) (fs : list frame) : Prop :=
  exists ps, t_frames t = list_of ps /\ map fp_frame ps = fs
    /\ NoDup (map fp_addr ps) /\ Forall (fun a => (a < t_fresh t)%nat) (map fp_addr ps).

(** ** Streams *)

(** A stream that has been read up to the point between [pre] and [rest]. *)
Definition at_pos (pre rest : mem) : CharStream :=
  mkCS (zlen pre) (zlen pre + zlen rest) (pre ++ rest).

(** Its size is an int. *)
Definition fits (pre rest : mem) : Prop := zlen pre + zlen rest < 2 ^ 31.

(** The result of parsing a frame as a caller sees it: the frame and how far
    the reader has moved. *)
Definition seen (r : outcome (option frame * CharStream)) : outcome (option frame * Z) :=
  let* (f, cs) := r in Ok (f, cs_cursor cs).
