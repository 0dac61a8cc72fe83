(** A reader of tags written from the documents "ID3 tag version 2.3.0" and
    "ID3 tag version 2.4.0 - Main Structure / Native Frames", of which the
    sections are named.  It uses no function of the model of the code.  Tags
    with unsynchronisation, an extended header or a footer are not covered
    ([standard_read] is [None]); the bodies of frames other than text,
    comments and pictures, and of compressed, encrypted or grouped frames, are
    left as they are. *)
From Verif Require Import File Spec SpecFile SpecEdit.

(** ** Strings *)

(** A text, as the list of its UTF-16 code units. *)
Definition wtext := list Z.

(** 2.3.0 section 3.3, 2.4.0 section 4: the encoding byte. *)
Inductive coding := Latin1 | Utf16Bom | Utf16Be | Utf8.
Definition coding_of (major enc : byte) : option coding :=
  if Byte.eqb enc x00 then Some Latin1
  else if Byte.eqb enc x01 then Some Utf16Bom
  else if Byte.eqb major x04 then
    if Byte.eqb enc x02 then Some Utf16Be else if Byte.eqb enc x03 then Some Utf8 else None
  else None.

(** The bytes before the terminator; what follows it, if there is one. *)
Fixpoint before_zero (l : list byte) : list byte * option (list byte) :=
  match l with
  | [] => ([], None)
  | b :: l => if is_zero b then ([], Some l) else let (s, r) := before_zero l in (b :: s, r)
  end.
Fixpoint before_zero_unit (l : list byte) : list (byte * byte) * option (list byte) :=
  match l with
  | a :: b :: l =>
      if is_zero a && is_zero b then ([], Some l) else let (s, r) := before_zero_unit l in ((a, b) :: s, r)
  | _ => ([], None)
  end.

Definition unit_of (big_endian : bool) (u : byte * byte) : Z :=
  if big_endian then bv (fst u) * 256 + bv (snd u) else bv (snd u) * 256 + bv (fst u).

(** UTF-8 (RFC 3629). *)
Definition follows (b : byte) : bool := (128 <=? bv b) && (bv b <? 192).
Definition low (b : byte) : Z := bv b mod 64.
Definition units_of (point : Z) : wtext :=
  if point <? 65536 then [point] else [55296 + (point - 65536) / 1024; 56320 + (point - 65536) mod 1024].
Definition put_before (point : Z) (u : option wtext) : option wtext := option_map (fun u => units_of point ++ u) u.
Fixpoint utf8 (l : list byte) : option wtext :=
  match l with
  | [] => Some []
  | a :: l =>
      if bv a <? 128 then put_before (bv a) (utf8 l)
      else
        match l with
        | b :: l =>
            if negb (follows b) then None
            else if (194 <=? bv a) && (bv a <? 224) then put_before (bv a mod 32 * 64 + low b) (utf8 l)
            else
              match l with
              | c :: l =>
                  if negb (follows c) then None
                  else if (224 <=? bv a) && (bv a <? 240) then
                    let p := bv a mod 16 * 4096 + low b * 64 + low c in
                    if (p <? 2048) || (55296 <=? p) && (p <? 57344) then None else put_before p (utf8 l)
                  else
                    match l with
                    | d :: l =>
                        let p := bv a mod 8 * 262144 + low b * 4096 + low c * 64 + low d in
                        if follows d && (240 <=? bv a) && (bv a <? 248) && (65536 <=? p) && (p <? 1114112)
                        then put_before p (utf8 l) else None
                    | [] => None
                    end
              | [] => None
              end
        | [] => None
        end
  end.

(** The text at the start of [l], and what follows its terminator. *)
Definition read_text (c : coding) (l : list byte) : option (wtext * option (list byte)) :=
  match c with
  | Latin1 => let (s, r) := before_zero l in Some (map bv s, r)
  | Utf8 => let (s, r) := before_zero l in option_map (fun u => (u, r)) (utf8 s)
  | Utf16Be => let (s, r) := before_zero_unit l in Some (map (unit_of true) s, r)
  | Utf16Bom =>
      match l with
      | [] => Some ([], None)
      | a :: b :: l =>
          let be := Byte.eqb a xfe && Byte.eqb b xff in
          if be || Byte.eqb a xff && Byte.eqb b xfe
          then let (s, r) := before_zero_unit l in Some (map (unit_of be) s, r) else None
      | _ => None
      end
  end.

(** 2.3.0 section 4.2: what follows the first terminator is ignored.  2.4.0
    section 4.2: there may be several texts. *)
Fixpoint read_texts (fuel : nat) (c : coding) (l : list byte) : option (list wtext) :=
  match fuel with
  | O => None
  | S fuel =>
      match read_text c l with
      | None => None
      | Some (t, None) | Some (t, Some []) => Some [t]
      | Some (t, Some r) => option_map (cons t) (read_texts fuel c r)
      end
  end.
Definition read_values (major : byte) (c : coding) (l : list byte) : option (list wtext) :=
  if Byte.eqb major x04 then read_texts (S (length l)) c l
  else option_map (fun x => [fst x]) (read_text c l).

(** ** Frames *)

Inductive item :=
| IText (id : list byte) (values : list wtext)                            (* 4.2 *)
| IUser (name value : wtext)                                              (* 4.2.2 TXXX *)
| IComment (lang : list byte) (about t : wtext)                           (* 4.11, in 2.4.0 4.10 *)
| IPicture (mime : wtext) (kind : byte) (about : wtext) (data : list byte)  (* 4.15, in 2.4.0 4.14 *)
| IOther (id flags body : list byte).

(** The second byte of the flags tells that the body is compressed, encrypted or
    grouped (2.3.0 section 3.3.1, 2.4.0 section 4.1.2). *)
Definition plain_flags (flags : list byte) : bool := is_zero (nth 1 flags x00).

Definition item_of (major : byte) (id flags body : list byte) : option item :=
  if negb (plain_flags flags) then Some (IOther id flags body)
  else
    match body with
    | enc :: l =>
        if bytes_eqb id (lit "TXXX") then
          match coding_of major enc with
          | Some c =>
              match read_text c l with
              | Some (name, Some r) => option_map (fun x => IUser name (fst x)) (read_text c r)
              | _ => None
              end
          | None => None
          end
        else if id_starts id "T" then
          match coding_of major enc with
          | Some c => option_map (IText id) (read_values major c l)
          | None => None
          end
        else if bytes_eqb id (lit "COMM") then
          match coding_of major enc with
          | Some c =>
              match read_text c (skipn 3 l) with
              | Some (about, Some r) => option_map (fun x => IComment (firstn 3 l) about (fst x)) (read_text c r)
              | _ => None
              end
          | None => None
          end
        else if bytes_eqb id (lit "APIC") then
          match coding_of major enc, before_zero l with
          | Some c, (mime, Some (kind :: r)) =>
              match read_text c r with
              | Some (about, Some data) => Some (IPicture (map bv mime) kind about data)
              | _ => None
              end
          | _, _ => None
          end
        else Some (IOther id flags body)
    | [] => None
    end.

(** ** Tags *)

(** 2.3.0 section 3.3: "made out of the characters capital A-Z and 0-9". *)
Definition id_char (b : byte) : bool := (65 <=? bv b) && (bv b <=? 90) || (48 <=? bv b) && (bv b <=? 57).

(** 2.3.0 section 3.3, 2.4.0 sections 4 and 6.2. *)
Definition below_128 (s : list byte) : bool := forallb (fun b => bv b <? 128) s.
Definition size_of_frame (major : byte) (s : list byte) : option Z :=
  if Byte.eqb major x04 then (if below_128 s then Some (synchsafe_value s) else None) else Some (be_value s).

(** Frames, then padding of zeros (2.3.0 sections 3.1 and 3.3, 2.4.0 section 3.3). *)
Fixpoint read_items (fuel : nat) (major : byte) (l : list byte) : option (list item) :=
  match fuel with
  | O => None
  | S fuel =>
      if forallb is_zero l then Some []
      else
        match l with
        | i1 :: i2 :: i3 :: i4 :: s1 :: s2 :: s3 :: s4 :: f1 :: f2 :: l =>
            match size_of_frame major [s1; s2; s3; s4] with
            | Some n =>
                if forallb id_char [i1; i2; i3; i4] && (1 <=? n) && (n <=? zlen l) then
                  match item_of major [i1; i2; i3; i4] [f1; f2] (firstn (Z.to_nat n) l) with
                  | Some x => option_map (cons x) (read_items fuel major (skipn (Z.to_nat n) l))
                  | None => None
                  end
                else None
            | None => None
            end
        | _ => None
        end
  end.

(** Neither unsynchronisation, extended header nor footer (3.1). *)
Definition simple_flags (flags : byte) : bool :=
  negb (Z.testbit (bv flags) 7) && negb (Z.testbit (bv flags) 6) && negb (Z.testbit (bv flags) 4).

Definition standard_read (file : list byte) : option (list item) :=
  match file with
  | a :: b :: c :: major :: _ :: flags :: s1 :: s2 :: s3 :: s4 :: l =>
      let n := synchsafe_value [s1; s2; s3; s4] in
      if is_id3 a b c && known_version major && simple_flags flags && below_128 [s1; s2; s3; s4] && (n <=? zlen l)
      then read_items (S (Z.to_nat n)) major (firstn (Z.to_nat n) l) else None
  | _ => None
  end.

(** ** What the frames of the library are meant to say *)

Definition wtext_of (t : text) : wtext :=
  match t with
  | Iso chars => map bv chars
  | Utf16 be units => map (unit_of be) units
  end.

Definition meant (f : fspec) : item :=
  match f with
  | FText id _ t => IText id [wtext_of t]
  | FComment _ lang d c => IComment lang (wtext_of d) (wtext_of c)
  | FPicture _ m ty d pic => IPicture (wtext_of m) ty (wtext_of d) pic
  | FOther id flags body => IOther id flags body
  end.

Definition is_iso (t : text) : bool := match t with Iso _ => true | Utf16 _ _ => false end.

(** The name of the frame is one by the standard, and its body is not empty. *)
Definition named_well (f : fspec) : bool := forallb id_char (frame_id f) && (1 <=? body_size f).

(** The frame as the library holds it can be said by the standard: the two
    strings of a comment share one encoding, a MIME type is ISO-8859-1, a text
    frame other than TXXX has one text. *)
Definition sayable (f : fspec) : bool :=
  frame_ok f && named_well f &&
  match f with
  | FText id flags _ => plain_flags flags && negb (bytes_eqb id (lit "TXXX"))
  | FComment flags _ d c => plain_flags flags && Bool.eqb (is_iso d) (is_iso c)
  | FPicture flags m _ _ _ => plain_flags flags && is_iso m
  | FOther _ _ _ => true
  end.

(** ** Files of other programs *)

(** A frame with any encoding byte, and anything behind the first terminator of
    a text. *)
Record sframe := mkSF { sf_enc : byte; sf_frame : fspec; sf_more : list byte }.
Definition sf_body (s : sframe) : list byte := body_with (sf_enc s) (sf_frame s) ++ sf_more s.
Definition sf_image (size_field : Z -> list byte) (s : sframe) : list byte :=
  frame_id (sf_frame s) ++ size_field (zlen (sf_body s)) ++ frame_flags (sf_frame s) ++ sf_body s.
Definition sf_size (ss : list sframe) : Z := fold_right (fun s n => 10 + zlen (sf_body s) + n) 0 ss.

(** A file by the standard: sizes as the version wants them. *)
Definition standard_file (major minor flags : byte) (ss : list sframe) (pad : Z) (sound : list byte) : list byte :=
  header_image major minor flags (sf_size ss + pad) ++ flat_map (sf_image (size_field_of major)) ss ++ zeros pad ++ sound.

(** The frame id of an item. *)
Definition item_id (x : item) : list byte :=
  match x with
  | IText id _ | IOther id _ _ => id
  | IUser _ _ => lit "TXXX"
  | IComment _ _ _ => lit "COMM"
  | IPicture _ _ _ _ => lit "APIC"
  end.

(** The library reads the frame as it is, from first to last byte. *)
Definition accepted (s : sframe) : bool :=
  frame_ok (sf_frame s) && readable (sf_frame s) && forallb id_char (frame_id (sf_frame s))
  && match sf_frame s with FText _ _ _ => true | _ => len_is (sf_more s) 0 end.

(** What the standard makes of each frame, if it makes something of all. *)
Fixpoint items_seen (major : byte) (ss : list sframe) : option (list item) :=
  match ss with
  | [] => Some []
  | s :: ss =>
      match item_of major (frame_id (sf_frame s)) (frame_flags (sf_frame s)) (sf_body s), items_seen major ss with
      | Some x, Some xs => Some (x :: xs)
      | _, _ => None
      end
  end.

(** The frame as the library writes it: labelled by what the text looks like,
    without what followed the text. *)
Definition relabelled (s : sframe) : sframe := mkSF (frame_encoding (sf_frame s)) (sf_frame s) [].

(** A frame of the library as one of another program. *)
Definition own (f : fspec) : sframe := mkSF (frame_encoding f) f [].

(** The size of the frame is stored the same way in both versions, or the
    version is the one the library stores it for. *)
Definition stored_well (major : byte) (f : fspec) : bool := Byte.eqb major x03 || Byte.eqb major x04 && (body_size f <? 128).
