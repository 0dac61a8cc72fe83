(** Specification for other machines: how much of the stack the arrays need
    while a file is read, as grammar rules beside those of SpecRead.v, and what
    the bytes of a tag are when every number is stored the wrong way round. *)
From Verif Require Import File Spec SpecFile SpecRead Platform.

(** ** Stack *)

(** The stack of [P] holds arrays of [n] bytes. *)
Definition holds (P : platform) (n : Z) : bool :=
  match p_stack P with Some limit => n <=? Z.of_N limit | None => true end.

(** What one frame needs, from the bytes that are read for it: without the ten
    bytes of header and without the encoding, the language and the picture type.
    A frame of unknown kind needs nothing. *)
Definition stack_need (used : list byte) (gap : nat) : Z :=
  if id_starts used "T" then zlen used + Z.of_nat gap - 11
  else if id_starts used "C" then zlen used - 14
  else if id_starts used "A" then zlen used + Z.of_nat gap - 12
  else 0.

(** What the most demanding of the frames needs. *)
Inductive frames_need (ver limit : Z) : nat -> Z -> list byte -> Z -> Prop :=
| NeedEnd unknown pos l : limit <= pos -> frames_need ver limit unknown pos l 0
| NeedStop unknown pos l : pos < limit -> frame_read ver [] 0 l None -> frames_need ver limit unknown pos l 0
| NeedFrame unknown pos used gap rest f n :
    pos < limit -> frame_read ver used gap rest (Some f) ->
    frames_need ver limit (unknown - gap) (pos + zlen used + Z.of_nat (Nat.min gap unknown)) rest n ->
    frames_need ver limit unknown pos (used ++ rest) (Z.max (stack_need used gap) n).

Inductive tag_need (l : list byte) (unknown : nat) : Z -> Prop :=
| NeedNone : tag_read l unknown None -> tag_need l unknown 0
| NeedPlain major minor flags size body n :
    l = lit "ID3" ++ [major; minor; flags] ++ size ++ body -> length size = 4%nat ->
    known_version major = true -> has_extended_header flags = false ->
    frames_need (bv major) (synchsafe_value size) unknown 10 body n ->
    tag_need l unknown n
| NeedExtended major minor flags size ext body n :
    l = lit "ID3" ++ [major; minor; flags] ++ size ++ ext ++ body ->
    length size = 4%nat -> length ext = 4%nat ->
    known_version major = true -> has_extended_header flags = true ->
    let e := synchsafe_value ext in
    let start := if e =? 0 then 14 else e in
    frames_need (bv major) (synchsafe_value size) (unknown - (Z.to_nat start - length l)) start
      (skipn (Z.to_nat start) l) n ->
    tag_need l unknown n.

Definition file_need (content : list byte) (n : Z) : Prop :=
  match tag_length content with
  | None => n = 0
  | Some k => tag_need (firstn (Z.to_nat k) content) (Z.to_nat k - length content) n
  end.

(** ** Byte order *)

(** [tag_bytes] of SpecFile.v with the bytes of every number reversed. *)
Definition reversed_tag (major minor flags : byte) (n : Z) (fs : list fspec) : list byte :=
  lit "ID3" ++ [major; minor; flags] ++ rev (synchsafe32 n)
  ++ images (fun size => rev (be32 size)) fs ++ zeros (n - frames_size fs).

(** What a frame that the library has written needs when it is read. *)
Definition array_bytes (f : fspec) : Z :=
  match f with
  | FText _ _ t => zlen (text_image t)
  | FComment _ _ d c => zlen (text_image d) + zlen (text_image c)
  | FPicture _ m _ d pic => zlen (text_image m) + zlen (text_image d) + zlen pic
  | FOther _ _ _ => 0
  end.

Definition arrays_bytes (fs : list fspec) : Z := fold_right (fun f n => Z.max (array_bytes f) n) 0 fs.

(** A file of 23 bytes with one text frame that claims [m] bytes of text. *)
Definition claiming (m : Z) : list byte :=
  lit "ID3" ++ [x03; x00; x00] ++ synchsafe32 13
  ++ lit "TIT2" ++ be32 (1 + m) ++ [x00; x00] ++ [x00] ++ lit "A" ++ [x00].
