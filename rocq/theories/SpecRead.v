(** Specification of reading: for every buffer, which frames and which tag a
    reader sees in it, as grammar rules on the bytes.  A buffer holds bytes,
    and then possibly some that are not known: when a file ends before its tag
    does, the rest of the buffer is memory that nothing was written to. *)
From Verif Require Import File Spec SpecFile.

(** What is ahead of a reader. *)
Definition ahead (l : list byte) (unknown : nat) : mem := cells l ++ repeat None unknown.

Definition points_to_part (p : cptr) (l : list byte) (unknown : nat) : Prop :=
  exists tail, p = Some (ahead l unknown ++ tail).

(** A size announces [gap] bytes more than are known: possible only if no known
    ones follow. *)
Definition cut_off (gap : nat) (rest : list byte) : Prop := gap = O \/ rest = [].

(** [frame_read ver used gap rest r]: with the bytes [used ++ rest] ahead, a
    reader of a tag of version [ver] takes the bytes [used], and [gap] more that
    are not known or beyond the end, and sees [r]: a frame, or the end of the
    frames. *)
Inductive frame_read (ver : Z) : list byte -> nat -> list byte -> option frame -> Prop :=
| ReadPadding rest :
    frame_read ver [] 0 ([x00; x00; x00; x00] ++ rest) None
| ReadText id size flags enc t junk gap rest :
    length id = 4%nat -> length size = 4%nat -> length flags = 2%nat ->
    id_starts id "T" = true -> text_ok t = true ->
    declared_size ver size = 1 + zlen (text_image t ++ junk) + Z.of_nat gap ->
    cut_off gap rest ->
    frame_read ver (id ++ size ++ flags ++ [enc] ++ text_image t ++ junk) gap rest
      (Some (frame_of (FText id flags t)))
| ReadComment id size flags enc lang d c rest :
    length id = 4%nat -> length size = 4%nat -> length flags = 2%nat -> length lang = 3%nat ->
    id_starts id "C" = true -> text_ok d = true -> text_ok c = true ->
    frame_read ver (id ++ size ++ flags ++ [enc] ++ lang ++ text_image d ++ text_image c) 0 rest
      (Some (frame_of (FComment flags lang d c)))
| ReadPicture id size flags enc m ty d pic gap rest :
    length id = 4%nat -> length size = 4%nat -> length flags = 2%nat ->
    id_starts id "A" = true -> text_ok m = true -> text_ok d = true ->
    let n := zlen pic + Z.of_nat gap in
    0 < n -> declared_size ver size = 2 + zlen (text_image m) + zlen (text_image d) + n ->
    cut_off gap rest ->
    frame_read ver (id ++ size ++ flags ++ [enc] ++ text_image m ++ [ty] ++ text_image d ++ pic) gap rest
      (Some (mkFrame (mkFH (cells (lit "APIC")) (declared_size ver size) (cells flags))
                     (DApic (mkAD (text_encoding d) (cells (text_image m)) ty (cells (text_image d))
                                  (cells pic ++ repeat None gap) n))))
| ReadOther id size flags body gap rest :
    length id = 4%nat -> length size = 4%nat -> length flags = 2%nat ->
    id_starts id "T" = false -> id_starts id "C" = false -> id_starts id "A" = false ->
    forallb is_zero id = false ->
    declared_size ver size = zlen body + Z.of_nat gap ->
    cut_off gap rest ->
    frame_read ver (id ++ size ++ flags ++ body) gap rest
      (Some (mkFrame (mkFH (cells id) (declared_size ver size) (cells flags))
                     (DRaw (cells body ++ repeat None gap))))
(** The header ends within its flags. *)
| ReadStub id size flags gap :
    length id = 4%nat -> length size = 4%nat -> (length flags < 2)%nat ->
    id_starts id "T" = false -> id_starts id "C" = false -> id_starts id "A" = false ->
    forallb is_zero id = false ->
    declared_size ver size = Z.of_nat gap ->
    frame_read ver (id ++ size ++ flags) ((2 - length flags) + gap) []
      (Some (mkFrame (mkFH (cells id) (declared_size ver size) (cells flags ++ repeat None (2 - length flags)))
                     (DRaw (repeat None gap)))).

(** [frames_read ver limit unknown pos l fs fin]: at offset [pos] of the
    buffer, with the bytes [l] and then [unknown] bytes ahead, the frames [fs]
    are seen and the reader ends at offset [fin].  It looks for a frame as long
    as the offset is below [limit]. *)
Inductive frames_read (ver limit : Z) : nat -> Z -> list byte -> list frame -> Z -> Prop :=
| ReadEnd unknown pos l : limit <= pos -> frames_read ver limit unknown pos l [] pos
| ReadStop unknown pos l : pos < limit -> frame_read ver [] 0 l None -> frames_read ver limit unknown pos l [] pos
| ReadFrame unknown pos used gap rest f fs fin :
    pos < limit -> frame_read ver used gap rest (Some f) ->
    frames_read ver limit (unknown - gap) (pos + zlen used + Z.of_nat (Nat.min gap unknown)) rest fs fin ->
    frames_read ver limit unknown pos (used ++ rest) (f :: fs) fin.

(** No string that starts with [l] is a tag. *)
Definition not_id3 (l : list byte) : Prop := forall t u, l ++ t <> lit "ID3" ++ u.

(** [tag_read l unknown r]: in the buffer of the bytes [l] and then [unknown]
    bytes there is no tag, or one with this header, these frames and this many
    bytes of padding. *)
Inductive tag_read (l : list byte) (unknown : nat) : option (TagHeader * list frame * Z) -> Prop :=
| ReadForeign : not_id3 l -> tag_read l unknown None
| ReadVersion tail :
    l = lit "ID3" ++ tail ->
    match tail with [] => True | major :: _ => known_version major = false end ->
    unknown = O \/ (2 <= length tail)%nat ->
    tag_read l unknown None
| ReadPlain major minor flags size body fs fin :
    l = lit "ID3" ++ [major; minor; flags] ++ size ++ body -> length size = 4%nat ->
    known_version major = true -> has_extended_header flags = false ->
    frames_read (bv major) (synchsafe_value size) unknown 10 body fs fin ->
    tag_read l unknown
      (Some (mkTH (lit "ID3") major minor flags (synchsafe_value size) 0, fs, zlen l + Z.of_nat unknown - fin))
| ReadExtended major minor flags size ext body fs fin :
    l = lit "ID3" ++ [major; minor; flags] ++ size ++ ext ++ body ->
    length size = 4%nat -> length ext = 4%nat ->
    known_version major = true -> has_extended_header flags = true ->
    let e := synchsafe_value ext in
    let start := if e =? 0 then 14 else e in
    frames_read (bv major) (synchsafe_value size) (unknown - (Z.to_nat start - length l)) start
      (skipn (Z.to_nat start) l) fs fin ->
    tag_read l unknown
      (Some (mkTH (lit "ID3") major minor flags (synchsafe_value size) e, fs, zlen l + Z.of_nat unknown - fin)).

(** The same of a file.  What is read is as many bytes as the header declares;
    the file may end before. *)
Definition file_read (content : list byte) (r : option (TagHeader * list frame * Z)) : Prop :=
  announces_extended content = false
  /\ match tag_length content with
     | None => r = None
     | Some n => tag_read (firstn (Z.to_nat n) content) (Z.to_nat n - length content) r
     end.

(** What the library returns for it. *)
Definition shows_read (r : option (TagHeader * list frame * Z)) (t : option Tag) : Prop :=
  match r, t with
  | None, None => True
  | Some (h, fs, pad), Some t => t_header t = h /\ tag_has t fs /\ t_padding t = pad
  | _, _ => False
  end.
