(** Specification of tagged files: where the tag at the start of a file ends.
    Uses no function of the model of the code. *)
From Verif Require Import File Calls Spec SpecEdit.

(** Number of bytes that the tag at the start of a file takes, by its header,
    when there is a header of a known version. *)
Definition tag_length (content : list byte) : option Z :=
  match content with
  | a :: b :: c :: major :: _ :: _ :: s3 :: s2 :: s1 :: s0 :: _ =>
      if is_id3 a b c && known_version major then Some (10 + synchsafe_value [s3; s2; s1; s0]) else None
  | _ => None
  end.

(** A tag is recognised and it announces an extended header.  Every file
    operation on such a file is undefined (C06_extended_file). *)
Definition announces_extended (content : list byte) : bool :=
  match content with
  | a :: b :: c :: major :: _ :: flags :: _ :: _ :: _ :: _ :: _ =>
      is_id3 a b c && known_version major && has_extended_header flags
  | _ => false
  end.

(** What follows the tag: all of a file without tag, nothing of a file that
    ends before its tag does. *)
Definition audio (content : list byte) : list byte :=
  match tag_length content with
  | Some n => skipn (Z.to_nat n) content
  | None => content
  end.

(** The bytes of a v2.3 or v2.4 tag as the library lays them out: recorded
    size [n], the frames, zeros up to the recorded size. *)
Definition tag_bytes (major minor flags : byte) (n : Z) (fs : list fspec) : list byte :=
  header_image major minor flags n ++ images be32 fs ++ zeros (n - frames_size fs).

(** The contents of a file, from the original to the final one: the original,
    then every prefix of the final contents, shortest first. *)
Definition rewritten (original final : list byte) : list file :=
  Some original :: map (fun k => Some (firstn k final)) (seq 0 (S (length final))).

(** Frames that a tag of the given version keeps when it is written and read
    again (C29, C30). *)
Definition survives (major : byte) (f : fspec) : bool :=
  frame_ok f && readable f
  && (Byte.eqb major x03 || Byte.eqb major x04 && ((body_size f <? 256) || is_comment f)).

(** The beginning of padding as the reader recognises it. *)
Definition starts_padding (l : list byte) : bool :=
  match l with
  | a :: b :: c :: d :: _ => is_zero a && is_zero b && is_zero c && is_zero d
  | _ => false
  end.

(** The tag with the padding request that writing leaves behind. *)
Definition padded (t : Tag) : Tag :=
  mkTag (t_header t) (t_frames t)
        (if t_padding t <? 0 then t_padding t + 2048 else Z.max (t_padding t) 2048) (t_fresh t).

(** The tag with another padding request. *)
Definition with_padding (t : Tag) (p : Z) : Tag := mkTag (t_header t) (t_frames t) p (t_fresh t).

(** The buffer of a tag with an extended header: tag header with size field
    [s4], size field [e4] of the extended header, everything else. *)
Definition ext_buffer (maj mi fl : byte) (s4 e4 rest : list byte) : list byte :=
  lit "ID3" ++ [maj; mi; fl] ++ s4 ++ e4 ++ rest.
