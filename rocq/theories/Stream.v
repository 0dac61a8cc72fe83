(** Model of src/modules/char_stream.c. *)
From Verif Require Export Utils.

(** char_stream.private.h:13-18.  The stream object always has
    [cs_size] cells. *)
Record CharStream := mkCS { cs_cursor : Z; cs_size : Z; cs_stream : mem }.

Definition with_cursor (cs : CharStream) (c : Z) : CharStream :=
  mkCS c (cs_size cs) (cs_stream cs).

(** char_stream.c:18-25 CharStream_new.  calloc of a negative size (converted
    to size_t) returns NULL; every caller then copies into it at once, which
    is undefined, so the model reports it here. *)
Definition CharStream_new (size : Z) : outcome CharStream :=
  if size <? 0 then Ub BadSize
  else Ok (mkCS 0 size (repeat (Some x00) (Z.to_nat size))).

(** char_stream.c:27-35 CharStream_from_buffer. *)
Definition CharStream_from_buffer (buffer : cptr) (size : Z) : outcome CharStream :=
  let* m := memcpy_from buffer size in
  Ok (mkCS 0 size m).

(** char_stream.c:37-40 CharStream_get_cur.  A position outside the object is
    represented by the empty object: any access to it is out of bounds. *)
Definition CharStream_get_cur (cs : CharStream) : mem :=
  if cs_cursor cs <? 0 then [] else skipn (Z.to_nat (cs_cursor cs)) (cs_stream cs).

(** char_stream.c:42-46 CharStream_write. *)
Definition CharStream_write (cs : CharStream) (data : mem) (size : Z) : outcome CharStream :=
  let* d := memcpy_from (Some data) size in
  if (cs_cursor cs <? 0) || (zlen (cs_stream cs) <? cs_cursor cs + size) then Ub OobWrite
  else
    let pos := Z.to_nat (cs_cursor cs) in
    let stream := firstn pos (cs_stream cs) ++ d
                  ++ skipn (pos + Z.to_nat size) (cs_stream cs) in
    let* cursor := iadd (cs_cursor cs) size in
    Ok (mkCS cursor (cs_size cs) stream).

(** char_stream.c:48-54 CharStream_read: the cells copied to [dest] (their
    number is the return value) and the stream.  [size] is the capacity of
    [dest] at every call site. *)
Definition CharStream_read (cs : CharStream) (size : Z) : outcome (mem * CharStream) :=
  let* avail := isub (cs_size cs) (cs_cursor cs) in
  let final_size := clamp_int size 0 avail in
  let* d := memcpy_from (Some (CharStream_get_cur cs)) final_size in
  Ok (d, with_cursor cs (cs_cursor cs + final_size)).

(** Declaring [char buf[n]] (or malloc'ing it) and calling CharStream_read on
    it: cells not covered by the read stay indeterminate. *)
Definition read_into (cs : CharStream) (n : Z) : outcome (mem * CharStream) :=
  let* (d, cs') := CharStream_read cs n in
  Ok (d ++ repeat None (Z.to_nat n - length d), cs').

(** char_stream.c:56-62 CharStream_getc; EOF is -1. *)
Definition CharStream_getc (cs : CharStream) : outcome (Z * CharStream) :=
  if cs_size cs <=? cs_cursor cs then Ok (-1, cs)
  else
    match CharStream_get_cur cs with
    | [] => Ub OobRead
    | None :: _ => Ub UninitRead
    | Some b :: _ => Ok (schar b, with_cursor cs (cs_cursor cs + 1))
    end.

(** char_stream.c:64-69 CharStream_slice. *)
Definition CharStream_slice (cs : CharStream) (n : Z) : outcome (mem * CharStream) :=
  let* cursor := iadd (cs_cursor cs) n in
  Ok (CharStream_get_cur cs, with_cursor cs cursor).

Inductive whence := SEEK_SET | SEEK_CUR | SEEK_END.

(** char_stream.c:71-85 CharStream_seek. *)
Definition CharStream_seek (cs : CharStream) (offset : Z) (w : whence) : outcome CharStream :=
  match w with
  | SEEK_SET => Ok (with_cursor cs offset)
  | SEEK_CUR =>
      let* t := iadd (cs_cursor cs) offset in
      Ok (with_cursor cs (clamp_int t 0 (cs_size cs)))
  | SEEK_END =>
      let* t := iadd (cs_size cs) offset in
      Ok (with_cursor cs (clamp_int t 0 (cs_size cs)))
  end.
