(** Model of src/id3v2lib.c and of load_tag when the system refuses something:
    fopen, tmpfile or the one malloc whose result is checked return NULL, a
    read fails half-way, the disk is full.  When nothing is refused these
    functions are those of File.v and Compat.v (C60_ideal).

    Simplifications: a file that cannot be read beyond some offset gives an
    error (EOF for getc, a short count for fread) there; a file that can hold
    so many bytes keeps those and loses what is written after them, as putc
    and fwrite report by results that the library does not look at; the other
    mallocs succeed. *)
From Verif Require Export File Compat.

(** What is refused during one call.  A limit is a number of bytes, [None] when
    there is none. *)
Record env := mkEnv {
  e_open : bool;                 (* fopen of a file that exists, id3v2lib.c:24 *)
  e_reopen : bool;               (* the next one, id3v2lib.c:51 and 139, compat.c:129 *)
  e_update : bool;               (* fopen "r+b", id3v2lib.c:107 *)
  e_replace : bool;              (* fopen "w+b", id3v2lib.c:119 and 153 *)
  e_temp : bool;                 (* tmpfile, id3v2lib.c:100 and 140 *)
  e_buffer : bool;               (* malloc, id3v2lib.c:53, compat.c:131 *)
  e_file_reads : option nat;     (* bytes of the file that can be read *)
  e_temp_holds : option nat;     (* bytes the temporary file can hold *)
  e_temp_reads : option nat;     (* bytes of it that can be read again *)
  e_file_holds : option nat }.   (* bytes the file can hold *)

(** What can be read of a file. *)
Definition limit (k : option nat) (l : list byte) : list byte :=
  match k with None => l | Some k => firstn k l end.

(** putc(c, fp) on a file that can hold so much. *)
Definition putc_e (k : option nat) (dst : list byte) (c : byte) : list byte :=
  match k with
  | None => dst ++ [c]
  | Some k => if (length dst <? k)%nat then dst ++ [c] else dst
  end.

(** The copy loop (File.v copy_loop, copy_states). *)
Fixpoint copy_e (k : option nat) (src dst : list byte) : list byte :=
  match src with
  | [] => dst
  | c :: src => copy_e k src (putc_e k dst c)
  end.
Fixpoint copy_states_e (k : option nat) (src dst : list byte) : list (list byte) :=
  match src with
  | [] => []
  | c :: src => putc_e k dst c :: copy_states_e k src (putc_e k dst c)
  end.

(** id3v2lib.c:22-35 ID3v2_read_tag_header. *)
Definition ID3v2_read_tag_header_e (e : env) (f : file) : outcome (option TagHeader) :=
  match f with
  | None => Ok None
  | Some content =>
      if e_open e then
        let tag_header_buffer := firstn (Z.to_nat ID3v2_TAG_HEADER_LENGTH) (limit (e_file_reads e) content) in
        let bytes_read := zlen tag_header_buffer in
        if bytes_read <? ID3v2_TAG_HEADER_LENGTH then Ok None
        else ID3v2_read_tag_header_from_buffer (Some (cells tag_header_buffer))
      else Ok None
  end.

(** id3v2lib.c:45-72 ID3v2_read_tag.  [file] is not tested: fread, or fclose
    when there is no buffer, gets NULL. *)
Definition ID3v2_read_tag_e (e : env) (f : file) : outcome (option Tag) :=
  let* tag_header := ID3v2_read_tag_header_e e f in
  match tag_header with
  | None => Ok None
  | Some h =>
      match f with
      | None => Ub NullDeref
      | Some content =>
          if negb (e_reopen e) then Ub NullDeref
          else if negb (e_buffer e) then Ok None
          else
            let buffer_length := declared_length h in
            ID3v2_read_tag_from_buffer (Some (fread_into (limit (e_file_reads e) content) buffer_length)) buffer_length
      end
  end.

(** id3v2lib.c:82-118, ID3v2_write_tag until the file itself is changed: the
    tag with its new padding, and the contents of the temporary file. *)
Definition write_tag_prepare (e : env) (f : file) (tag : Tag) : outcome (Tag * list byte) :=
  let* existing := ID3v2_read_tag_header_e e f in
  let original_size := match existing with Some h => declared_length h | None => 0 end in
  let* d := isub ID3v2_TAG_DEFAULT_PADDING_LENGTH (t_padding tag) in
  let extra := clamp_int d 0 ID3v2_TAG_DEFAULT_PADDING_LENGTH in
  let* padding := iadd (t_padding tag) extra in
  let tag := mkTag (t_header tag) (t_frames tag) padding (t_fresh tag) in
  let* tag_cs := Tag_to_char_stream tag in
  if negb (e_temp e) then Ub NullDeref (* fwrite(.., NULL) *)
  else
    let* bytes := fwrite_bytes (firstn (Z.to_nat (cs_size tag_cs)) (cs_stream tag_cs)) in
    let temp := copy_e (e_temp_holds e) bytes [] in
    match f with
    | None => Ub NullDeref (* fseek(NULL, ..) *)
    | Some content =>
        if negb (e_update e) then Ub NullDeref
        else Ok (tag, copy_e (e_temp_holds e) (from_offset (limit (e_file_reads e) content) original_size) temp)
    end.

(** id3v2lib.c:82-131 ID3v2_write_tag: the contents that the file goes through
    until the call returns or goes wrong, and how it ends.  When the file cannot
    be opened for writing, putc or fclose gets NULL. *)
Definition ID3v2_write_tag_e (e : env) (f : file) (tagp : option Tag) : list file * outcome (option Tag) :=
  match tagp with
  | None => ([f], Ok None)
  | Some tag =>
      match write_tag_prepare e f tag with
      | Ok (tag, temp) =>
          if negb (e_replace e) then ([f], Ub NullDeref)
          else (f :: Some [] :: map Some (copy_states_e (e_file_holds e) (limit (e_temp_reads e) temp) []), Ok (Some tag))
      | Ub u => ([f], Ub u)
      | Exit n => ([f], Exit n)
      | NoFuel => ([f], NoFuel)
      end
  end.

(** id3v2lib.c:133-165 ID3v2_delete_tag, in the same way.  Without a temporary
    file putc gets NULL, or, when there is nothing to copy, fseek after the file
    has been emptied. *)
Definition ID3v2_delete_tag_e (e : env) (f : file) : list file * outcome unit :=
  match ID3v2_read_tag_header_e e f with
  | Ok None => ([f], Ok tt)
  | Ok (Some h) =>
      match f with
      | None => ([f], Ub NullDeref)
      | Some content =>
          if negb (e_reopen e) then ([f], Ub NullDeref) (* fseek(NULL, ..) *)
          else
            let src := from_offset (limit (e_file_reads e) content) (declared_length h) in
            if negb (e_temp e) then
              match src with
              | _ :: _ => ([f], Ub NullDeref)
              | [] => if e_replace e then ([f; Some []], Ub NullDeref) else ([f], Ub NullDeref)
              end
            else
              let temp := copy_e (e_temp_holds e) src [] in
              if negb (e_replace e) then ([f], Ub NullDeref)
              else (f :: Some [] :: map Some (copy_states_e (e_file_holds e) (limit (e_temp_reads e) temp) []), Ok tt)
      end
  | Ub u => ([f], Ub u)
  | Exit n => ([f], Exit n)
  | NoFuel => ([f], NoFuel)
  end.

(** compat.c:126-141 load_tag: nothing is tested. *)
Definition load_tag_e (e : env) (f : file) : outcome ctag :=
  let* header := ID3v2_read_tag_header_e e f in
  let* header := deref header in
  let buffer_size := declared_length header in
  let* content := deref f in
  if negb (e_reopen e && e_buffer e) then Ub NullDeref
  else load_tag_with_buffer (Some (fread_into (limit (e_file_reads e) content) buffer_size)) buffer_size.
