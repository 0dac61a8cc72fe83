(** The functions that work on files once more, over the stdio calls they make:
    streams that are opened and closed, positions, buffers that are written to
    the disk sooner or later, and calls that fail at any moment.

    Simplifications: a file has one name; a stream that is open for reading and
    writing has one position; nobody else changes the files. *)
From Verif Require Export File Compat.

(** ** stdio *)

(** Files with a name, and files made by tmpfile. *)
Inductive target := Named (n : list byte) | Temp (k : nat).
Definition target_dec (a b : target) : {a = b} + {a <> b}.
Proof. decide equality; [apply (list_eq_dec Byte.byte_eq_dec)|apply Nat.eq_dec]. Defined.

Definition disk := target -> file.

(** An open stream: its file, the position in it, and what was written but is
    not yet on the disk. *)
Record stream := mkStream { st_target : target; st_pos : nat; st_pending : list byte }.

(** What the system does when it is asked: what it is asked to; for output, keep
    it in the buffer for now; or refuse, after [n] bytes of output. *)
Inductive answer := Fine | Late | Refuse (n : nat).

(** [s_log] has every state the disk has gone through, the latest first;
    [s_answers] the answers to come, [Fine] when there are no more. *)
Record sys := mkSys {
  s_disk : disk; s_open : nat -> option stream; s_next : nat;
  s_answers : list answer; s_log : list disk }.

(** Computations on a system; the state is also known where one goes wrong. *)
Definition io (A : Type) := sys -> outcome A * sys.
Definition ret {A} (a : A) : io A := fun s => (Ok a, s).
Definition lift {A} (o : outcome A) : io A := fun s => (o, s).
Definition bindio {A B} (m : io A) (k : A -> io B) : io B := fun s =>
  match m s with
  | (Ok a, s) => k a s
  | (Ub u, s) => (Ub u, s)
  | (Exit n, s) => (Exit n, s)
  | (NoFuel, s) => (NoFuel, s)
  end.
Notation "'let!' x := m 'in' k" := (bindio m (fun x => k)) (at level 200, x pattern, right associativity).

Definition ask : io answer := fun s =>
  match s_answers s with
  | [] => (Ok Fine, s)
  | a :: rest => (Ok a, mkSys (s_disk s) (s_open s) (s_next s) rest (s_log s))
  end.

Definition set_disk (t : target) (f : file) : io unit := fun s =>
  let d := fun u => if target_dec u t then f else s_disk s u in
  (Ok tt, mkSys d (s_open s) (s_next s) (s_answers s) (d :: s_log s)).

Definition set_stream (k : nat) (st : option stream) : io unit := fun s =>
  (Ok tt, mkSys (s_disk s) (fun j => if Nat.eqb j k then st else s_open s j) (s_next s) (s_answers s) (s_log s)).

(** A FILE* is NULL or the number of a stream, which may have been closed. *)
Definition fp := option nat.
Definition stream_of (p : fp) : io (nat * stream) := fun s =>
  match p with
  | None => (Ub NullDeref, s)
  | Some k => match s_open s k with Some st => (Ok (k, st), s) | None => (Ub UseAfterFree, s) end
  end.
Definition contents (t : target) : io (list byte) := fun s =>
  (Ok (match s_disk s t with Some c => c | None => [] end), s).

Definition open_stream (t : target) : io fp := fun s =>
  (Ok (Some (s_next s)),
   mkSys (s_disk s) (fun j => if Nat.eqb j (s_next s) then Some (mkStream t 0 []) else s_open s j)
         (S (s_next s)) (s_answers s) (s_log s)).

(** fopen(name, "rb") and fopen(name, "r+b"). *)
Definition fopen_existing (n : list byte) : io fp :=
  let! a := ask in
  match a with
  | Refuse _ => ret None
  | _ => fun s => match s_disk s (Named n) with
                  | None => (Ok None, s)
                  | Some _ => open_stream (Named n) s
                  end
  end.

(** fopen(name, "w+b"). *)
Definition fopen_new (n : list byte) : io fp :=
  let! a := ask in
  match a with
  | Refuse _ => ret None
  | _ => let! _ := set_disk (Named n) (Some []) in open_stream (Named n)
  end.

(** tmpfile(). *)
Definition tmpfile : io fp :=
  let! a := ask in
  match a with
  | Refuse _ => ret None
  | _ => fun s => (let! _ := set_disk (Temp (s_next s)) (Some []) in open_stream (Temp (s_next s))) s
  end.

(** The contents after writing [l] at [pos]; a gap is filled with zeros. *)
Definition write_at (pos : nat) (l content : list byte) : list byte :=
  firstn pos content ++ repeat x00 (pos - length content) ++ l ++ skipn (pos + length l) content.

(** Write out what is pending in the stream. *)
Definition flush (k : nat) (st : stream) (a : answer) : io stream :=
  let data := match a with Refuse n => firstn n (st_pending st) | _ => st_pending st end in
  let st' := mkStream (st_target st) (st_pos st + length data) [] in
  match data with
  | [] => let! _ := set_stream k (Some st') in ret st'
  | _ =>
      let! c := contents (st_target st) in
      let! _ := set_disk (st_target st) (Some (write_at (st_pos st) data c)) in
      let! _ := set_stream k (Some st') in
      ret st'
  end.

(** putc. *)
Definition putc (c : byte) (p : fp) : io unit :=
  let! (k, st) := stream_of p in
  let st := mkStream (st_target st) (st_pos st) (st_pending st ++ [c]) in
  let! a := ask in
  match a with
  | Late => set_stream k (Some st)
  | _ => let! _ := flush k st a in ret tt
  end.

(** getc; [None] is EOF.  Reading where the last thing was writing is
    undefined (ISO C 7.21.5.3). *)
Definition getc (p : fp) : io (option byte) :=
  let! (k, st) := stream_of p in
  match st_pending st with
  | _ :: _ => lift (Ub UninitRead)
  | [] =>
      let! a := ask in
      match a with
      | Refuse _ => ret None
      | _ =>
          let! content := contents (st_target st) in
          match nth_error content (st_pos st) with
          | None => ret None
          | Some c =>
              let! _ := set_stream k (Some (mkStream (st_target st) (S (st_pos st)) [])) in
              ret (Some c)
          end
      end
  end.

(** fread of at most [n] bytes, as if by getc (ISO C 7.21.8.1). *)
Fixpoint fread_loop (n : nat) (p : fp) : io (list byte) :=
  match n with
  | O => ret []
  | S n =>
      let! c := getc p in
      match c with
      | None => ret []
      | Some c => let! l := fread_loop n p in ret (c :: l)
      end
  end.
Definition fread (n : nat) (p : fp) : io (list byte) :=
  let! _ := stream_of p in fread_loop n p.

(** fwrite, as if by putc (ISO C 7.21.8.2). *)
Fixpoint fwrite_loop (m : mem) (p : fp) : io unit :=
  match m with
  | [] => ret tt
  | None :: _ => lift (Ub UninitRead)
  | Some c :: m => let! _ := putc c p in fwrite_loop m p
  end.
Definition fwrite (m : mem) (p : fp) : io unit :=
  let! _ := stream_of p in fwrite_loop m p.

(** fseek(p, n, SEEK_SET).  When it fails, as it does for a negative [n], the
    position stays where it is. *)
Definition fseek (n : Z) (p : fp) : io unit :=
  let! (k, st) := stream_of p in
  let! a := ask in
  let! st := flush k st a in
  match a with
  | Refuse _ => ret tt
  | _ => if n <? 0 then ret tt
         else set_stream k (Some (mkStream (st_target st) (Z.to_nat n) []))
  end.

(** fseek(p, 0, SEEK_END). *)
Definition fseek_end (p : fp) : io unit :=
  let! (k, st) := stream_of p in
  let! a := ask in
  let! st := flush k st a in
  match a with
  | Refuse _ => ret tt
  | _ => let! c := contents (st_target st) in
         set_stream k (Some (mkStream (st_target st) (length c) []))
  end.

(** ftell, -1 when it fails. *)
Definition ftell (p : fp) : io Z :=
  let! (_, st) := stream_of p in
  let! a := ask in
  ret (match a with Refuse _ => -1 | _ => Z.of_nat (st_pos st + length (st_pending st)) end).

(** fclose; a temporary file goes away with its stream. *)
Definition fclose (p : fp) : io unit :=
  let! (k, st) := stream_of p in
  let! a := ask in
  let! st := flush k st a in
  let! _ := set_stream k None in
  match st_target st with
  | Named _ => ret tt
  | Temp _ => set_disk (st_target st) None
  end.

(** malloc where its result is tested. *)
Definition malloc_succeeds : io bool :=
  let! a := ask in ret (match a with Refuse _ => false | _ => true end).

(** [while ((c = getc(src)) != EOF) putc(c, dst);]  No more rounds than the file
    read has bytes, and one. *)
Fixpoint copy_rounds (fuel : nat) (src dst : fp) : io unit :=
  match fuel with
  | O => lift NoFuel
  | S fuel =>
      let! c := getc src in
      match c with
      | None => ret tt
      | Some c => let! _ := putc c dst in copy_rounds fuel src dst
      end
  end.
Definition copy_stream (src dst : fp) : io unit :=
  let! (_, st) := stream_of src in
  let! c := contents (st_target st) in
  copy_rounds (S (length c)) src dst.

(** ** src/id3v2lib.c *)

(** id3v2lib.c:22-35 ID3v2_read_tag_header. *)
Definition ID3v2_read_tag_header_s (file_name : list byte) : io (option TagHeader) :=
  let! fp := fopen_existing file_name in
  match fp with
  | None => ret None
  | Some _ =>
      let! tag_header_buffer := fread (Z.to_nat ID3v2_TAG_HEADER_LENGTH) fp in
      let! _ := fclose fp in
      if zlen tag_header_buffer <? ID3v2_TAG_HEADER_LENGTH then ret None
      else lift (ID3v2_read_tag_header_from_buffer (Some (cells tag_header_buffer)))
  end.

(** A buffer of [n] cells into which these bytes were read. *)
Definition buffer_of (l : list byte) (n : Z) : mem := cells l ++ repeat None (Z.to_nat n - length l).

(** id3v2lib.c:45-72 ID3v2_read_tag. *)
Definition ID3v2_read_tag_s (file_name : list byte) : io (option Tag) :=
  let! tag_header := ID3v2_read_tag_header_s file_name in
  match tag_header with
  | None => ret None
  | Some h =>
      let! file := fopen_existing file_name in
      let buffer_length := declared_length h in
      let! allocated := malloc_succeeds in
      if negb allocated then let! _ := fclose file in ret None
      else
        let! bytes := fread (Z.to_nat buffer_length) file in
        let! _ := fclose file in
        lift (ID3v2_read_tag_from_buffer (Some (buffer_of bytes buffer_length)) buffer_length)
  end.

(** id3v2lib.c:82-131 ID3v2_write_tag; the tag is returned because its
    padding_size is changed. *)
Definition ID3v2_write_tag_s (file_name : list byte) (tagp : option Tag) : io (option Tag) :=
  match tagp with
  | None => ret None
  | Some tag =>
      let! existing := ID3v2_read_tag_header_s file_name in
      let original_size := match existing with Some h => declared_length h | None => 0 end in
      let! d := lift (isub ID3v2_TAG_DEFAULT_PADDING_LENGTH (t_padding tag)) in
      let extra := clamp_int d 0 ID3v2_TAG_DEFAULT_PADDING_LENGTH in
      let! padding := lift (iadd (t_padding tag) extra) in
      let tag := mkTag (t_header tag) (t_frames tag) padding (t_fresh tag) in
      let! tag_cs := lift (Tag_to_char_stream tag) in
      let! temp_fp := tmpfile in
      let! _ := fwrite (firstn (Z.to_nat (cs_size tag_cs)) (cs_stream tag_cs)) temp_fp in
      let! dest_fp := fopen_existing file_name in
      let! _ := fseek original_size dest_fp in
      let! _ := copy_stream dest_fp temp_fp in
      let! _ := fclose dest_fp in
      let! dest_fp := fopen_new file_name in
      let! _ := fseek 0 temp_fp in
      let! _ := copy_stream temp_fp dest_fp in
      let! _ := fclose temp_fp in
      let! _ := fclose dest_fp in
      ret (Some tag)
  end.

(** id3v2lib.c:133-165 ID3v2_delete_tag. *)
Definition ID3v2_delete_tag_s (file_name : list byte) : io unit :=
  let! tag_header := ID3v2_read_tag_header_s file_name in
  match tag_header with
  | None => ret tt
  | Some h =>
      let! file_fp := fopen_existing file_name in
      let! temp_fp := tmpfile in
      let! _ := fseek (declared_length h) file_fp in
      let! _ := copy_stream file_fp temp_fp in
      let! _ := fclose file_fp in
      let! file_fp := fopen_new file_name in
      let! _ := fseek 0 temp_fp in
      let! _ := copy_stream temp_fp file_fp in
      let! _ := fclose temp_fp in
      fclose file_fp
  end.

(** ** src/id3v2lib.compat.c *)

(** compat.c:126-141 load_tag. *)
Definition load_tag_s (file_name : list byte) : io ctag :=
  let! header := ID3v2_read_tag_header_s file_name in
  let! fp := fopen_existing file_name in
  let! header := lift (deref header) in
  let buffer_size := declared_length header in
  let! allocated := malloc_succeeds in
  let! bytes := fread (Z.to_nat buffer_size) fp in
  let! _ := fclose fp in
  if negb allocated then lift (Ub NullDeref)
  else lift (load_tag_with_buffer (Some (buffer_of bytes buffer_size)) buffer_size).

(** compat.c:186-189 set_tag. *)
Definition set_tag_s (file_name : list byte) (tag : option ctag) : io ctag :=
  let! t := lift (deref tag) in
  let! inner := ID3v2_write_tag_s file_name (Some (ct_tag t)) in
  let! inner := lift (deref inner) in
  ret (mkCTag (ct_raw t) (ct_header t) (ct_frames t) inner).

(** compat.c:181-184 remove_tag. *)
Definition remove_tag_s (file_name : list byte) : io unit := ID3v2_delete_tag_s file_name.

(** compat.c:417-438 tag_set_album_cover; [picture] is the name that
    [filename] points to. *)
Definition tag_set_album_cover_s (filename : cptr) (picture : list byte) (tag : option ctag) : io ctag :=
  let! album_cover := fopen_existing picture in
  let! _ := fseek_end album_cover in
  let! size := ftell album_cover in
  let image_size := to_i32 size in
  let! _ := fseek 0 album_cover in
  if image_size <? 0 then lift (Ub BadSize)
  else
    let! bytes := fread (Z.to_nat image_size) album_cover in
    let! _ := fclose album_cover in
    let! name := lift (deref filename) in
    let! ext := lift (after_last "."%byte name None) in
    let! ext := lift (deref ext) in
    let! png := lift (strncmp_eq 4 ext (cells (lit "png" ++ [x00]))) in
    let mimetype := if png then ID3v2_MIME_TYPE_PNG else ID3v2_MIME_TYPE_JPG in
    lift (tag_set_album_cover_from_bytes (Some (buffer_of bytes image_size)) mimetype image_size tag).
