(** The functions of Stdio.v as sequences of single stdio calls, and several
    threads that take turns at them.

    The library has no variables outside its functions, so what threads share
    are the files.  Streams, temporary files and the answers of the system belong
    to the thread that uses them; their numbers are opaque.  Simplifications:
    a stdio call is not interrupted by other threads (C11 7.21.2: streams have
    locks; here no two threads share one, and single reads and writes of a file
    are atomic); the tags that the threads pass are their own. *)
From Verif Require Export Stdio.

(** One call. *)
Inductive op : Set -> Set :=
| OpOpen (n : list byte) : op fp            (* fopen rb, r+b *)
| OpNew (n : list byte) : op fp             (* fopen w+b *)
| OpTemp : op fp
| OpPut (c : byte) (p : fp) : op unit
| OpGet (p : fp) : op (option byte)
| OpSeek (n : Z) (p : fp) : op unit
| OpSeekEnd (p : fp) : op unit
| OpTell (p : fp) : op Z
| OpClose (p : fp) : op unit
| OpMalloc : op bool
| OpCheck (p : fp) : op unit                (* no call: the argument of fread or fwrite is looked at *)
| OpRounds (p : fp) : op nat.               (* no call: the bound of a loop *)

Definition do_op {B : Set} (c : op B) : io B :=
  match c with
  | OpOpen n => fopen_existing n
  | OpNew n => fopen_new n
  | OpTemp => tmpfile
  | OpPut c p => putc c p
  | OpGet p => getc p
  | OpSeek n p => fseek n p
  | OpSeekEnd p => fseek_end p
  | OpTell p => ftell p
  | OpClose p => fclose p
  | OpMalloc => malloc_succeeds
  | OpCheck p => let! _ := stream_of p in ret tt
  | OpRounds p => let! (_, st) := stream_of p in let! c := contents (st_target st) in ret (S (length c))
  end.

(** What a thread has still to do. *)
Inductive prog (A : Type) : Type :=
| Stop (o : outcome A)
| Then (B : Set) (c : op B) (k : B -> prog A).
Arguments Stop {A} o.
Arguments Then {A B} c k.

Fixpoint bindp {A B} (p : prog A) (f : A -> prog B) : prog B :=
  match p with
  | Stop (Ok a) => f a
  | Stop (Ub u) => Stop (Ub u)
  | Stop (Exit n) => Stop (Exit n)
  | Stop NoFuel => Stop NoFuel
  | Then c k => Then c (fun b => bindp (k b) f)
  end.
Definition one {B : Set} (c : op B) : prog B := Then c (fun b => Stop (Ok b)).
Definition retp {A} (a : A) : prog A := Stop (Ok a).
#[local] Notation "'do!' x := m 'in' k" := (bindp m (fun x => k)) (at level 200, x pattern, right associativity).

Fixpoint perform {A} (p : prog A) : io A :=
  match p with
  | Stop o => lift o
  | Then c k => let! b := do_op c in perform (k b)
  end.

(** ** The functions once more, as in Stdio.v *)
Fixpoint fread_loop_p (n : nat) (p : fp) : prog (list byte) :=
  match n with
  | O => retp []
  | S n =>
      do! c := one (OpGet p) in
      match c with
      | None => retp []
      | Some c => do! l := fread_loop_p n p in retp (c :: l)
      end
  end.
Definition fread_p (n : nat) (p : fp) : prog (list byte) :=
  do! _ := one (OpCheck p) in fread_loop_p n p.

Fixpoint fwrite_loop_p (m : mem) (p : fp) : prog unit :=
  match m with
  | [] => retp tt
  | None :: _ => Stop (Ub UninitRead)
  | Some c :: m => do! _ := one (OpPut c p) in fwrite_loop_p m p
  end.
Definition fwrite_p (m : mem) (p : fp) : prog unit :=
  do! _ := one (OpCheck p) in fwrite_loop_p m p.

Fixpoint copy_rounds_p (fuel : nat) (src dst : fp) : prog unit :=
  match fuel with
  | O => Stop NoFuel
  | S fuel =>
      do! c := one (OpGet src) in
      match c with
      | None => retp tt
      | Some c => do! _ := one (OpPut c dst) in copy_rounds_p fuel src dst
      end
  end.
Definition copy_stream_p (src dst : fp) : prog unit :=
  do! n := one (OpRounds src) in copy_rounds_p n src dst.

(** id3v2lib.c:22-35 *)
Definition ID3v2_read_tag_header_p (file_name : list byte) : prog (option TagHeader) :=
  do! fp := one (OpOpen file_name) in
  match fp with
  | None => retp None
  | Some _ =>
      do! tag_header_buffer := fread_p (Z.to_nat ID3v2_TAG_HEADER_LENGTH) fp in
      do! _ := one (OpClose fp) in
      if zlen tag_header_buffer <? ID3v2_TAG_HEADER_LENGTH then retp None
      else Stop (ID3v2_read_tag_header_from_buffer (Some (cells tag_header_buffer)))
  end.

(** id3v2lib.c:45-72 *)
Definition ID3v2_read_tag_p (file_name : list byte) : prog (option Tag) :=
  do! tag_header := ID3v2_read_tag_header_p file_name in
  match tag_header with
  | None => retp None
  | Some h =>
      do! file := one (OpOpen file_name) in
      let buffer_length := declared_length h in
      do! allocated := one OpMalloc in
      if negb allocated then do! _ := one (OpClose file) in retp None
      else
        do! bytes := fread_p (Z.to_nat buffer_length) file in
        do! _ := one (OpClose file) in
        Stop (ID3v2_read_tag_from_buffer (Some (buffer_of bytes buffer_length)) buffer_length)
  end.

(** id3v2lib.c:82-131 *)
Definition ID3v2_write_tag_p (file_name : list byte) (tagp : option Tag) : prog (option Tag) :=
  match tagp with
  | None => retp None
  | Some tag =>
      do! existing := ID3v2_read_tag_header_p file_name in
      let original_size := match existing with Some h => declared_length h | None => 0 end in
      do! d := Stop (isub ID3v2_TAG_DEFAULT_PADDING_LENGTH (t_padding tag)) in
      let extra := clamp_int d 0 ID3v2_TAG_DEFAULT_PADDING_LENGTH in
      do! padding := Stop (iadd (t_padding tag) extra) in
      let tag := mkTag (t_header tag) (t_frames tag) padding (t_fresh tag) in
      do! tag_cs := Stop (Tag_to_char_stream tag) in
      do! temp_fp := one OpTemp in
      do! _ := fwrite_p (firstn (Z.to_nat (cs_size tag_cs)) (cs_stream tag_cs)) temp_fp in
      do! dest_fp := one (OpOpen file_name) in
      do! _ := one (OpSeek original_size dest_fp) in
      do! _ := copy_stream_p dest_fp temp_fp in
      do! _ := one (OpClose dest_fp) in
      do! dest_fp := one (OpNew file_name) in
      do! _ := one (OpSeek 0 temp_fp) in
      do! _ := copy_stream_p temp_fp dest_fp in
      do! _ := one (OpClose temp_fp) in
      do! _ := one (OpClose dest_fp) in
      retp (Some tag)
  end.

(** id3v2lib.c:133-165 *)
Definition ID3v2_delete_tag_p (file_name : list byte) : prog unit :=
  do! tag_header := ID3v2_read_tag_header_p file_name in
  match tag_header with
  | None => retp tt
  | Some h =>
      do! file_fp := one (OpOpen file_name) in
      do! temp_fp := one OpTemp in
      do! _ := one (OpSeek (declared_length h) file_fp) in
      do! _ := copy_stream_p file_fp temp_fp in
      do! _ := one (OpClose file_fp) in
      do! file_fp := one (OpNew file_name) in
      do! _ := one (OpSeek 0 temp_fp) in
      do! _ := copy_stream_p temp_fp file_fp in
      do! _ := one (OpClose temp_fp) in
      one (OpClose file_fp)
  end.

(** compat.c:126-141 *)
Definition load_tag_p (file_name : list byte) : prog ctag :=
  do! header := ID3v2_read_tag_header_p file_name in
  do! fp := one (OpOpen file_name) in
  do! header := Stop (deref header) in
  let buffer_size := declared_length header in
  do! allocated := one OpMalloc in
  do! bytes := fread_p (Z.to_nat buffer_size) fp in
  do! _ := one (OpClose fp) in
  if negb allocated then Stop (Ub NullDeref)
  else Stop (load_tag_with_buffer (Some (buffer_of bytes buffer_size)) buffer_size).

(** compat.c:186-189 *)
Definition set_tag_p (file_name : list byte) (tag : option ctag) : prog ctag :=
  do! t := Stop (deref tag) in
  do! inner := ID3v2_write_tag_p file_name (Some (ct_tag t)) in
  do! inner := Stop (deref inner) in
  retp (mkCTag (ct_raw t) (ct_header t) (ct_frames t) inner).

(** compat.c:181-184 *)
Definition remove_tag_p (file_name : list byte) : prog unit := ID3v2_delete_tag_p file_name.

(** compat.c:417-438 *)
Definition tag_set_album_cover_p (filename : cptr) (picture : list byte) (tag : option ctag) : prog ctag :=
  do! album_cover := one (OpOpen picture) in
  do! _ := one (OpSeekEnd album_cover) in
  do! size := one (OpTell album_cover) in
  let image_size := to_i32 size in
  do! _ := one (OpSeek 0 album_cover) in
  if image_size <? 0 then Stop (Ub BadSize)
  else
    do! bytes := fread_p (Z.to_nat image_size) album_cover in
    do! _ := one (OpClose album_cover) in
    do! name := Stop (deref filename) in
    do! ext := Stop (after_last "."%byte name None) in
    do! ext := Stop (deref ext) in
    do! png := Stop (strncmp_eq 4 ext (cells (lit "png" ++ [x00]))) in
    let mimetype := if png then ID3v2_MIME_TYPE_PNG else ID3v2_MIME_TYPE_JPG in
    Stop (tag_set_album_cover_from_bytes (Some (buffer_of bytes image_size)) mimetype image_size tag).

(** ** Threads *)

(** One call of a program. *)
Definition advance {A} (x : prog A * sys) : prog A * sys :=
  match x with
  | (Stop o, s) => (Stop o, s)
  | (Then c k, s) =>
      match do_op c s with
      | (Ok b, s) => (k b, s)
      | (Ub u, s) => (Stop (Ub u), s)
      | (Exit n, s) => (Stop (Exit n), s)
      | (NoFuel, s) => (Stop NoFuel, s)
      end
  end.

(** A program that is left alone for so many calls. *)
Fixpoint alone {A} (k : nat) (x : prog A * sys) : prog A * sys :=
  match k with O => x | S k => advance (alone k x) end.

(** The named files are shared; the rest of a system is the thread's own. *)
Definition shared := list byte -> file.
Definition named (s : sys) : shared := fun n => s_disk s (Named n).
Definition view (g : shared) (s : sys) : sys :=
  mkSys (fun t => match t with Named n => g n | Temp k => s_disk s (Temp k) end)
        (s_open s) (s_next s) (s_answers s) (s_log s).

Definition world (A : Type) := (shared * (nat -> prog A * sys))%type.

(** It is the turn of thread [i]. *)
Definition turn {A} (w : world A) (i : nat) : world A :=
  let (g, ts) := w in
  let (p, s) := ts i in
  let x := advance (p, view g s) in
  (named (snd x), fun j => if Nat.eqb j i then x else ts j).
Definition turns {A} (w : world A) (schedule : list nat) : world A := fold_left turn schedule w.
