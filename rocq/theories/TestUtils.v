(** Model of the functions of test/test_utils.c that print frames and save
    pictures; no test calls them.

    Simplifications: what is printed is the sequence of what is handed to
    printf; memory is not freed (nor is it in the C code).  If memory is not
    accessed as it should be, what was printed before is not shown. *)
From Verif Require Export Tests.

(** What printf is given: characters, or the value of one wide character
    ("%lc").  The characters the terminal shows for it depend on the locale. *)
Inductive printed :=
| Chars (l : list byte)
| WideChar (unit : Z).

Definition newline : byte := x0a.
Definition NONE_LINE : list printed := [Chars (lit "None" ++ [newline])].

(** "%s". *)
Fixpoint c_string (m : mem) : outcome (list byte) :=
  match m with
  | [] => Ub OobRead
  | None :: _ => Ub UninitRead
  | Some b :: m => if beq b x00 then Ok [] else let* l := c_string m in Ok (b :: l)
  end.

(** test_utils.c:24-30 char_to_utf16: room for [size] units, of which the
    copied bytes fill one half. *)
Definition char_to_utf16 (string : cptr) (size : Z) : outcome mem :=
  let* size := if size <? 0 then ID3v2_strlent string else Ok size in
  let* m := memcpy_from string size in
  Ok (m ++ repeat None (Z.to_nat size)).

(** test_utils.c:32-55 to_unicode; see [ID3v2_to_unicode] for the size. *)
Definition test_to_unicode (string : cptr) : outcome unicode_result :=
  let* bom := has_bom string in
  if bom then Ok SamePointer
  else
    match string with
    | None => Ub NullDeref
    | Some m =>
        let* n := c_strlen m in
        if 2 ^ 31 <=? n * 2 + 4 then Ub BadSize
        else Ok (Fresh ([Some xff; Some xfe] ++ widen (Z.to_nat n) m ++ [Some x00; Some x00]))
    end.

(** test_utils.c:63-74, the loop of println_utf16.  Units are read in the byte
    order of the host, a little-endian one. *)
Fixpoint print_units (m : mem) (i size : Z) : outcome (list printed) :=
  if (i <? size) || (size <? 0) then
    match m with
    | Some a :: Some b :: m =>
        let unit := bv a + 256 * bv b in
        if unit =? 0 then Ok []
        else let* rest := print_units m (i + 1) size in Ok (WideChar unit :: rest)
    | _ :: _ :: _ => Ub UninitRead
    | _ => Ub OobRead
    end
  else Ok [].

(** test_utils.c:57-77 println_utf16. *)
Definition println_utf16 (string : mem) (size : Z) : outcome (list printed) :=
  let* units := print_units (skipn 2 string) 1 size in
  Ok (units ++ [Chars [newline]]).

(** test_utils.c:90-105 print_text_frame_text. *)
Definition print_text_frame_text (text : cptr) (size : Z) : outcome (list printed) :=
  match text with
  | None => Ok NONE_LINE
  | Some m =>
      let* bom := has_bom text in
      if bom then
        let* text_utf := char_to_utf16 text size in
        println_utf16 text_utf size
      else
        let* s := c_string m in
        Ok [Chars (s ++ [newline])]
  end.

(** test_utils.c:79-88 print_text_frame. *)
Definition print_text_frame (f : option frame) : outcome (list printed) :=
  match f with
  | None => Ok NONE_LINE
  | Some f =>
      match f_data f with
      | DText d => print_text_frame_text (Some (td_text d)) (td_size d)
      | _ => Ub TypeConfusion
      end
  end.

(** test_utils.c:107-116 print_comment_frame. *)
Definition print_comment_frame (f : option frame) : outcome (list printed) :=
  match f with
  | None => Ok NONE_LINE
  | Some f =>
      match f_data f with
      | DComment d => print_text_frame_text (Some (cd_comment d)) (cd_size d)
      | _ => Ub TypeConfusion
      end
  end.

(** test_utils.c:126-131, the loop of print_comment_frames. *)
Fixpoint print_comments (l : flist) : outcome (list printed) :=
  match l with
  | [] => Ok []
  | n :: l =>
      let* a := print_comment_frame (the_frame (n_frame n)) in
      let* b := print_comments l in
      Ok (a ++ b)
  end.

(** test_utils.c:118-132 print_comment_frames; NULL is the list without nodes. *)
Definition print_comment_frames (l : flist) : outcome (list printed) :=
  match l with
  | [] => Ok NONE_LINE
  | _ => print_comments l
  end.

(** strcpy and strcat into an object of which [buf] is all. *)
Definition c_strcpy (buf : mem) (src : mem) : outcome mem :=
  let* s := c_string src in
  if zlen buf <? zlen s + 1 then Ub OobWrite
  else Ok (cells (s ++ [x00]) ++ skipn (length s + 1) buf).
Definition c_strcat (buf : mem) (src : mem) : outcome mem :=
  let* b := c_string buf in
  let* s := c_string src in
  if zlen buf <? zlen b + zlen s + 1 then Ub OobWrite
  else Ok (cells (b ++ s ++ [x00]) ++ skipn (length b + length s + 1) buf).

(** strcmp(a, b) == 0. *)
Fixpoint c_strcmp (a b : mem) : outcome bool :=
  match a, b with
  | Some x :: a, Some y :: b => if beq x y then if beq x x00 then Ok true else c_strcmp a b else Ok false
  | [], _ | _, [] => Ub OobRead
  | _, _ => Ub UninitRead
  end.

(** The bytes of memory handed to fwrite. *)
Fixpoint known_bytes (m : mem) : outcome (list byte) :=
  match m with
  | [] => Ok []
  | None :: _ => Ub UninitRead
  | Some b :: m => let* l := known_bytes m in Ok (b :: l)
  end.

(** Name and contents of a file that was written, and what was printed. *)
Record saved := mkSaved { saved_name : list byte; saved_content : list byte }.

(** test_utils.c:134-153 save_apic_frame.  Opening and writing of the file do
    not fail here. *)
Definition save_apic_frame (f : option frame) (dir_path : cptr) : outcome (option saved * list printed) :=
  match f with
  | None => Ok (None, NONE_LINE)
  | Some f =>
      match f_data f with
      | DApic d =>
          let* mime := deref ID3v2_MIME_TYPE_PNG in
          let* is_png := c_strcmp (ad_mime d) mime in
          let extension := cells (lit (if is_png then ".png" else ".jpeg") ++ [x00]) in
          let album_cover := cells (lit "/album_cover" ++ [x00]) in
          let* dir := deref dir_path in
          let* n := c_strlen dir in
          let* k := c_strlen album_cover in
          let* e := c_strlen extension in
          let file_name_size := to_i32 (n + k + e) in
          if file_name_size <? 0 then Ub BadSize
          else
            let file_name := repeat None (Z.to_nat file_name_size) in
            let* file_name := c_strcpy file_name dir in
            let* file_name := c_strcat file_name album_cover in
            let* file_name := c_strcat file_name extension in
            let* name := c_string file_name in
            let* data := memcpy_from (Some (ad_data d)) (ad_picture_size d) in
            let* content := known_bytes data in
            Ok (Some (mkSaved name content), [Chars (lit "Saved in " ++ name)])
      | _ => Ub TypeConfusion
      end
  end.
