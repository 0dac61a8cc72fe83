(** Model of test/: the programs that test the library, as functions of the
    files they are run on.

    A test ends with [Ok true] when it prints its last line, and with [Ok false]
    when an assertion fails and the process is aborted.

    Simplifications: freeing and printing are left out, except free_tag, which
    the model of the version 1 interface has on values; clone_file copies all of
    a file, remove() is left out, since no later step looks at the file.
    print_text_frame, save_apic_frame and the other functions of test_utils.c
    that no test calls are not modelled. *)
From Verif Require Export File Compat Calls.

(** [memcmp(a, b, n) == 0], with the simplification of [memcmp_eq]: comparison
    stops at the first difference. *)
Fixpoint memcmp_cells (n : nat) (a b : mem) : outcome bool :=
  match n with
  | O => Ok true
  | S n =>
      match a, b with
      | Some x :: a, Some y :: b => if beq x y then memcmp_cells n a b else Ok false
      | [], _ | _, [] => Ub OobRead
      | _, _ => Ub UninitRead
      end
  end.
Definition memcmp_is_0 (a b : cptr) (n : Z) : outcome bool :=
  match a, b with
  | Some a, Some b => if n <? 0 then Ub BadSize else memcmp_cells (Z.to_nat n) a b
  | _, _ => Ub NullDeref
  end.

(** assert(e); k. *)
Notation "'assert!' e 'in' k" := (bind e (fun holds : bool => if holds then k else Ok false))
  (at level 200, e at level 100, k at level 200, right associativity).

(** ** test/test_utils.c *)

(** test_utils.c:18-22 has_bom. *)
Definition has_bom (p : cptr) : outcome bool :=
  match p with
  | None => Ok false
  | Some m =>
      let* le := memcmp_is_0 (Some (cells [xff; xfe; x00])) (Some m) 2 in
      if le then Ok true else memcmp_is_0 (Some (cells [xfe; xff; x00])) (Some m) 2
  end.

(** test_utils.c:155-169 clone_file: getc of a file that is not there. *)
Definition clone_file (src : file) : outcome file :=
  match src with
  | None => Ub NullDeref
  | Some content => Ok (Some content)
  end.

(** ** test/assertion_utils.c *)

(** assertion_utils.c:20-25 assert_frame_header. *)
Definition assert_frame_header (f : option frame) (id : cptr) (size : Z) (flags : cptr) : outcome bool :=
  let* f := deref f in
  assert! memcmp_is_0 (Some (fh_id (f_hdr f))) id ID3v2_FRAME_HEADER_ID_LENGTH in
  assert! Ok (fh_size (f_hdr f) =? size) in
  assert! memcmp_is_0 (Some (fh_flags (f_hdr f))) flags ID3v2_FRAME_HEADER_FLAGS_LENGTH in
  Ok true.

Definition encoding_of (bom : bool) : byte := if bom then ID3v2_ENCODING_UNICODE else ID3v2_ENCODING_ISO.
Definition termination_length (bom : bool) : Z := if bom then 2 else 1.

(** assertion_utils.c:27-48 assert_text_frame. *)
Definition assert_text_frame (f : option frame) (comparison : TextFrameInput) : outcome bool :=
  let* bom := has_bom (ti_text comparison) in
  let* len := ID3v2_strlen (ti_text comparison) in
  let* text_size := iadd len (termination_length bom) in
  let* frame_size := iadd text_size ID3v2_FRAME_ENCODING_LENGTH in
  assert! assert_frame_header f (ti_id comparison) frame_size (ti_flags comparison) in
  let* f := deref f in
  match f_data f with
  | DText d =>
      assert! Ok (td_size d =? frame_size - ID3v2_FRAME_ENCODING_LENGTH) in
      assert! Ok (beq (td_encoding d) (encoding_of bom)) in
      assert! memcmp_is_0 (Some (td_text d)) (ti_text comparison) (td_size d) in
      Ok true
  | _ => Ub TypeConfusion
  end.

(** assertion_utils.c:50-88 assert_comment_frame. *)
Definition assert_comment_frame (f : option frame) (comparison : CommentFrameInput) : outcome bool :=
  let* bom := has_bom (ci_comment comparison) in
  let* short_bom := has_bom (ci_short_description comparison) in
  let* len := ID3v2_strlen (ci_comment comparison) in
  let* comment_size := iadd len (termination_length bom) in
  let* short_len := ID3v2_strlen (ci_short_description comparison) in
  let* short_size := iadd short_len (termination_length short_bom) in
  let* n := iadd comment_size short_size in
  let* n := iadd n ID3v2_FRAME_ENCODING_LENGTH in
  let* frame_size := iadd n ID3v2_COMMENT_FRAME_LANGUAGE_LENGTH in
  assert! assert_frame_header f ID3v2_COMMENT_FRAME_ID frame_size (ci_flags comparison) in
  let* f := deref f in
  match f_data f with
  | DComment d =>
      assert! Ok (cd_size d =? comment_size) in
      assert! Ok (beq (cd_encoding d) (encoding_of bom)) in
      assert! memcmp_is_0 (Some (cd_language d)) (ci_language comparison) ID3v2_COMMENT_FRAME_LANGUAGE_LENGTH in
      assert! memcmp_is_0 (Some (cd_short d)) (ci_short_description comparison) short_size in
      assert! memcmp_is_0 (Some (cd_comment d)) (ci_comment comparison) (cd_size d) in
      Ok true
  | _ => Ub TypeConfusion
  end.

Definition not_null (p : cptr) : outcome bool := Ok (match p with Some _ => true | None => false end).

(** assertion_utils.c:90-121 assert_apic_frame. *)
Definition assert_apic_frame (f : option frame) (comparison : ApicFrameInput) : outcome bool :=
  let* bom := has_bom (ai_description comparison) in
  assert! not_null (ai_description comparison) in
  let* description_size := ID3v2_strlent (ai_description comparison) in
  assert! not_null (ai_mime_type comparison) in
  let* mime_type_size := ID3v2_strlent (ai_mime_type comparison) in
  let* n := iadd ID3v2_FRAME_ENCODING_LENGTH mime_type_size in
  let* n := iadd n ID3v2_APIC_FRAME_PICTURE_TYPE_LENGTH in
  let* n := iadd n description_size in
  let* frame_size := iadd n (ai_picture_size comparison) in
  assert! assert_frame_header f ID3v2_ALBUM_COVER_FRAME_ID frame_size (ai_flags comparison) in
  let* f := deref f in
  match f_data f with
  | DApic d =>
      assert! Ok (beq (ad_encoding d) (encoding_of bom)) in
      assert! Ok (ad_picture_size d =? ai_picture_size comparison) in
      assert! memcmp_is_0 (Some (ad_data d)) (ai_data comparison) (ai_picture_size comparison) in
      assert! memcmp_is_0 (Some (ad_mime d)) (ai_mime_type comparison) mime_type_size in
      assert! memcmp_is_0 (Some (ad_desc d)) (ai_description comparison) description_size in
      Ok true
  | _ => Ub TypeConfusion
  end.

(** ** What the tests do several times *)

(** ID3v2_to_unicode of a literal. *)
Definition to_unicode (s : string) : outcome cptr :=
  let* r := ID3v2_to_unicode (clit s) in
  Ok (match r with SamePointer => clit s | Fresh m => Some m end).

(** get_test.c:138-144, set_test.c:74-81: the size is converted to int, then to
    size_t. *)
Definition load_picture (cover : file) : outcome (Z * cptr) :=
  let* content := deref cover in
  let size := to_i32 (zlen content) in
  if size <? 0 then Ub BadSize else Ok (size, Some (fread_into content size)).

Definition the_frame (p : option fptr) : option frame := option_map fp_frame p.

(** assert_text_frame(get(tag), &(ID3v2_TextFrameInput){id, "\0\0", text}). *)
Definition assert_text (get : option Tag -> outcome (option fptr)) (tag : option Tag) (id text : cptr) : outcome bool :=
  let* p := get tag in
  assert_text_frame (the_frame p) (mkTextInput id NO_FLAGS text).

Definition assert_none (get : option Tag -> outcome (option fptr)) (tag : option Tag) : outcome bool :=
  let* p := get tag in
  Ok (match p with None => true | Some _ => false end).

(** list->frame and list->next->frame. *)
Definition head_frame (l : flist) : outcome (option frame) :=
  match l with
  | n :: _ => Ok (the_frame (n_frame n))
  | [] => Ub NullDeref
  end.
Definition second_frame (l : flist) : outcome (option frame) :=
  match l with
  | _ :: l => head_frame l
  | [] => Ub NullDeref
  end.

(** ** test/get_test.c *)

(** get_test.c:18-167 get_test_existing: the file with the tag, and
    extra/album_cover.png. *)
Definition get_test_existing (cover f : file) : outcome bool :=
  let* tag := ID3v2_read_tag f in
  let* artist := to_unicode "Ethereal Darkness" in
  assert! assert_text ID3v2_Tag_get_artist_frame tag ID3v2_ARTIST_FRAME_ID artist in
  let* album := to_unicode "Smoke And Shadows" in
  assert! assert_text ID3v2_Tag_get_album_frame tag ID3v2_ALBUM_FRAME_ID album in
  let* title := to_unicode "Rivers" in
  assert! assert_text ID3v2_Tag_get_title_frame tag ID3v2_TITLE_FRAME_ID title in
  assert! assert_text ID3v2_Tag_get_track_frame tag ID3v2_TRACK_FRAME_ID (clit "1") in
  let* album_artist := to_unicode "Ethereal Darkness" in
  assert! assert_text ID3v2_Tag_get_album_artist_frame tag ID3v2_ALBUM_ARTIST_FRAME_ID album_artist in
  let* genre := to_unicode "Melodic Death Metal" in
  assert! assert_text ID3v2_Tag_get_genre_frame tag ID3v2_GENRE_FRAME_ID genre in
  assert! assert_text ID3v2_Tag_get_year_frame tag ID3v2_YEAR_FRAME_ID (clit "2019") in
  assert! assert_text ID3v2_Tag_get_disc_number_frame tag ID3v2_DISC_NUMBER_FRAME_ID (clit "1") in
  let* composer := to_unicode "Composer" in
  assert! assert_text ID3v2_Tag_get_composer_frame tag ID3v2_COMPOSER_FRAME_ID composer in
  let* comment := to_unicode "This is a comment" in
  let* short_description := to_unicode "" in
  let expected := mkCommentInput NO_FLAGS (clit "eng") short_description comment in
  let* p := ID3v2_Tag_get_comment_frame tag in
  assert! assert_comment_frame (the_frame p) expected in
  let* comments := ID3v2_Tag_get_comment_frames tag in
  let* first := head_frame comments in
  assert! assert_comment_frame first expected in
  let* (size, data) := load_picture cover in
  let* p := ID3v2_Tag_get_album_cover_frame tag in
  assert! assert_apic_frame (the_frame p) (mkApicInput NO_FLAGS ID3v2_MIME_TYPE_PNG (clit "") x03 size data) in
  Ok true.

(** get_test.c:169-178 get_test_empty. *)
Definition get_test_empty (no_tag_mp3 empty_mp3 : file) : outcome bool :=
  let* no_tag := ID3v2_read_tag no_tag_mp3 in
  assert! Ok (match no_tag with None => true | Some _ => false end) in
  let* empty_tag := ID3v2_read_tag empty_mp3 in
  assert! Ok (match empty_tag with None => true | Some _ => false end) in
  Ok true.

(** ** test/set_test.c *)

(** set_test.c:28-33, delete_test.c:26-31. *)
Definition or_new (tag : option Tag) : Tag :=
  match tag with
  | Some t => t
  | None => ID3v2_Tag_new_empty
  end.

(** set_test.c:23-247 edit_test: the original file and the picture. *)
Definition edit_test (cover original : file) : outcome bool :=
  let* file := clone_file original in
  let* tag := ID3v2_read_tag file in
  let tag := or_new tag in
  let* artist := to_unicode "Artist" in
  let* album := to_unicode "Album" in
  let* title := to_unicode "Title" in
  let* album_artist := to_unicode "Album Artist" in
  let* genre := to_unicode "Genre" in
  let* composer := to_unicode "Writter" in
  let* comment := to_unicode "Comment" in
  let* short_desc := to_unicode "Short Description" in
  let other_comment := mkCommentInput NO_FLAGS (clit "eng") short_desc comment in
  let* tag := run_calls tag
    [SetArtist artist; SetAlbum album; SetTitle title; SetTrack (clit "00"); SetAlbumArtist album_artist;
     SetGenre genre; SetYear (clit "0000"); SetDiscNumber (clit "00"); SetComposer composer;
     SetComment (clit "eng") comment; AddCommentFrame other_comment] in
  let* (size, data) := load_picture cover in
  let* description := to_unicode "Description" in
  let other_cover := mkApicInput NO_FLAGS ID3v2_MIME_TYPE_PNG description ID3v2_PIC_TYPE_FRONT_COVER size data in
  let* tag := run_calls tag [SetAlbumCover ID3v2_MIME_TYPE_PNG size data; AddApicFrame other_cover] in
  let* (file, _) := ID3v2_write_tag file (Some tag) in
  let* edited := ID3v2_read_tag file in
  assert! Ok (match edited with Some _ => true | None => false end) in
  assert! assert_text ID3v2_Tag_get_artist_frame edited ID3v2_ARTIST_FRAME_ID artist in
  assert! assert_text ID3v2_Tag_get_album_frame edited ID3v2_ALBUM_FRAME_ID album in
  assert! assert_text ID3v2_Tag_get_title_frame edited ID3v2_TITLE_FRAME_ID title in
  assert! assert_text ID3v2_Tag_get_track_frame edited ID3v2_TRACK_FRAME_ID (clit "00") in
  assert! assert_text ID3v2_Tag_get_album_artist_frame edited ID3v2_ALBUM_ARTIST_FRAME_ID album_artist in
  assert! assert_text ID3v2_Tag_get_genre_frame edited ID3v2_GENRE_FRAME_ID genre in
  assert! assert_text ID3v2_Tag_get_year_frame edited ID3v2_YEAR_FRAME_ID (clit "0000") in
  assert! assert_text ID3v2_Tag_get_disc_number_frame edited ID3v2_DISC_NUMBER_FRAME_ID (clit "00") in
  assert! assert_text ID3v2_Tag_get_composer_frame edited ID3v2_COMPOSER_FRAME_ID composer in
  let* p := ID3v2_Tag_get_comment_frame edited in
  assert! assert_comment_frame (the_frame p) (mkCommentInput NO_FLAGS (clit "eng") EMPTY_UNICODE_STR comment) in
  let* comments := ID3v2_Tag_get_comment_frames edited in
  let* second := second_frame comments in
  assert! assert_comment_frame second other_comment in
  let* p := ID3v2_Tag_get_album_cover_frame edited in
  assert! assert_apic_frame (the_frame p)
    (mkApicInput NO_FLAGS ID3v2_MIME_TYPE_PNG EMPTY_UNICODE_STR ID3v2_PIC_TYPE_FRONT_COVER size data) in
  let* apics := ID3v2_Tag_get_apic_frames edited in
  let* second := second_frame apics in
  assert! assert_apic_frame second other_cover in
  Ok true.

(** ** test/delete_test.c *)

(** delete_test.c:21-78 delete_test_main. *)
Definition delete_test (original : file) : outcome bool :=
  let* file := clone_file original in
  let* tag := ID3v2_read_tag file in
  let tag := or_new tag in
  let* tag := run_calls tag
    [DeleteFrame ID3v2_ALBUM_FRAME_ID; DeleteArtist; DeleteAlbumArtist; DeleteCommentFrame 0; DeleteComposer;
     DeleteDiscNumber; DeleteGenre; DeleteTitle; DeleteTrack; DeleteYear; DeleteAlbumCover] in
  let* (file, _) := ID3v2_write_tag file (Some tag) in
  let* edited := ID3v2_read_tag file in
  assert! Ok (match edited with Some _ => true | None => false end) in
  let* t := deref edited in
  assert! Ok (th_tag_size (t_header t) =? to_u32 (t_padding t)) in
  assert! assert_none ID3v2_Tag_get_artist_frame edited in
  assert! assert_none ID3v2_Tag_get_album_frame edited in
  assert! assert_none ID3v2_Tag_get_title_frame edited in
  assert! assert_none ID3v2_Tag_get_track_frame edited in
  assert! assert_none ID3v2_Tag_get_album_artist_frame edited in
  assert! assert_none ID3v2_Tag_get_genre_frame edited in
  assert! assert_none ID3v2_Tag_get_year_frame edited in
  assert! assert_none ID3v2_Tag_get_disc_number_frame edited in
  assert! assert_none ID3v2_Tag_get_composer_frame edited in
  assert! assert_none ID3v2_Tag_get_comment_frame edited in
  assert! assert_none ID3v2_Tag_get_album_cover_frame edited in
  let* file := ID3v2_delete_tag file in
  let* deleted := ID3v2_read_tag file in
  assert! Ok (match deleted with None => true | Some _ => false end) in
  Ok true.

(** ** test/compat_test.c *)

(** content = parse_text_frame_content(get(tag)); assert(memcmp(content->data,
    text, n) == 0). *)
Definition assert_content (get : option ctag -> outcome (option cframe)) (tag : ctag) (text : cptr) (n : Z) : outcome bool :=
  let* f := get (Some tag) in
  let* c := parse_text_frame_content (t_frames (ct_tag tag)) f in
  memcmp_is_0 (Some (tc_data c)) text n.

(** compat_test.c:23-111 compat_test_main.  load_tag does not return NULL
    (C61_load), so new_tag is not called. *)
Definition compat_test (original : file) : outcome bool :=
  let* file := clone_file original in
  let* tag := load_tag file in
  let* album := to_unicode "Smoke And Shadows" in
  let* artist := to_unicode "Ethereal Darkness" in
  let* title := to_unicode "Rivers" in
  let* n := ID3v2_strlent (clit "Smoke And Shadows") in
  assert! assert_content tag_get_album tag album n in
  let* n := ID3v2_strlent (clit "Ethereal Darkness") in
  assert! assert_content tag_get_artist tag artist n in
  let* n := ID3v2_strlent (clit "Rivers") in
  assert! assert_content tag_get_title tag title n in
  assert! assert_content tag_get_year tag (clit "2019") 4 in
  let* tag := tag_set_album (clit "Album") x00 (Some tag) in
  let* tag := tag_set_artist (clit "Artist") x00 (Some tag) in
  let* tag := tag_set_title (clit "Title") x00 (Some tag) in
  let* tag := tag_set_year (clit "0000") x00 (Some tag) in
  let* (file, tag) := set_tag file (Some tag) in
  let* _ := free_tag (Some tag) in
  let* tag := load_tag file in
  let* n := ID3v2_strlent (clit "Album") in
  assert! assert_content tag_get_album tag (clit "Album") n in
  let* n := ID3v2_strlent (clit "Artist") in
  assert! assert_content tag_get_artist tag (clit "Artist") n in
  let* n := ID3v2_strlent (clit "Title") in
  assert! assert_content tag_get_title tag (clit "Title") n in
  assert! assert_content tag_get_year tag (clit "0000") 4 in
  let* _ := free_tag (Some tag) in
  Ok true.

(** ** test/main_test.c *)

(** The files in test/extra/. *)
Record extra := mkExtra { file_mp3 : file; no_tag_mp3 : file; empty_mp3 : file; album_cover_png : file }.

(** main_test.c:17-23 main. *)
Definition main_test (x : extra) : outcome bool :=
  assert! get_test_existing (album_cover_png x) (file_mp3 x) in
  assert! get_test_empty (no_tag_mp3 x) (empty_mp3 x) in
  assert! edit_test (album_cover_png x) (file_mp3 x) in
  assert! delete_test (file_mp3 x) in
  assert! compat_test (file_mp3 x) in
  Ok true.
