(** Properties of every session with a tagged file, whatever is edited: C86. *)
From Coq Require Import Lia.
From Verif Require Import File Calls Spec SpecEdit SpecFile SpecRead SpecSession SpecRewrite SpecHole SpecTotal TotalFacts TotalFileFacts Samples.
From Verif Require PropsRewrite.

(** ** C86 *)

(** Saving any tag of well formed frames: the file that is written, or that the
    process ends, or that the behaviour is undefined. *)
Theorem C86_save : forall content t s fs major minor flags n ext,
  tag_holds t s -> seen s = map frame_of fs -> Forall (fun f => frame_ok f = true) fs ->
  t_header t = mkTH (lit "ID3") major minor flags n ext -> 0 <= n < 2 ^ 32 ->
  announces_extended content = false -> 2048 - 2 ^ 31 < t_padding t < 2 ^ 31 ->
  match save_ending fs (has_hole s) n with
  | Saved gs => exists f, ID3v2_write_tag (Some content) (Some t) = Ok (f, Some (padded t))
                  /\ written major minor flags n gs (audio content) f
  | Exits => ID3v2_write_tag (Some content) (Some t) = Exit 1
  | Undefined => exists u, ID3v2_write_tag (Some content) (Some t) = Ub u
  end.
Proof. exact save_total. Qed.
Print Assumptions C86_save.

(** A tagged file is read, edited in any way and saved. *)
Theorem C86_session : forall major minor flags fs pad sound cs es,
  known_version major = true -> has_extended_header flags = false ->
  Forall (fun f => frame_ok f = true /\ readable f = true) fs ->
  0 <= pad -> frames_size fs + pad < 2 ^ 28 ->
  Forall2 means cs es -> forallb edit_ok es = true ->
  let content := tagged_file major minor flags fs pad sound in
  match edit_shelves es (whole (map frame_of fs)) with
  | None => run_session cs (Some content) = Ub NullDeref
  | Some (s, d) =>
      let n := (frames_size fs + pad + d) mod 2 ^ 32 in
      exists fs', seen s = map frame_of fs' /\ Forall (fun f => frame_ok f = true) fs'
        /\ match save_ending fs' (has_hole s) n with
           | Saved gs => exists f, run_session cs (Some content) = Ok f /\ written major minor flags n gs sound f
           | Exits => run_session cs (Some content) = Exit 1
           | Undefined => exists u, run_session cs (Some content) = Ub u
           end
  end.
Proof. exact total_session. Qed.
Print Assumptions C86_session.

(** Exactly the sessions that come back. *)
Theorem C86_returns : forall major minor flags fs pad sound cs es,
  known_version major = true -> has_extended_header flags = false ->
  Forall (fun f => frame_ok f = true /\ readable f = true) fs ->
  0 <= pad -> frames_size fs + pad < 2 ^ 28 ->
  Forall2 means cs es -> forallb edit_ok es = true ->
  let content := tagged_file major minor flags fs pad sound in
  (exists f, run_session cs (Some content) = Ok f)
  <-> exists s d, edit_shelves es (whole (map frame_of fs)) = Some (s, d)
        /\ (seen s = [] \/ behind s = None)
        /\ bytes_needed (seen s) <= (frames_size fs + pad + d) mod 2 ^ 32 < 2 ^ 31 - 10.
Proof. exact total_returns. Qed.
Print Assumptions C86_returns.

(** Any file: one without a tag, one whose tag cannot be read, and one in which
    a tag is seen.  A frame that the end of the file cuts off (C59) and that is
    still seen after the edits keeps the tag from being saved. *)
Theorem C86_no_tag : forall content cs, file_read content None -> run_session cs (Some content) = Ok (Some content).
Proof. exact total_no_tag. Qed.
Print Assumptions C86_no_tag.

Theorem C86_unreadable : forall content cs,
  (forall r, ~ file_read content r) -> exists u, run_session cs (Some content) = Ub u.
Proof. exact total_unreadable. Qed.
Print Assumptions C86_unreadable.

Theorem C86_file : forall content h gs pad cs es,
  file_read content (Some (h, gs, pad)) -> Forall sane gs ->
  Forall2 means cs es -> forallb edit_ok es = true ->
  match edit_shelves es (whole gs) with
  | None => run_session cs (Some content) = Ub NullDeref
  | Some (s, d) =>
      let n := (th_tag_size h + d) mod 2 ^ 32 in
      (exists fs, seen s = map frame_of fs /\ Forall (fun f => frame_ok f = true) fs
        /\ match save_ending fs (has_hole s) n with
           | Saved fs => exists f, run_session cs (Some content) = Ok f
                           /\ written (th_major h) (th_minor h) (th_flags h) n fs (audio content) f
           | Exits => run_session cs (Some content) = Exit 1
           | Undefined => exists u, run_session cs (Some content) = Ub u
           end)
      \/ (Exists cut_frame (seen s)
          /\ ((exists u, run_session cs (Some content) = Ub u)
              \/ (has_hole s = true /\ run_session cs (Some content) = Exit 1)))
  end.
Proof. exact total_file. Qed.
Print Assumptions C86_file.

(** A title and a comment, ten bytes of padding.  The comment is deleted: the
    process ends.  The title is deleted as well: a tag without frames is saved,
    though an artist was set in between.  The comment is deleted twice: NULL is
    dereferenced.  An artist is added: it just fits; a genre as well: the tag is
    overrun. *)
Definition two := [title; comment1].
Definition song : file := Some (tagged_file x03 x00 x00 two 10 (lit "sound")).
Definition set_someone : call := SetArtist (Some (cells (text_image (Iso (lit "Someone"))))).
Definition set_genre : call := SetGenre (Some (cells (text_image (Iso (lit "Jazz"))))).
Definition someone : fspec := FText (lit "TPE1") [x00; x00] (Iso (lit "Someone")).

Example C86_applies :
  Forall (fun f => frame_ok f = true /\ readable f = true) two
  /\ Forall2 means [DeleteComment; set_someone; DeleteTitle] [Remove (lit "COMM"); Put someone; Remove (lit "TIT2")]
  /\ forallb edit_ok [Remove (lit "COMM"); Put someone; Remove (lit "TIT2")] = true
  /\ (exists d, edit_shelves [Remove (lit "COMM")] (whole (map frame_of two)) = Some (mkShelf (map frame_of [title]) (Some []), d))
  /\ (exists d, edit_shelves [Remove (lit "COMM"); Put someone; Remove (lit "TIT2")] (whole (map frame_of two))
                = Some (mkShelf [] (Some [frame_of someone]), d))
  /\ edit_shelves [Remove (lit "COMM"); Remove (lit "COMM")] (whole (map frame_of two)) = None.
Proof.
  split; [repeat constructor|].
  split. { constructor; [constructor|]. constructor; [apply MArtist, points_to_exact|]. constructor; [constructor|constructor]. }
  split; [vm_compute; reflexivity|].
  split; [eexists; vm_compute; reflexivity|]. split; [eexists; vm_compute; reflexivity|]. vm_compute. reflexivity.
Qed.

Example C86_applies_runs :
  run_session [DeleteComment] song = Exit 1
  /\ run_session [DeleteComment; DeleteComment] song = Ub NullDeref
  /\ run_session [DeleteComment; set_someone; DeleteTitle] song
     = Ok (Some (tag_bytes x03 x00 x00 (10 + body_size someone) [] ++ lit "sound"))
  /\ run_session [set_someone] song
     = Ok (Some (tag_bytes x03 x00 x00 (frames_size [title; comment1; someone]) [title; comment1; someone] ++ lit "sound"))
  /\ run_session [set_someone; set_genre] song = Ub OobWrite.
Proof. repeat split; vm_compute; reflexivity. Qed.

(** A file that ends within its cover (C59): deleting the cover leaves a hole,
    deleting the title leaves the cover, deleting an artist dereferences NULL. *)
Example C86_applies_file :
  let fs := PropsRewrite.cover_frames in
  file_read PropsRewrite.short_cover (Some (mkTH (lit "ID3") x03 x00 x00 67 0, fs, 5)) /\ Forall sane fs
  /\ option_map fst (edit_shelves [Remove (lit "APIC")] (whole fs)) = Some (mkShelf (firstn 1 fs) (Some []))
  /\ option_map fst (edit_shelves [Remove (lit "TIT2")] (whole fs)) = Some (mkShelf [PropsRewrite.cut_cover] None)
  /\ run_session [DeleteAlbumCover] (Some PropsRewrite.short_cover) = Exit 1
  /\ run_session [DeleteTitle] (Some PropsRewrite.short_cover) = Ub UninitRead
  /\ run_session [DeleteArtist] (Some PropsRewrite.short_cover) = Ub NullDeref.
Proof.
  destruct PropsRewrite.C59_edit_any_applies as (R & S & _).
  split; [exact R|]. split; [exact S|]. repeat (split; [vm_compute; reflexivity|]). vm_compute. reflexivity.
Qed.
