(** Properties of the examples of README.md: C79, C80, C81. *)
From Verif Require Import Readme Spec SpecEdit SpecFile SpecRead SpecSession SpecTests SpecPrint SpecReadme.
From Verif Require Import ClaimFacts TestRunFacts TestMainFacts ReadmeFacts.
From Coq Require Import Lia.

(** C79: the examples that read *)

Theorem C79_load : forall content h gs pad, file_read content (Some (h, gs, pad)) -> Forall sane gs ->
  if existsb (named (lit "TPE1")) gs && existsb (named (lit "TALB")) gs
  then exists a b, load_example (Some content) = Ok (a ++ b)
         /\ shows "artist: " (lit "TPE1") gs a /\ shows "album: " (lit "TALB") gs b
  else load_example (Some content) = Ub NullDeref.
Proof. exact load_is. Qed.
Print Assumptions C79_load.

Theorem C79_new_frames : forall content h gs pad, file_read content (Some (h, gs, pad)) -> Forall sane gs ->
  if existsb (named (lit "TCOP")) gs
  then exists out, read_new_example (Some content) = Ok out /\ shows "copyright: " (lit "TCOP") gs out
  else read_new_example (Some content) = Ub NullDeref.
Proof. exact copyright_is. Qed.
Print Assumptions C79_new_frames.

Theorem C79_compat : forall content h gs pad, file_read content (Some (h, gs, pad)) -> Forall sane gs ->
  if existsb (named (lit "TALB")) gs
  then exists out, compat_example (Some content) = Ok out /\ shows "Album: " (lit "TALB") gs out
  else compat_example (Some content) = Ub NullDeref.
Proof. exact compat_is. Qed.
Print Assumptions C79_compat.

Theorem C79_untagged : forall f, untagged f ->
  load_example f = Ub NullDeref /\ edit_example f = Ub OobWrite /\ delete_example f = Ub NullDeref
  /\ read_new_example f = Ub NullDeref /\ compat_example f = Ub NullDeref.
Proof. exact without_tag. Qed.
Print Assumptions C79_untagged.

Theorem C79_unread : forall content, (forall r, ~ file_read content r) ->
  exists u, load_example (Some content) = Ub u /\ edit_example (Some content) = Ub u /\ delete_example (Some content) = Ub u
  /\ read_new_example (Some content) = Ub u /\ edit_new_example (Some content) = Ub u
  /\ exists v, compat_example (Some content) = Ub v.
Proof. exact not_read. Qed.
Print Assumptions C79_unread.

Definition some_song : list fspec :=
  [plain_text "TALB" (narrow "Album"); plain_text "TPE1" (wide "Artist"); plain_text "TCOP" (narrow "2013 Lars Ruiz")].
Definition some_file (fs : list fspec) (pad : Z) : list byte := tagged_file x03 x00 x00 fs pad [xff; xfb].

(** An artist in UTF-16 is shown up to the zero byte of its first letter. *)
Example C79_applies :
  (exists h, file_read (some_file some_song 5) (Some (h, map frame_of some_song, 5))) /\ Forall sane (map frame_of some_song)
  /\ load_example (Some (some_file some_song 5))
     = Ok [Chars (lit "artist: " ++ [xff; xfe] ++ lit "A"); Chars (lit "album: Album")]
  /\ read_new_example (Some (some_file some_song 5)) = Ok [Chars (lit "copyright: 2013 Lars Ruiz")]
  /\ compat_example (Some (some_file some_song 5)) = Ok [Chars (lit "Album: Album")]
  /\ load_example (Some (some_file (tl some_song) 5)) = Ub NullDeref
  /\ compat_example (Some (some_file (tl some_song) 5)) = Ub NullDeref
  /\ untagged (Some [xff; xfb]).
Proof.
  assert (S : Forall (fun f => frame_ok f = true /\ readable f = true) some_song).
  { repeat (apply Forall_cons; [split; vm_compute; reflexivity|]). apply Forall_nil. }
  split.
  { eexists. apply tagged_file_read; [reflexivity|reflexivity|exact S|lia|vm_compute; reflexivity]. }
  split.
  { apply Forall_map. revert S. apply Forall_impl. intros f [K _]. now apply frame_of_sane. }
  split; [vm_compute; reflexivity|]. split; [vm_compute; reflexivity|]. split; [vm_compute; reflexivity|].
  split; [vm_compute; reflexivity|]. split; [vm_compute; reflexivity|].
  apply untagged_read. vm_compute. reflexivity.
Qed.

Example C79_unread_applies :
  let content := lit "ID3" ++ [x03; x00; x40] ++ [x00; x00; x00; x0a] ++ [x00; x00; x00; x06; x00; x00; x00; x00; x00; x00] in
  forall r, ~ file_read content r.
Proof. cbn zeta. intros r (X & _). vm_compute in X. discriminate X. Qed.

(** C80: the examples that set frames *)

Theorem C80_edit : forall content major minor flags n pad fs,
  file_read content (Some (mkTH (lit "ID3") major minor flags n 0, map frame_of fs, pad)) ->
  Forall (fun f => frame_ok f = true) fs -> n + 32 < 2 ^ 28 ->
  let room := n - frames_size fs - 10 * lacking fs in
  if 0 <=? room
  then edit_example (Some content)
       = Ok (Some (tag_bytes major minor flags (frames_size (with_both fs) + room) (with_both fs) ++ audio content))
  else exists u, edit_example (Some content) = Ub u.
Proof. exact edit_is. Qed.
Print Assumptions C80_edit.

Theorem C80_new_frames : forall content h gs pad, file_read content (Some (h, gs, pad)) -> Forall sane gs ->
  exists t, edit_new_example (Some content) = Ok t
    /\ tag_has t (put (named (lit "TCOP")) (frame_of readme_copyright) gs).
Proof. exact edit_new_known. Qed.
Print Assumptions C80_new_frames.

Theorem C80_new_tag : forall f, untagged f ->
  exists t, edit_new_example f = Ok t /\ tag_has t [frame_of readme_copyright].
Proof. exact edit_new_scratch. Qed.
Print Assumptions C80_new_tag.

(** The title is new, the artist is not: ten bytes of padding are needed. *)
Example C80_applies :
  lacking some_song = 1 /\ frames_size some_song + 10 + 32 < 2 ^ 28
  /\ with_both some_song
     = [plain_text "TALB" (narrow "Album"); readme_artist; plain_text "TCOP" (narrow "2013 Lars Ruiz"); readme_title]
  /\ edit_example (Some (some_file some_song 9)) = Ub OobWrite
  /\ edit_example (Some (some_file some_song 10))
     = Ok (Some (tag_bytes x03 x00 x00 (frames_size (with_both some_song)) (with_both some_song) ++ [xff; xfb])).
Proof.
  split; [vm_compute; reflexivity|]. split; [vm_compute; reflexivity|]. split; [vm_compute; reflexivity|].
  split; vm_compute; reflexivity.
Qed.

(** C81: the example that deletes *)

Theorem C81_delete : forall content major minor flags n pad fs,
  file_read content (Some (mkTH (lit "ID3") major minor flags n 0, map frame_of fs, pad)) ->
  Forall (fun f => frame_ok f = true) fs -> n < 2 ^ 28 ->
  delete_example (Some content) = deletions major minor flags n fs (audio content).
Proof. exact delete_is. Qed.
Print Assumptions C81_delete.

Example C81_applies :
  let title := plain_text "TIT2" (narrow "Title") in
  let run fs := delete_example (Some (some_file fs 20)) in
  run some_song = Ub NullDeref
  /\ run (title :: some_song)
     = Ok (Some (tag_bytes x03 x00 x00 (20 + frames_size [plain_text "TALB" (narrow "Album"); plain_text "TCOP" (narrow "2013 Lars Ruiz")])
                           [plain_text "TALB" (narrow "Album"); plain_text "TCOP" (narrow "2013 Lars Ruiz")] ++ [xff; xfb]),
           Some [xff; xfb])
  /\ run (some_song ++ [title]) = Exit 1
  /\ run [readme_artist; title] = Ok (Some (tag_bytes x03 x00 x00 20 [] ++ [xff; xfb]), Some [xff; xfb])
  /\ deletions x03 x00 x00 (20 + frames_size [title; readme_artist; title]) [title; readme_artist; title] [xff; xfb]
     = Ok (Some (tag_bytes x03 x00 x00 (20 + frames_size [title]) [title] ++ [xff; xfb]), Some [xff; xfb]).
Proof.
  cbn zeta. split; [vm_compute; reflexivity|]. split; [vm_compute; reflexivity|]. split; [vm_compute; reflexivity|].
  split; vm_compute; reflexivity.
Qed.
