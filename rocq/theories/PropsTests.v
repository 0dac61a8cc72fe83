(** Properties of the test programs of the library: C72, C73, C74, C75, C76. *)
From Verif Require Import Tests Spec SpecEdit SpecFile SpecRead SpecSession SpecTests.
From Verif Require Import ClaimFacts TestFacts TestRunFacts TestEditFacts TestLargeFacts TestDeleteFacts TestCompatFacts TestMainFacts.
From Coq Require Import Lia Permutation.

(** C72: what the assertions say about a frame *)

Theorem C72_text : forall x id fl s i f t,
  frame_ok (FText i f t) = true -> frame_ok x = true ->
  points_to id i -> points_to fl f -> points_to s (text_image t) ->
  exists b, assert_text_frame (Some (frame_of x)) (mkTextInput id fl s) = Ok b /\ (b = true <-> x = FText i f t).
Proof. exact text_says. Qed.
Print Assumptions C72_text.

Theorem C72_comment : forall x fl la sd co f l d c,
  frame_ok (FComment f l d c) = true -> frame_ok x = true ->
  points_to fl f -> points_to la l -> points_to sd (text_image d) -> points_to co (text_image c) ->
  exists b, assert_comment_frame (Some (frame_of x)) (mkCommentInput fl la sd co) = Ok b /\ (b = true <-> x = FComment f l d c).
Proof. exact comment_says. Qed.
Print Assumptions C72_comment.

Theorem C72_picture : forall x fl mi de ty da f m ty' d pic,
  frame_ok (FPicture f m ty' d pic) = true -> frame_ok x = true ->
  points_to fl f -> points_to mi (text_image m) -> points_to de (text_image d) -> points_to da pic ->
  exists b, assert_apic_frame (Some (frame_of x)) (mkApicInput fl mi de ty (zlen pic) da) = Ok b
    /\ (b = true <-> exists any, x = FPicture f m any d pic).
Proof. exact picture_says. Qed.
Print Assumptions C72_picture.

(** The picture type is not looked at: the assertion that names type 3 holds of
    a picture of type 7, and not of one with another description. *)
Example C72_applies :
  let p ty d := FPicture [x00; x00] (narrow "image/png") ty d (lit "PNG") in
  let says x := assert_apic_frame (Some (frame_of x))
    (mkApicInput (Some (cells [x00; x00])) (Some (cells (text_image (narrow "image/png")))) (Some (cells (text_image (wide "a"))))
          x03 3 (Some (cells (lit "PNG")))) in
  frame_ok (p x03 (wide "a")) = true /\ frame_ok (p x07 (wide "a")) = true
  /\ says (p x07 (wide "a")) = Ok true /\ says (p x03 (wide "b")) = Ok false
  /\ says (plain_text "TIT2" (wide "a")) = Ok false.
Proof. vm_compute. repeat split. Qed.

Example C72_text_applies :
  let says x := assert_text_frame (Some (frame_of x))
    (mkTextInput (Some (cells (lit "TIT2"))) (Some (cells [x00; x00])) (Some (cells (text_image (wide "Title"))))) in
  says (plain_text "TIT2" (wide "Title")) = Ok true /\ says (plain_text "TIT2" (narrow "Title")) = Ok false
  /\ says (plain_text "TALB" (wide "Title")) = Ok false /\ says (png x03 (wide "Title") (lit "PNG")) = Ok false.
Proof. vm_compute. repeat split. Qed.

Example C72_comment_applies :
  let says x := assert_comment_frame (Some (frame_of x))
    (mkCommentInput (Some (cells [x00; x00])) (Some (cells (lit "eng"))) (Some (cells (text_image (wide ""))))
          (Some (cells (text_image (wide "Comment"))))) in
  says new_comment = Ok true /\ says other_comment = Ok false
  /\ says (FComment [x00; x00] (lit "fra") (wide "") (wide "Comment")) = Ok false.
Proof. vm_compute. repeat split. Qed.

(** C73: when the programs that read and set tags pass *)

Theorem C73_get : forall cover content h gs pad,
  file_read content (Some (h, gs, pad)) -> Forall sane gs -> zlen cover < 2 ^ 28 ->
  (get_test_existing (Some cover) (Some content) = Ok true
   <-> exists ptype, Forall (fun f => find (named (frame_id f)) gs = Some (frame_of f)) (song ptype cover)).
Proof. exact get_existing. Qed.
Print Assumptions C73_get.

Theorem C73_get_untagged : forall cover f, untagged f -> get_test_existing cover f = Ub NullDeref.
Proof. exact get_untagged. Qed.
Print Assumptions C73_get_untagged.

Theorem C73_get_unread : forall cover content,
  (forall r, ~ file_read content r) -> exists u, get_test_existing cover (Some content) = Ub u.
Proof. exact get_unread. Qed.
Print Assumptions C73_get_unread.

Theorem C73_get_empty : forall a b, get_test_empty a b = Ok true <-> untagged a /\ untagged b.
Proof. exact get_empty. Qed.
Print Assumptions C73_get_empty.

Theorem C73_edit : forall major minor flags fs pad sound cover,
  known_version major = true -> has_extended_header flags = false ->
  Forall (fun f => survives major f = true) (fs ++ set_frames_of cover) ->
  0 <= pad -> frames_size fs + pad < 2 ^ 28 -> frames_size (edited (set_edits cover) fs) + pad < 2 ^ 28 ->
  let original := Some (tagged_file major minor flags fs pad sound) in
  if pad <? 10 * (2 + missing cover fs)
  then exists u, edit_test (Some cover) original = Ub u
  else exists b, edit_test (Some cover) original = Ok b
    /\ (b = true
        <-> (second "COMM" fs = None \/ second "COMM" fs = Some other_comment)
            /\ (second "APIC" fs = None \/ exists any, second "APIC" fs = Some (other_cover any cover))).
Proof. exact edit_tagged. Qed.
Print Assumptions C73_edit.

(** In a v2.4 tag, covers of 256 bytes and more are not read back. *)
Theorem C73_edit_large : forall minor flags fs pad sound cover,
  has_extended_header flags = false ->
  Forall (fun f => frame_ok f = true /\ readable f = true) fs ->
  Forall (fun f => titled (lit "APIC") f = true \/ survives x04 f = true) fs ->
  0 <= pad -> frames_size fs + pad < 2 ^ 28 -> frames_size (edited (set_edits cover) fs) + pad < 2 ^ 28 ->
  256 <= body_size (new_cover cover) \/ 256 <= body_size (other_cover x03 cover) /\ second "APIC" fs = None ->
  edit_test (Some cover) (Some (tagged_file x04 minor flags fs pad sound)) <> Ok true.
Proof. exact edit_large. Qed.
Print Assumptions C73_edit_large.

Theorem C73_edit_untagged : forall cover content,
  untagged (Some content) -> zlen cover < 2 ^ 28 -> exists u, edit_test (Some cover) (Some content) = Ub u.
Proof. exact edit_untagged. Qed.
Print Assumptions C73_edit_untagged.

(** The file test/extra/file.mp3 could be, with a picture of three bytes. *)
Definition disc : list byte := lit "PNG".
Definition the_song (major : byte) (fs : list fspec) (pad : Z) : list byte :=
  tagged_file major x00 x00 fs pad [xff; xfb].

Example C73_get_applies :
  let content := the_song x04 (rev (song x07 disc)) 30 in
  (exists h, file_read content (Some (h, map frame_of (rev (song x07 disc)), 30)))
  /\ Forall sane (map frame_of (rev (song x07 disc)))
  /\ get_test_existing (Some disc) (Some content) = Ok true
  /\ get_test_existing (Some (lit "GIF")) (Some content) = Ok false
  /\ get_test_existing (Some disc) (Some (the_song x04 (tl (song x07 disc)) 30)) = Ub NullDeref.
Proof.
  cbn zeta.
  assert (S : Forall (fun f => frame_ok f = true /\ readable f = true) (rev (song x07 disc))).
  { apply Forall_rev. repeat (apply Forall_cons; [split; vm_compute; reflexivity|]). apply Forall_nil. }
  split.
  { eexists. apply tagged_file_read; [reflexivity|reflexivity|exact S|lia|vm_compute; reflexivity]. }
  split.
  { apply Forall_map. revert S. apply Forall_impl. intros f [K _]. now apply frame_of_sane. }
  split; [vm_compute; reflexivity|]. split; vm_compute; reflexivity.
Qed.

(** Padding for the headers of the added comment and the added cover is needed,
    and a file that already has a second comment gets a third. *)
Example C73_edit_applies :
  let fs := song x07 disc in
  Forall (fun f => survives x03 f = true) (fs ++ set_frames_of disc) /\ missing disc fs = 0
  /\ edit_test (Some disc) (Some (the_song x03 fs 20)) = Ok true
  /\ edit_test (Some disc) (Some (the_song x03 fs 19)) = Ub OobWrite
  /\ edit_test (Some disc) (Some (the_song x03 (fs ++ [english (wide "") (wide "again")]) 20)) = Ok false
  /\ missing disc (tl fs) = 1
  /\ edit_test (Some disc) (Some (the_song x03 (tl fs) 30)) = Ok true.
Proof.
  cbn zeta. split; [repeat (apply Forall_cons; [vm_compute; reflexivity|]); apply Forall_nil|].
  split; [vm_compute; reflexivity|]. split; [vm_compute; reflexivity|]. split; [vm_compute; reflexivity|].
  split; [vm_compute; reflexivity|]. split; vm_compute; reflexivity.
Qed.

Example C73_edit_large_applies :
  let run n := edit_test (Some (repeat x01 n)) (Some (the_song x04 (song x07 (repeat x01 n)) 30)) in
  body_size (new_cover (repeat x01 240)) = 256 /\ body_size (other_cover x03 (repeat x01 218)) = 256
  /\ second "APIC" (song x07 (repeat x01 218)) = None
  /\ run 217%nat = Ok true /\ run 218%nat = Ok false /\ run 240%nat = Ub NullDeref.
Proof.
  cbn zeta. split; [vm_compute; reflexivity|]. split; [vm_compute; reflexivity|]. split; [vm_compute; reflexivity|].
  split; [vm_compute; reflexivity|]. split; vm_compute; reflexivity.
Qed.

Example C73_untagged_applies :
  untagged None /\ untagged (Some []) /\ untagged (Some [xff; xfb])
  /\ edit_test (Some disc) (Some [xff; xfb]) = Ub OobWrite.
Proof.
  split; [exact I|]. split; [apply untagged_read; vm_compute; reflexivity|].
  split; [apply untagged_read; vm_compute; reflexivity|vm_compute; reflexivity].
Qed.

(** C74: when the program that deletes frames passes *)

Theorem C74_misses : forall major minor flags fs pad sound,
  known_version major = true -> has_extended_header flags = false ->
  Forall (fun f => frame_ok f = true /\ readable f = true) fs ->
  0 <= pad -> frames_size fs + pad < 2 ^ 28 ->
  forall id, In id deleted_ids -> ~ In id (map frame_id fs) ->
  delete_test (Some (tagged_file major minor flags fs pad sound)) = Ub NullDeref.
Proof. exact delete_misses. Qed.
Print Assumptions C74_misses.

Theorem C74_exactly : forall major minor flags fs pad sound,
  known_version major = true -> has_extended_header flags = false ->
  Forall (fun f => frame_ok f = true /\ readable f = true) fs ->
  0 <= pad -> frames_size fs + pad < 2 ^ 28 ->
  (delete_test (Some (tagged_file major minor flags fs pad sound)) = Ok true
   <-> just_those fs /\ untagged (Some sound)).
Proof. exact delete_exactly. Qed.
Print Assumptions C74_exactly.

Theorem C74_untagged : forall original, untagged original -> delete_test original = Ub NullDeref.
Proof. exact delete_untagged. Qed.
Print Assumptions C74_untagged.

Example C74_applies :
  let fs := song x07 disc in
  let again := the_song x03 fs 30 in
  just_those [plain_text "TALB" (narrow "a"); plain_text "TPE1" (narrow "a"); plain_text "TPE2" (narrow "a");
              plain_text "TCOM" (narrow "a"); plain_text "TPOS" (narrow "a"); plain_text "TCON" (narrow "a");
              plain_text "TIT2" (narrow "a"); plain_text "TRCK" (narrow "a"); plain_text "TYER" (narrow "a");
              png x00 (narrow "") disc]
  /\ delete_test (Some (the_song x03 fs 0)) = Ok true
  /\ delete_test (Some (the_song x04 (rev fs) 30)) = Ok true
  /\ delete_test (Some (the_song x03 (tl fs) 30)) = Ub NullDeref
  /\ delete_test (Some (the_song x03 (fs ++ [FOther (lit "PRIV") [x00; x00] (lit "x")]) 30)) = Ok false
  /\ delete_test (Some (tagged_file x03 x00 x00 fs 30 again)) = Ok false.
Proof.
  cbn zeta. split; [exists []; split; [now left|apply Permutation_refl]|].
  split; [vm_compute; reflexivity|]. split; [vm_compute; reflexivity|]. split; [vm_compute; reflexivity|].
  split; vm_compute; reflexivity.
Qed.

(** C75: when the program for the version 1 interface passes *)

Theorem C75_compat : forall major minor flags fs pad sound,
  known_version major = true -> has_extended_header flags = false ->
  Forall (fun f => survives major f = true) fs -> 0 <= pad -> frames_size fs + pad < 2 ^ 28 ->
  (compat_test (Some (tagged_file major minor flags fs pad sound)) = Ok true <-> shown_before fs).
Proof. exact compat_tagged. Qed.
Print Assumptions C75_compat.

Theorem C75_untagged : forall original, untagged original -> compat_test original = Ub NullDeref.
Proof. exact compat_untagged. Qed.
Print Assumptions C75_untagged.

(** Of a text in UTF-16 only the first half is compared. *)
Example C75_applies :
  let fs := [plain_text "TALB" (wide "Smoke And the rest"); plain_text "TPE1" (wide "Ethereal too");
             plain_text "TIT2" (wide "Riv"); plain_text "TYER" (narrow "2019")] in
  shown_before fs /\ compat_test (Some (the_song x03 fs 0)) = Ok true
  /\ compat_test (Some (the_song x03 (song x07 disc) 0)) = Ok true
  /\ compat_test (Some (the_song x03 (new_texts ++ fs) 0)) = Ok false
  /\ compat_test (Some (the_song x03 (tl fs) 0)) = Ub NullDeref.
Proof.
  cbn zeta. split.
  { repeat split; do 2 eexists; split; vm_compute; reflexivity. }
  split; [vm_compute; reflexivity|]. split; [vm_compute; reflexivity|].
  split; vm_compute; reflexivity.
Qed.

(** C76: when the whole suite passes *)

Theorem C76_main : forall major minor flags fs pad sound cover,
  known_version major = true -> has_extended_header flags = false ->
  Forall (fun f => frame_ok f = true /\ readable f = true) fs ->
  0 <= pad -> frames_size fs + pad < 2 ^ 28 -> frames_size (edited (set_edits cover) fs) + pad < 2 ^ 28 ->
  forall no_tag empty, zlen cover < 2 ^ 28 ->
  (main_test (mkExtra (Some (tagged_file major minor flags fs pad sound)) no_tag empty (Some cover)) = Ok true
   <-> (exists ty, Permutation fs (song ty cover)) /\ 20 <= pad /\ (major = x03 \/ zlen cover < 218)
       /\ untagged no_tag /\ untagged empty /\ untagged (Some sound)).
Proof. exact main_tagged. Qed.
Print Assumptions C76_main.

Example C76_applies :
  let run major fs pad := main_test (mkExtra (Some (the_song major fs pad)) None (Some []) (Some disc)) in
  let fs := song x07 disc in
  run x03 fs 20 = Ok true /\ run x04 (rev fs) 30 = Ok true /\ run x03 fs 19 = Ub OobWrite
  /\ run x03 (fs ++ [FOther (lit "PRIV") [x00; x00] (lit "x")]) 20 = Ok false
  /\ main_test (mkExtra None None (Some []) (Some disc)) = Ub NullDeref
  /\ let big := repeat x01 218 in
     main_test (mkExtra (Some (the_song x03 (song x07 big) 20)) None (Some []) (Some big)) = Ok true
     /\ main_test (mkExtra (Some (the_song x04 (song x07 big) 20)) None (Some []) (Some big)) = Ok false.
Proof.
  cbn zeta. split; [vm_compute; reflexivity|]. split; [vm_compute; reflexivity|].
  repeat (split; [vm_compute; reflexivity|]). vm_compute. reflexivity.
Qed.
