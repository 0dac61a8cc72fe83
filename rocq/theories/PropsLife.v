(** The life of a tagged file: C89. *)
From Verif Require Import File Calls Spec SpecEdit SpecFile SpecSession SpecHole SpecTotal SpecSaves SpecLife LifeFacts Samples.

(** ** C89 *)

(** Sessions with any edits and deletions of the tag, in any order, on a file
    of the library's own making: the file at the end, or that the process ends,
    or that the behaviour is undefined.  Up to there the sound is the same. *)
Theorem C89_life : forall major minor flags sound,
  known_version major = true -> has_extended_header flags = false -> no_tag sound ->
  forall steps ws, Forall2 asks steps ws -> forallb (wish_keeps major) ws = true ->
  forall fs n, Forall (fun f => survives major f = true) fs -> frames_size fs <= n -> n + growth ws < 2 ^ 28 ->
  match life ws (Some (map frame_of fs, n)) with
  | Lives (Some (gs, m)) => exists fs', gs = map frame_of fs' /\ Forall (fun f => survives major f = true) fs'
      /\ frames_size fs' <= m < 2 ^ 28
      /\ run_life steps (Some (tag_bytes major minor flags n fs ++ sound)) = Ok (Some (tag_bytes major minor flags m fs' ++ sound))
  | Lives None => run_life steps (Some (tag_bytes major minor flags n fs ++ sound)) = Ok (Some sound)
  | Quits => run_life steps (Some (tag_bytes major minor flags n fs ++ sound)) = Exit 1
  | Breaks => exists u, run_life steps (Some (tag_bytes major minor flags n fs ++ sound)) = Ub u
  end.
Proof. exact whole_life. Qed.
Print Assumptions C89_life.

(** Once the tag is deleted, nothing brings one back: sessions do nothing. *)
Theorem C89_bare : forall sound, no_tag sound -> forall steps ws, Forall2 asks steps ws ->
  run_life steps (Some sound) = Ok (Some sound) /\ life ws None = Lives None.
Proof. exact bare_life. Qed.
Print Assumptions C89_bare.

(** A title and a comment, with thirty bytes of room.  Two sessions set the
    artist and the artist again; a third deletes the title; a fourth deletes
    all that is left but one, and that one in a fifth.  An artist is set in
    the tag without frames; then the tag is deleted, and a session is lost. *)
Definition set_to (s : list byte) : call := SetArtist (Some (cells (text_image (Iso s)))).
Definition artist_is (s : list byte) : edit := Put (FText (lit "TPE1") [x00; x00] (Iso s)).
Definition stay : list step :=
  [Visit [set_to (lit "X")]; Visit [set_to (lit "Someone")]; Visit [DeleteTitle]; Visit [DeleteComment]; Visit [DeleteArtist]; Visit [set_to (lit "Y")]].
Definition stay_wishes : list wish :=
  [Edit [artist_is (lit "X")]; Edit [artist_is (lit "Someone")]; Edit [Remove (lit "TIT2")]; Edit [Remove (lit "COMM")]; Edit [Remove (lit "TPE1")];
   Edit [artist_is (lit "Y")]].

Lemma stay_asks : Forall2 asks stay stay_wishes.
Proof.
  repeat (apply Forall2_cons; [cbn [asks]; (apply Forall2_cons; [first [apply MArtist, points_to_exact|constructor]|apply Forall2_nil])|]). apply Forall2_nil.
Qed.

Definition two : list fspec := [title; comment1].
Definition room : Z := frames_size two + 30.

Example C89_applies :
  no_tag (lit "sound") /\ Forall (fun f => survives x03 f = true) two /\ Forall (fun f => survives x04 f = true) two
  /\ forallb (wish_keeps x03) stay_wishes = true /\ (room + growth stay_wishes <? 2 ^ 28) = true
  /\ life stay_wishes (Some (map frame_of two, room)) = Lives (Some ([frame_of (FText (lit "TPE1") [x00; x00] (Iso (lit "Y")))], 23))
  /\ life (stay_wishes ++ [Strip; Edit [Remove (lit "TIT2")]]) (Some (map frame_of two, room)) = Lives None
  /\ life (Edit [] :: Edit [Remove (lit "COMM")] :: stay_wishes) (Some (map frame_of two, room)) = Quits
  /\ life [Edit []; Edit [Remove (lit "TPE2")]] (Some (map frame_of two, room)) = Breaks
  /\ life [Edit [artist_is (lit "X")]; Edit [Append comment1]; Edit [Append comment1]; Edit [Append comment1]] (Some (map frame_of two, room)) = Breaks.
Proof.
  split; [reflexivity|]. split; [repeat constructor|]. split; [repeat constructor|]. split; [reflexivity|]. split; [reflexivity|].
  do 4 (split; [vm_compute; reflexivity|]). vm_compute. reflexivity.
Qed.

Example C89_applies_runs :
  let file := Some (tag_bytes x03 x00 x00 room two ++ lit "sound") in
  Forall2 asks stay stay_wishes
  /\ run_life stay file = Ok (Some (tag_bytes x03 x00 x00 23 [FText (lit "TPE1") [x00; x00] (Iso (lit "Y"))] ++ lit "sound"))
  /\ run_life (stay ++ [Erase; Visit [DeleteTitle]]) file = Ok (Some (lit "sound"))
  /\ run_life [Visit []; Visit [DeleteComment]] file = Exit 1
  /\ run_life [Visit []; Visit [DeleteAlbumArtist]] file = Ub NullDeref.
Proof.
  split; [exact stay_asks|]. do 3 (split; [vm_compute; reflexivity|]). vm_compute. reflexivity.
Qed.

(** In a v2.4 tag a title of 300 bytes is not kept: the second session does not
    find it (C30), though the first did. *)
Example C89_hypothesis_needed :
  let long := FText (lit "TIT2") [x00; x00] (Iso (repeat "a"%byte 300)) in
  let file := Some (tagged_file x04 x00 x00 [long] 30 (lit "sound")) in
  survives x04 long = false /\ survives x03 long = true
  /\ (exists c, run_life [Visit [DeleteTitle]] file = Ok c)
  /\ (exists u, run_life [Visit []; Visit [DeleteTitle]] file = Ub u).
Proof.
  split; [reflexivity|]. split; [reflexivity|]. split; [eexists; vm_compute; reflexivity|]. eexists; vm_compute; reflexivity.
Qed.
