(** Both interfaces on one file: C91. *)
From Verif Require Import File Calls Spec SpecEdit SpecFile Compat SpecCompat SpecSession SpecHole SpecTotal SpecSaves SpecLife SpecBoth BothFacts Samples.
From Verif Require SessionFacts.

(** ** C91 *)

(** On any file in which well formed frames are seen, a version 1 session that
    sets frames is the session of the new interface that sets the same frames,
    whatever comes of that, if all of them are there already.  Otherwise it
    dereferences NULL. *)
Theorem C91_same : forall f t fs ccs gs,
  ID3v2_read_tag f = Ok (Some t) -> tag_has t (map frame_of fs) -> Forall (fun f => frame_ok f = true) fs ->
  Forall2 cmeans ccs gs -> forallb frame_ok gs = true ->
  if negb (length fs =? 0)%nat && all_there gs (map frame_of fs)
  then exists cs, Forall2 means cs (map Put gs) /\ run_old ccs f = run_session cs f
  else run_old ccs f = Ub NullDeref.
Proof. exact old_is_new. Qed.
Print Assumptions C91_same.

(** Sessions and deletions of the tag with either interface, in any order, on a
    file of the library's own making. *)
Theorem C91_life : forall major minor flags sound,
  known_version major = true -> has_extended_header flags = false -> no_tag sound ->
  forall steps ws, Forall2 any_asks steps ws -> forallb (wish_keeps major) (map as_wish ws) = true ->
  forall fs n, Forall (fun f => survives major f = true) fs -> frames_size fs <= n -> n + growth (map as_wish ws) < 2 ^ 28 ->
  match both_fate ws (Some (map frame_of fs, n)) with
  | Lives (Some (gs, m)) => exists fs', gs = map frame_of fs' /\ Forall (fun f => survives major f = true) fs'
      /\ frames_size fs' <= m < 2 ^ 28
      /\ run_both steps (Some (tag_bytes major minor flags n fs ++ sound)) = Ok (Some (tag_bytes major minor flags m fs' ++ sound))
  | Lives None => run_both steps (Some (tag_bytes major minor flags n fs ++ sound)) = Ok (Some sound)
  | Quits => run_both steps (Some (tag_bytes major minor flags n fs ++ sound)) = Exit 1
  | Breaks => exists u, run_both steps (Some (tag_bytes major minor flags n fs ++ sound)) = Ub u
  end.
Proof. exact both_life. Qed.
Print Assumptions C91_life.

(** On a file without a tag the new interface does nothing; the first session
    with the old one dereferences NULL. *)
Theorem C91_bare : forall sound, no_tag sound -> forall steps ws, Forall2 any_asks steps ws ->
  match both_fate ws None with
  | Lives None => run_both steps (Some sound) = Ok (Some sound)
  | Breaks => run_both steps (Some sound) = Ub NullDeref
  | _ => False
  end.
Proof. exact bare_both. Qed.
Print Assumptions C91_bare.

(** A title and a comment, with thirty bytes of room.  The old interface sets
    the title to a longer one, the new one adds an artist, which the old one
    can set then. *)
Definition word (s : list byte) : cptr := Some (cells (text_image (Iso s))).
Definition text_is (id s : list byte) : fspec := FText id [x00; x00] (Iso s).
Definition two : list fspec := [title; comment1].
Definition room : Z := frames_size two + 30.

Definition mixed : list any_step :=
  [Old [CTitle (word (lit "A longer title")) x00]; New (Visit [SetArtist (word (lit "X"))]);
   Old [CArtist (word (lit "Someone else")) x00; CTitle (word (lit "T")) x00]].
Definition mixed_wishes : list any_wish :=
  [OldWish [text_is (lit "TIT2") (lit "A longer title")]; NewWish (Edit [Put (text_is (lit "TPE1") (lit "X"))]);
   OldWish [text_is (lit "TPE1") (lit "Someone else"); text_is (lit "TIT2") (lit "T")]].

Lemma mixed_asks : Forall2 any_asks mixed mixed_wishes.
Proof.
  apply Forall2_cons; [cbn [any_asks]; apply Forall2_cons; [apply KTitle, points_to_exact|apply Forall2_nil]|].
  apply Forall2_cons; [cbn [any_asks asks]; apply Forall2_cons; [apply MArtist, points_to_exact|apply Forall2_nil]|].
  apply Forall2_cons; [|apply Forall2_nil].
  cbn [any_asks]. apply Forall2_cons; [apply KArtist, points_to_exact|]. apply Forall2_cons; [apply KTitle, points_to_exact|apply Forall2_nil].
Qed.

Definition mixed_end : list fspec := [text_is (lit "TIT2") (lit "T"); comment1; text_is (lit "TPE1") (lit "Someone else")].

Example C91_applies :
  let file := Some (tag_bytes x03 x00 x00 room two ++ lit "sound") in
  no_tag (lit "sound") /\ Forall (fun f => survives x03 f = true) two /\ Forall2 any_asks mixed mixed_wishes
  /\ forallb (wish_keeps x03) (map as_wish mixed_wishes) = true
  /\ (room + growth (map as_wish mixed_wishes) <? 2 ^ 28) = true
  /\ both_fate mixed_wishes (Some (map frame_of two, room)) = Lives (Some (map frame_of mixed_end, frames_size mixed_end + 20))
  /\ run_both mixed file = Ok (Some (tag_bytes x03 x00 x00 (frames_size mixed_end + 20) mixed_end ++ lit "sound"))
  /\ both_fate (rev mixed_wishes) (Some (map frame_of two, room)) = Breaks
  /\ run_both (rev mixed) file = Ub NullDeref
  /\ both_fate [OldStrip; NewWish (Edit [])] (Some (map frame_of two, room)) = Lives None
  /\ run_both [OldErase; New (Visit [])] file = Ok (Some (lit "sound"))
  /\ both_fate [OldStrip; OldWish []] (Some (map frame_of two, room)) = Breaks
  /\ run_both [OldErase; Old []] file = Ub NullDeref
  /\ both_fate [OldWish []; NewWish (Edit [Remove (lit "COMM")])] (Some (map frame_of two, room)) = Quits
  /\ run_both [Old []; New (Visit [DeleteComment])] file = Exit 1.
Proof.
  split; [reflexivity|]. split; [repeat constructor|]. split; [exact mixed_asks|].
  do 11 (split; [vm_compute; reflexivity|]). vm_compute. reflexivity.
Qed.

Example C91_applies_same :
  exists t, ID3v2_read_tag (Some (tagged_file x04 x00 x00 samples 0 [xff])) = Ok (Some t)
    /\ tag_has t (map frame_of samples) /\ Forall (fun f => frame_ok f = true) samples
    /\ all_there [text_is (lit "TIT2") (lit "T")] (map frame_of samples) = true
    /\ all_there [text_is (lit "TPE1") (lit "T")] (map frame_of samples) = false
    /\ run_old [CTitle (word (lit "T")) x00] (Some (tagged_file x04 x00 x00 samples 0 [xff]))
       = run_session [SetTitle (word (lit "T"))] (Some (tagged_file x04 x00 x00 samples 0 [xff]))
    /\ (exists c, run_old [CTitle (word (lit "T")) x00] (Some (tagged_file x04 x00 x00 samples 0 [xff])) = Ok (Some c))
    /\ run_old [CArtist (word (lit "T")) x00] (Some (tagged_file x04 x00 x00 samples 0 [xff])) = Ub NullDeref.
Proof.
  destruct (SessionFacts.tagged_read x04 x00 x00 samples 0 [xff]) as (t & E & _ & T & _);
    [reflexivity|reflexivity|repeat constructor|discriminate|reflexivity|].
  exists t. split; [exact E|]. split; [exact T|].
  split; [repeat constructor|]. do 2 (split; [vm_compute; reflexivity|]).
  split; [vm_compute; reflexivity|]. split; [eexists; vm_compute; reflexivity|]. vm_compute. reflexivity.
Qed.
