(** Files written by someone else, edited and written: C59. *)
From Verif Require Import File Calls Spec SpecEdit SpecFile SpecRead SpecSession SpecRewrite ReadFacts RewriteFacts CutFacts Samples.
From Coq Require Import Lia.

(** Whatever file is read, the frames seen are well formed and fit into the
    tag, except a last one that the end of the file cuts off. *)
Theorem C59_seen : forall content h gs pad, file_read content (Some (h, gs, pad)) ->
  (exists fs, gs = map frame_of fs /\ Forall (fun f => frame_ok f = true) fs /\ frames_size fs <= th_tag_size h)
  \/ (exists fs g, gs = map frame_of fs ++ [g] /\ Forall (fun f => frame_ok f = true) fs /\ cut_frame g).
Proof. exact seen_frames. Qed.
Print Assumptions C59_seen.

(** Every file, read and written. *)
Theorem C59_rewrite : forall content, tag_below (2 ^ 28) content ->
  (file_read content None /\ run_session [] (Some content) = Ok (Some content))
  \/ (exists h fs pad, file_read content (Some (h, map frame_of fs, pad))
        /\ Forall (fun f => frame_ok f = true) fs /\ frames_size fs <= th_tag_size h
        /\ run_session [] (Some content)
           = Ok (Some (tag_bytes (th_major h) (th_minor h) (th_flags h) (th_tag_size h) fs ++ audio content)))
  \/ (exists h fs g pad, file_read content (Some (h, map frame_of fs ++ [g], pad)) /\ cut_frame g
        /\ exists u, run_session [] (Some content) = Ub u)
  \/ ((forall r, ~ file_read content r) /\ exists u, run_session [] (Some content) = Ub u).
Proof. exact rewrite_all. Qed.
Print Assumptions C59_rewrite.

(** The same tag is seen in the file that was written, the sound is kept, and
    writing it again changes nothing. *)
Theorem C59_twice : forall content content', tag_below (2 ^ 28) content ->
  run_session [] (Some content) = Ok (Some content') ->
  (forall h gs pad, file_read content (Some (h, gs, pad)) -> Forall (size_kept (th_major h)) gs) ->
  (forall h gs pad, file_read content (Some (h, gs, pad)) -> exists pad', file_read content' (Some (h, gs, pad')))
  /\ audio content' = audio content
  /\ run_session [] (Some content') = Ok (Some content').
Proof. exact rewrite_twice. Qed.
Print Assumptions C59_twice.

(** Every file in which complete frames are seen, edited and written. *)
Theorem C59_edit : forall content major minor flags n pad fs cs es,
  file_read content (Some (mkTH (lit "ID3") major minor flags n 0, map frame_of fs, pad)) ->
  Forall (fun f => frame_ok f = true) fs -> n < 2 ^ 28 ->
  Forall2 means cs es -> all_proper es fs = true ->
  let fs' := edited es fs in
  let room := room_left es fs (n - frames_size fs) in
  let n' := frames_size fs' + room in
  - 2 ^ 31 <= n' < 2 ^ 28 ->
  exists t t', ID3v2_read_tag (Some content) = Ok (Some t) /\ run_calls t cs = Ok t'
    /\ if 0 <=? room
       then ID3v2_write_tag (Some content) (Some t')
            = Ok (Some (tag_bytes major minor flags n' fs' ++ audio content), Some (padded t'))
       else exists u, ID3v2_write_tag (Some content) (Some t') = Ub u.
Proof. exact any_session. Qed.
Print Assumptions C59_edit.

(** Every file in which a tag is seen, edited and written: the edits are carried
    out, and the tag is written unless a frame that was cut off is left in it or
    it has outgrown its room. *)
Theorem C59_edit_any : forall content h gs pad cs es,
  file_read content (Some (h, gs, pad)) -> Forall sane gs ->
  Forall2 means cs es -> all_allowed es gs = true ->
  let gs' := apply_edits es gs in
  let n' := bytes_needed gs' + (th_tag_size h - bytes_needed gs) + room_deltas es gs in
  - 2 ^ 31 <= n' < 2 ^ 28 ->
  exists t t', ID3v2_read_tag (Some content) = Ok (Some t) /\ run_calls t cs = Ok t' /\ tag_has t' gs'
    /\ ((exists fs, gs' = map frame_of fs /\ Forall (fun f => frame_ok f = true) fs
            /\ if frames_size fs <=? n'
               then ID3v2_write_tag (Some content) (Some t')
                    = Ok (Some (tag_bytes (th_major h) (th_minor h) (th_flags h) n' fs ++ audio content), Some (padded t'))
               else exists u, ID3v2_write_tag (Some content) (Some t') = Ub u)
        \/ (Exists cut_frame gs' /\ exists u, ID3v2_write_tag (Some content) (Some t') = Ub u)).
Proof. exact any_edit. Qed.
Print Assumptions C59_edit_any.

(** The two cases exclude each other. *)
Theorem C59_whole : forall fs, ~ Exists cut_frame (map frame_of fs).
Proof. exact whole_not_cut. Qed.
Print Assumptions C59_whole.

(** A tag the library would not write: rubbish after the terminator of a text,
    a chapter frame that is taken for a comment, encodings that contradict the
    text, padding that is not zero. *)
Definition foreign_file : list byte :=
  lit "ID3" ++ [x03; x00; x00] ++ [x00; x00; x00; x51]
  ++ (lit "TXXX" ++ [x00; x00; x00; x06] ++ [x00; x00] ++ [x03] ++ lit "k" ++ [x00] ++ lit "val")
  ++ (lit "CTOC" ++ [x00; x00; x00; x00] ++ [x00; x00] ++ lit "t" ++ lit "oc1" ++ [x00] ++ lit "x" ++ [x00])
  ++ (lit "PRIV" ++ [x00; x00; x00; x04] ++ [x00; x00] ++ lit "abcd")
  ++ [x00; x00; x00; x00] ++ lit "not padding but more than that"
  ++ lit "sound".

Definition foreign_frames : list fspec :=
  [FText (lit "TXXX") [x00; x00] (Iso (lit "k"));
   FComment [x00; x00] (lit "oc1") (Iso []) (Iso (lit "x"));
   FOther (lit "PRIV") [x00; x00] (lit "abcd")].

Example C59_applies :
  tag_below (2 ^ 28) foreign_file
  /\ file_read foreign_file (Some (mkTH (lit "ID3") x03 x00 x00 81 0, map frame_of foreign_frames, 34))
  /\ Forall (fun f => frame_ok f = true) foreign_frames
  /\ run_session [] (Some foreign_file) = Ok (Some (tag_bytes x03 x00 x00 81 foreign_frames ++ lit "sound")).
Proof.
  split; [intros n E; vm_compute in E; injection E as <-; lia|]. split.
  { destruct (read_file_exactly foreign_file) as [(r & t & R & E & S)|[_ (u & E)]]; vm_compute in E; [|discriminate E].
    injection E as <-. destruct r as [[[h fs] pad]|]; [|contradiction]. destruct S as (<- & H & <-).
    destruct H as (ps & E & <- & _). destruct ps as [|p1 [|p2 [|p3 [|p4 ps]]]]; try discriminate E.
    injection E as <- <- <-. exact R. }
  split; [repeat constructor|]. vm_compute. reflexivity.
Qed.

(** There is room for a title: 10 bytes of it come from the padding, the rest
    is added to the tag. *)
Example C59_edit_applies :
  let cs := [SetTitle (Some (cells (text_image (Iso (lit "Hi")))))] in
  let es := [Put (FText (lit "TIT2") [x00; x00] (Iso (lit "Hi")))] in
  Forall2 means cs es /\ all_proper es foreign_frames = true
  /\ room_left es foreign_frames (81 - frames_size foreign_frames) = 27
  /\ frames_size (edited es foreign_frames) + 27 = 85
  /\ run_session cs (Some foreign_file)
     = Ok (Some (tag_bytes x03 x00 x00 85 (edited es foreign_frames) ++ lit "sound")).
Proof.
  split; [constructor; [apply MTitle, points_to_exact|constructor]|].
  repeat (split; [vm_compute; reflexivity|]). vm_compute. reflexivity.
Qed.

(** A file that ends within its last frame. *)
Definition short_file : list byte :=
  lit "ID3" ++ [x03; x00; x00] ++ [x00; x00; x00; x22]
  ++ (lit "TIT2" ++ [x00; x00; x00; x03] ++ [x00; x00] ++ [x00] ++ lit "k" ++ [x00])
  ++ (lit "PRIV" ++ [x00; x00; x00; x0b] ++ [x00; x00] ++ lit "a").

Example C59_cut_applies :
  (exists h fs g pad, file_read short_file (Some (h, map frame_of fs ++ [g], pad)) /\ cut_frame g)
  /\ run_session [] (Some short_file) = Ub UninitRead.
Proof.
  assert (W : run_session [] (Some short_file) = Ub UninitRead) by (vm_compute; reflexivity).
  split; [|exact W].
  destruct (C59_rewrite short_file) as [(_ & E)|[(h & fs & pad & _ & _ & _ & E)|[(h & fs & g & pad & R & C & _)|(N & _)]]].
  - intros n E. vm_compute in E. injection E as <-. lia.
  - rewrite W in E. discriminate E.
  - rewrite W in E. discriminate E.
  - eauto 6.
  - destruct (read_file_exactly short_file) as [(r & t & R & _)|[_ (u & E)]]; [now apply N in R|].
    vm_compute in E. discriminate E.
Qed.

(** A file that ends within the cover.  With the title set it cannot be written;
    with another cover it can. *)
Definition short_cover : list byte :=
  lit "ID3" ++ [x03; x00; x00] ++ [x00; x00; x00; x43]
  ++ (lit "TIT2" ++ [x00; x00; x00; x03] ++ [x00; x00] ++ [x00] ++ lit "k" ++ [x00])
  ++ (lit "APIC" ++ [x00; x00; x00; x27] ++ [x00; x00] ++ [x00] ++ lit "image/png" ++ [x00] ++ [x03] ++ [x00] ++ lit "ab").

Definition cut_cover : frame :=
  mkFrame (mkFH (cells (lit "APIC")) 39 (cells [x00; x00]))
    (DApic (mkAD x00 (cells (lit "image/png" ++ [x00])) x03 (cells [x00]) (cells (lit "ab") ++ repeat None 24) 26)).

Definition cover_frames : list frame := [frame_of (FText (lit "TIT2") [x00; x00] (Iso (lit "k"))); cut_cover].

Example C59_edit_any_applies :
  let title := SetTitle (Some (cells (text_image (Iso (lit "Hi"))))) in
  let cover := SetAlbumCover (Some (cells (text_image (Iso (lit "image/png"))))) 2 (Some (cells (lit "ab"))) in
  let f := FText (lit "TIT2") [x00; x00] (Iso (lit "Hi")) in
  let g := FPicture [x00; x00] (Iso (lit "image/png")) x03 (Utf16 false []) (lit "ab") in
  file_read short_cover (Some (mkTH (lit "ID3") x03 x00 x00 67 0, cover_frames, 5)) /\ Forall sane cover_frames
  /\ cut_frame cut_cover
  /\ Forall2 means [title] [Put f] /\ all_allowed [Put f] cover_frames = true
  /\ Exists cut_frame (apply_edits [Put f] cover_frames)
  /\ run_session [title] (Some short_cover) = Ub UninitRead
  /\ Forall2 means [title; cover] [Put f; Put g] /\ all_allowed [Put f; Put g] cover_frames = true
  /\ apply_edits [Put f; Put g] cover_frames = map frame_of [f; g]
  /\ run_session [title; cover] (Some short_cover) = Ok (Some (tag_bytes x03 x00 x00 47 [f; g])).
Proof.
  intros title cover f g.
  split.
  { destruct (read_file_exactly short_cover) as [(r & t & R & E & S)|[_ (u & E)]]; vm_compute in E; [|discriminate E].
    injection E as <-. destruct r as [[[h fs] pad]|]; [|contradiction]. destruct S as (<- & H & <-).
    destruct H as (ps & E & <- & _). destruct ps as [|p1 [|p2 [|p3 ps]]]; try discriminate E.
    injection E as <- <-. exact R. }
  assert (M1 : means title (Put f)) by (apply MTitle, points_to_exact).
  assert (M2 : means cover (Put g)).
  { apply (MAlbumCover _ (Some (cells (lit "ab"))) (Iso (lit "image/png")) (lit "ab")); apply points_to_exact. }
  split.
  { constructor; [|constructor; [|constructor]].
    - split; [exists (lit "TIT2"); split; reflexivity|cbn; lia].
    - split; [exists (lit "APIC"); split; reflexivity|cbn; lia]. }
  split; [right; cbn; tauto|].
  split; [constructor; [exact M1|constructor]|]. split; [vm_compute; reflexivity|].
  split; [right; left; right; cbn; tauto|]. split; [vm_compute; reflexivity|].
  split; [constructor; [exact M1|constructor; [exact M2|constructor]]|].
  split; [vm_compute; reflexivity|]. split; vm_compute; reflexivity.
Qed.

(** Why frames of 256 bytes and more are left out for v2.4: half of this frame
    is lost the second time. *)
Definition long_v4 : list byte :=
  lit "ID3" ++ [x04; x00; x00] ++ [x00; x00; x02; x60]
  ++ (lit "PRIV" ++ [x00; x00; x02; x2c] ++ [x00; x00] ++ repeat x00 300) ++ zeros 42 ++ lit "sound".

Example C59_long_v4 :
  exists once, run_session [] (Some long_v4) = Ok (Some once)
    /\ once = tag_bytes x04 x00 x00 352 [FOther (lit "PRIV") [x00; x00] (repeat x00 300)] ++ lit "sound"
    /\ run_session [] (Some once)
       = Ok (Some (tag_bytes x04 x00 x00 352 [FOther (lit "PRIV") [x00; x00] (repeat x00 172)] ++ lit "sound")).
Proof. eexists. split; [vm_compute; reflexivity|]. split; vm_compute; reflexivity. Qed.
