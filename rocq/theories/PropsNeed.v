(** Properties of how much memory the calls take: C67. *)
From Coq Require Import List ZArith Lia.
From Verif Require Import File Compat Calls Spec SpecEdit SpecFile Oom SpecOom SpecNeed.
From Verif Require Import NeedFacts NeedReadFacts NeedEditFacts Samples.
Import ListNotations.
Open Scope Z_scope.

(** ** C67 *)

(** All theorems hold for any sizes of the structs.  Reading a tag from a file
    takes the bytes of its header once, those of the tag twice, and those of the
    frames and their structs. *)
Theorem C67_read : forall sizeof, (forall r, 0 <= sizeof r) -> forall content t,
  ID3v2_read_tag (Some content) = Ok (Some t) ->
  takes sizeof (ID3v2_read_tag_o (Some content)) (Ok (Some t)) (file_bytes_read sizeof t).
Proof. exact need_file. Qed.
Print Assumptions C67_read.

(** With less, the file seems to have no tag, or a tag without frames comes
    without a list, or the behaviour is undefined. *)
Theorem C67_read_short : forall sizeof, (forall r, 0 <= sizeof r) -> forall content t limit,
  ID3v2_read_tag (Some content) = Ok (Some t) -> 0 <= limit < file_bytes_read sizeof t ->
  let r := fst (ID3v2_read_tag_o (Some content) (limited sizeof limit) []) in
  r = Ok None \/ r = Ok (Some (unlisted t)) /\ frameless t = true \/ undefined r.
Proof. exact read_short. Qed.
Print Assumptions C67_read_short.

(** A file without a tag takes a header, if it has room for one. *)
Theorem C67_no_tag : forall sizeof, (forall r, 0 <= sizeof r) -> forall content,
  ID3v2_read_tag (Some content) = Ok None ->
  takes sizeof (ID3v2_read_tag_o (Some content)) (Ok None) (look_bytes sizeof content None).
Proof. exact need_no_tag. Qed.
Print Assumptions C67_no_tag.

(** From memory. *)
Theorem C67_buffer : forall sizeof, (forall r, 0 <= sizeof r) -> forall p n t, n < 2 ^ 31 ->
  ID3v2_read_tag_from_buffer p n = Ok (Some t) ->
  takes sizeof (ID3v2_read_tag_from_buffer_o p n) (Ok (Some t)) (tag_bytes_read sizeof n t).
Proof. exact need_buffer. Qed.
Print Assumptions C67_buffer.

Theorem C67_buffer_no_tag : forall sizeof, (forall r, 0 <= sizeof r) -> forall p n, n < 2 ^ 31 ->
  ID3v2_read_tag_from_buffer p n = Ok None ->
  takes sizeof (ID3v2_read_tag_from_buffer_o p n) (Ok None) (stream_room sizeof n).
Proof. exact need_none. Qed.
Print Assumptions C67_buffer_no_tag.

(** Only the header. *)
Theorem C67_header : forall sizeof, (forall r, 0 <= sizeof r) -> forall content h,
  ID3v2_read_tag_header (Some content) = Ok h ->
  takes sizeof (ID3v2_read_tag_header_o (Some content)) (Ok h) (look_bytes sizeof content h).
Proof. exact need_header. Qed.
Print Assumptions C67_header.

Theorem C67_header_buffer : forall sizeof, (forall r, 0 <= sizeof r) -> forall p h,
  ID3v2_read_tag_header_from_buffer p = Ok h ->
  takes sizeof (ID3v2_read_tag_header_from_buffer_o p) (Ok h) (stream_room sizeof 10 + header_bytes sizeof h).
Proof. exact need_header_buffer. Qed.
Print Assumptions C67_header_buffer.

(** Writing takes what the header declares once and every frame once more. *)
Theorem C67_write : forall sizeof, (forall r, 0 <= sizeof r) -> forall content h t r,
  ID3v2_read_tag_header (Some content) = Ok h -> ID3v2_write_tag (Some content) (Some t) = Ok r ->
  takes sizeof (ID3v2_write_tag_o (Some content) (Some t)) (Ok r) (write_bytes sizeof content h t).
Proof. exact need_write. Qed.
Print Assumptions C67_write.

(** Deleting a tag takes only its header. *)
Theorem C67_delete : forall sizeof, (forall r, 0 <= sizeof r) -> forall content h r,
  ID3v2_read_tag_header (Some content) = Ok h -> ID3v2_delete_tag (Some content) = Ok r ->
  takes sizeof (ID3v2_delete_tag_o (Some content)) (Ok r) (look_bytes sizeof content h).
Proof. exact need_delete. Qed.
Print Assumptions C67_delete.

(** Every edit of a tag: sets and adds take one frame and at most one node; a
    delete takes a node if and only if it removes the last frame, and one for each
    candidate if it goes by index. *)
Theorem C67_edit : forall sizeof, (forall r, 0 <= sizeof r) -> forall t fs c e t',
  tag_has t fs -> Forall sane fs -> means c e -> edit_ok e = true -> run_call t c = Ok t' ->
  takes sizeof (run_call_o t c) (Ok t') (edit_bytes sizeof e fs).
Proof. exact need_edit. Qed.
Print Assumptions C67_edit.

Theorem C67_new : forall sizeof, (forall r, 0 <= sizeof r) ->
  takes sizeof ID3v2_Tag_new_empty_o (Ok (Whole ID3v2_Tag_new_empty)) (sizeof RTag + sizeof RTagHeader + sizeof RNode).
Proof. exact need_new. Qed.
Print Assumptions C67_new.

Theorem C67_unicode : forall sizeof p r, ID3v2_to_unicode p = Ok r ->
  takes sizeof (ID3v2_to_unicode_o p) (Ok r) (match r with SamePointer => 0 | Fresh m => zlen m end).
Proof. exact need_unicode. Qed.
Print Assumptions C67_unicode.

(** What a file can make the library take: twice the size it declares, one frame's
    structs for every ten bytes of the file, its length, and 2 GiB. *)
Theorem C67_bound : forall sizeof, (forall r, 0 <= sizeof r) -> forall content t,
  ID3v2_read_tag (Some content) = Ok (Some t) ->
  file_bytes_read sizeof t
  <= tag_structs sizeof + 2 * (th_tag_size (t_header t) + 10) + (zlen content / 10) * frame_structs sizeof
     + zlen content + 2 ^ 31.
Proof. exact file_read_bound. Qed.
Print Assumptions C67_bound.

(** The 2 GiB are needed: for every size below there is a file of 21 bytes that
    takes as much. *)
Theorem C67_small_file : forall sizeof, (forall r, 0 <= sizeof r) -> forall m, 1 <= m < 2 ^ 31 ->
  zlen (claiming_raw m) = 21
  /\ exists t, ID3v2_read_tag (Some (claiming_raw m)) = Ok (Some t)
     /\ takes sizeof (ID3v2_read_tag_o (Some (claiming_raw m))) (Ok (Some t))
          (tag_structs sizeof + 52 + sizeof RNode + sizeof RFrame + sizeof RFrameHeader + m).
Proof. exact small_raw. Qed.
Print Assumptions C67_small_file.

(** A file that the library has written, by its frames. *)
Theorem C67_written : forall sizeof, (forall r, 0 <= sizeof r) -> forall maj mi fl n fs sound,
  known_version maj = true -> has_extended_header fl = false ->
  Forall (fun f => survives maj f = true) fs -> frames_size fs <= n -> n < 2 ^ 28 ->
  exists t, ID3v2_read_tag (Some (tag_bytes maj mi fl n fs ++ sound)) = Ok (Some t)
    /\ takes sizeof (ID3v2_read_tag_o (Some (tag_bytes maj mi fl n fs ++ sound))) (Ok (Some t))
         (tag_structs sizeof + 2 * (n + 10) + 10 + specs_bytes sizeof fs).
Proof. exact need_written. Qed.
Print Assumptions C67_written.

(** ** Examples *)

(** Sizes such as a compiler may choose. *)
Definition sizes (r : request) : Z :=
  match r with
  | RStream => 16 | RTagHeader => 20 | RFrameHeader => 12 | RFrame => 16
  | RTextData => 16 | RCommentData => 24 | RApicData => 48 | RNode => 24 | RTag => 24
  | _ => 16
  end.
Lemma sizes_nonneg r : 0 <= sizes r. Proof. destruct r; cbn; lia. Qed.

Definition full_song : list byte := tag_bytes x03 x00 x00 130 samples ++ [xff; xfb; x90].

(** Five frames in 143 bytes take 899; with one less the last frame fails. *)
Example C67_read_applies :
  exists t, ID3v2_read_tag (Some full_song) = Ok (Some t)
    /\ file_bytes_read sizes t = tag_structs sizes + 2 * 140 + 10 + specs_bytes sizes samples
    /\ fst (ID3v2_read_tag_o (Some full_song) (limited sizes (file_bytes_read sizes t)) []) = Ok (Some t)
    /\ fst (ID3v2_read_tag_o (Some full_song) (limited sizes (file_bytes_read sizes t - 1)) []) = Ub NullDeref
    /\ fst (ID3v2_read_tag_o (Some full_song) (limited sizes 60) []) = Ok None.
Proof.
  eexists. split; [vm_compute; reflexivity|]. split; [vm_compute; reflexivity|]. split; [vm_compute; reflexivity|].
  split; vm_compute; reflexivity.
Qed.

(** A tag without frames comes without a list if only that does not fit. *)
Definition bare : list byte := tag_bytes x03 x00 x00 0 [] ++ [xff; xfb; x90].
Example C67_read_short_applies :
  exists t, ID3v2_read_tag (Some bare) = Ok (Some t) /\ file_bytes_read sizes t = 150
    /\ fst (ID3v2_read_tag_o (Some bare) (limited sizes 150) []) = Ok (Some t)
    /\ fst (ID3v2_read_tag_o (Some bare) (limited sizes 149) []) = Ok (Some (unlisted t)) /\ frameless t = true
    /\ fst (ID3v2_read_tag_o (Some bare) (limited sizes 80) []) = Ub NullDeref
    /\ fst (ID3v2_read_tag_o (Some bare) (limited sizes 45) []) = Ok None.
Proof.
  eexists. split; [vm_compute; reflexivity|]. split; [vm_compute; reflexivity|]. split; [vm_compute; reflexivity|].
  split; [vm_compute; reflexivity|]. split; [vm_compute; reflexivity|]. split; vm_compute; reflexivity.
Qed.

Example C67_no_tag_applies :
  ID3v2_read_tag (Some (lit "RIFF 12 bytes")) = Ok None /\ look_bytes sizes (lit "RIFF 12 bytes") None = 26
  /\ fst (ID3v2_read_tag_o (Some (lit "RIFF 12 bytes")) (limited sizes 26) []) = Ok None
  /\ granted (snd (ID3v2_read_tag_o (Some (lit "RIFF 12 bytes")) (limited sizes 25) [])) = false
  /\ look_bytes sizes (lit "short") None = 0.
Proof. vm_compute. repeat split. Qed.

Example C67_buffer_applies :
  exists t, ID3v2_read_tag_from_buffer (Some (cells full_song)) 140 = Ok (Some t)
    /\ fst (ID3v2_read_tag_from_buffer_o (Some (cells full_song)) 140 (limited sizes (tag_bytes_read sizes 140 t)) []) = Ok (Some t)
    /\ granted (snd (ID3v2_read_tag_from_buffer_o (Some (cells full_song)) 140 (limited sizes (tag_bytes_read sizes 140 t - 1)) [])) = false
    /\ ID3v2_read_tag_from_buffer (Some (cells (lit "RIFF 12 bytes"))) 13 = Ok None.
Proof.
  eexists. split; [vm_compute; reflexivity|]. split; [vm_compute; reflexivity|]. split; vm_compute; reflexivity.
Qed.

Example C67_header_applies :
  exists h, ID3v2_read_tag_header (Some full_song) = Ok (Some h) /\ look_bytes sizes full_song (Some h) = 46
    /\ ID3v2_read_tag_header_from_buffer (Some (cells full_song)) = Ok (Some h)
    /\ fst (ID3v2_read_tag_header_o (Some full_song) (limited sizes 46) []) = Ok (Some h)
    /\ fst (ID3v2_read_tag_header_o (Some full_song) (limited sizes 45) []) = Ok None
    /\ fst (ID3v2_delete_tag_o (Some full_song) (limited sizes 46) []) = Ok (Some [xff; xfb; x90])
    /\ fst (ID3v2_delete_tag_o (Some full_song) (limited sizes 45) []) = Ok (Some full_song).
Proof.
  eexists. split; [vm_compute; reflexivity|]. split; [vm_compute; reflexivity|]. split; [vm_compute; reflexivity|].
  split; [vm_compute; reflexivity|]. split; [vm_compute; reflexivity|]. split; vm_compute; reflexivity.
Qed.

Example C67_write_applies :
  exists h r, ID3v2_read_tag_header (Some full_song) = Ok (Some h)
    /\ ID3v2_write_tag (Some full_song) (Some (tag_with samples 130)) = Ok r
    /\ let n := write_bytes sizes full_song (Some h) (tag_with samples 130) in
       fst (ID3v2_write_tag_o (Some full_song) (Some (tag_with samples 130)) (limited sizes n) []) = Ok r
       /\ fst (ID3v2_write_tag_o (Some full_song) (Some (tag_with samples 130)) (limited sizes (n - 1)) []) = Ub NullDeref.
Proof.
  eexists. eexists. split; [vm_compute; reflexivity|]. split; [vm_compute; reflexivity|]. split; vm_compute; reflexivity.
Qed.

(** The cover is the last frame: deleting it takes a node; the comments are two:
    deleting one of them by index takes two. *)
Example C67_edit_applies :
  let t := tag_with samples 130 in
  tag_has t (map frame_of samples) /\ Forall sane (map frame_of samples)
  /\ edit_bytes sizes (Put artist) (map frame_of samples) = 16 + 12 + 16 + 8 + 24
  /\ edit_bytes sizes (Put title) (map frame_of samples) = 16 + 12 + 16 + zlen (text_image (Utf16 false [(x41, x00); (x00, x01)]))
  /\ edit_bytes sizes (Remove (lit "TIT2")) (map frame_of samples) = 0
  /\ edit_bytes sizes (Remove (lit "APIC")) (map frame_of samples) = 24
  /\ edit_bytes sizes (RemoveNth (lit "COMM") 1) (map frame_of samples) = 48
  /\ edit_bytes sizes (RemoveNth (lit "COMM") 0) [] = 48
  /\ (let c := SetArtist (Some (cells (text_image (Iso (lit "Someone"))))) in
      means c (Put artist)
      /\ exists t', run_call t c = Ok t' /\ fst (run_call_o t c (limited sizes 76) []) = Ok t'
         /\ fst (run_call_o t c (limited sizes 75) []) = Ub NullDeref)
  /\ exists t', run_call t DeleteAlbumCover = Ok t' /\ fst (run_call_o t DeleteAlbumCover (limited sizes 24) []) = Ok t'
     /\ fst (run_call_o t DeleteAlbumCover (limited sizes 23) []) = Ub NullDeref.
Proof.
  cbv zeta. split; [apply tag_with_has|]. split; [apply samples_sane|]. do 6 (split; [vm_compute; reflexivity|]). split.
  - split; [constructor; exists []; now rewrite app_nil_r|]. eexists. split; [vm_compute; reflexivity|]. split; vm_compute; reflexivity.
  - eexists. split; [vm_compute; reflexivity|]. split; vm_compute; reflexivity.
Qed.

Example C67_new_applies :
  fst (ID3v2_Tag_new_empty_o (limited sizes 68) []) = Ok (Whole ID3v2_Tag_new_empty)
  /\ fst (ID3v2_Tag_new_empty_o (limited sizes 67) []) = Ok (Whole (mkTag TagHeader_new_empty [] 0 0)).
Proof. vm_compute. split; reflexivity. Qed.

Example C67_unicode_applies :
  exists m, ID3v2_to_unicode (clit "AB") = Ok (Fresh m) /\ zlen m = 8
    /\ fst (ID3v2_to_unicode_o (clit "AB") (limited sizes 8) []) = Ok (Fresh m)
    /\ fst (ID3v2_to_unicode_o (clit "AB") (limited sizes 7) []) = Ub NullDeref.
Proof. eexists. split; [vm_compute; reflexivity|]. split; [vm_compute; reflexivity|]. split; vm_compute; reflexivity. Qed.

(** 21 bytes that take more than 2 GB. *)
Example C67_small_file_applies :
  exists t, ID3v2_read_tag (Some (claiming_raw 2000000000)) = Ok (Some t)
    /\ fst (ID3v2_read_tag_o (Some (claiming_raw 2000000000)) (limited sizes (tag_structs sizes + 104 + 2000000000)) []) = Ok (Some t)
    /\ granted (snd (ID3v2_read_tag_o (Some (claiming_raw 2000000000)) (limited sizes 2000000000) [])) = false.
Proof.
  destruct (C67_small_file sizes sizes_nonneg 2000000000) as (_ & t & E & T & F); [split; [discriminate|reflexivity]|].
  exists t. split; [exact E|]. split.
  - apply T. intros l r L. apply Z.leb_le. exact L.
  - apply F. split; [discriminate|reflexivity].
Qed.

Example C67_bound_applies :
  exists t, ID3v2_read_tag (Some full_song) = Ok (Some t)
    /\ th_tag_size (t_header t) = 130 /\ zlen full_song = 143 /\ frame_structs sizes = 124 /\ tag_structs sizes = 96
    /\ file_bytes_read sizes t <= 96 + 2 * 140 + 14 * 124 + 143.
Proof.
  eexists. split; [vm_compute; reflexivity|]. do 4 (split; [vm_compute; reflexivity|]). vm_compute. discriminate.
Qed.

Example C67_written_applies :
  known_version x03 = true /\ has_extended_header x00 = false /\ Forall (fun f => survives x03 f = true) samples
  /\ frames_size samples <= 130 /\ tag_structs sizes + 2 * (130 + 10) + 10 + specs_bytes sizes samples = 899.
Proof.
  split; [reflexivity|]. split; [reflexivity|]. split; [repeat constructor|]. split; [vm_compute; discriminate|vm_compute; reflexivity].
Qed.
