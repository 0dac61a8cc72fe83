(** Tags of 2^28 bytes and more: C96. *)
From Verif Require Import File Calls Spec SpecEdit SpecFile SpecSession SpecBig BigFacts Samples BaseFacts.
From Coq Require Import Lia.

(** Such a tag is written, all of it. *)
Theorem C96_write : forall c t fs maj mi fl n ext,
  announces_extended c = false -> tag_has t (map frame_of fs) -> Forall (fun f => frame_ok f = true) fs ->
  t_header t = mkTH (lit "ID3") maj mi fl n ext -> frames_size fs <= n -> n + 10 < 2 ^ 31 ->
  2048 - 2 ^ 31 < t_padding t < 2 ^ 31 ->
  ID3v2_write_tag (Some c) (Some t) = Ok (Some (big_bytes maj mi fl n fs ++ audio c), Some (padded t)).
Proof. exact big_write. Qed.
Print Assumptions C96_write.

(** Below 2^28 its size is recorded as the standard asks. *)
Theorem C96_small : forall maj mi fl n fs, 0 <= n < 2 ^ 28 -> big_bytes maj mi fl n fs = tag_bytes maj mi fl n fs.
Proof. exact big_small. Qed.
Print Assumptions C96_small.

(** Otherwise a byte of the size field has its top bit set, or the size is taken
    modulo 2^29. *)
Theorem C96_unsafe : forall n, 0 <= n -> (exists b, In b (size_bytes n) /\ 128 <= bv b) <-> 2 ^ 28 <= n mod 2 ^ 29.
Proof. exact big_unsafe. Qed.
Print Assumptions C96_unsafe.

Theorem C96_file : forall maj mi fl n fs s,
  known_version maj = true -> has_extended_header fl = false -> Forall (fun f => frame_ok f = true) fs ->
  frames_size fs <= n -> n + 10 < 2 ^ 31 ->
  announces_extended (big_bytes maj mi fl n fs ++ s) = false
  /\ tag_length (big_bytes maj mi fl n fs ++ s) = Some (10 + n mod 2 ^ 29)
  /\ audio (big_bytes maj mi fl n fs ++ s) = left_over maj mi fl n fs ++ s
  /\ zlen (left_over maj mi fl n fs) = n - n mod 2 ^ 29.
Proof. exact big_file. Qed.
Print Assumptions C96_file.

Theorem C96_whole : forall maj mi fl n fs, known_version maj = true -> has_extended_header fl = false ->
  Forall (fun f => frame_ok f = true) fs -> frames_size fs <= n -> n + 10 < 2 ^ 31 ->
  (left_over maj mi fl n fs = [] <-> n < 2 ^ 29).
Proof. exact nothing_left. Qed.
Print Assumptions C96_whole.

(** What is within the recorded size is read (v2.3). *)
Theorem C96_read : forall mi fl n fs s,
  has_extended_header fl = false -> Forall (fun f => frame_ok f = true /\ readable f = true) fs ->
  frames_size fs <= n mod 2 ^ 29 -> 0 <= n -> n + 10 < 2 ^ 31 ->
  exists t, ID3v2_read_tag (Some (big_bytes x03 mi fl n fs ++ s)) = Ok (Some t)
    /\ t_header t = mkTH (lit "ID3") x03 mi fl (n mod 2 ^ 29) 0 /\ tag_has t (map frame_of fs)
    /\ t_padding t = n mod 2 ^ 29 - frames_size fs.
Proof. exact big_read. Qed.
Print Assumptions C96_read.

(** The rest stays in the file when the tag is deleted, *)
Theorem C96_delete : forall maj mi fl n fs s,
  known_version maj = true -> has_extended_header fl = false -> Forall (fun f => frame_ok f = true) fs ->
  frames_size fs <= n -> n + 10 < 2 ^ 31 ->
  ID3v2_delete_tag (Some (big_bytes maj mi fl n fs ++ s)) = Ok (Some (left_over maj mi fl n fs ++ s))
  /\ zlen (left_over maj mi fl n fs) = n - n mod 2 ^ 29.
Proof. exact big_delete. Qed.
Print Assumptions C96_delete.

(** and once more with every save. *)
Theorem C96_saves : forall fs maj mi fl n ext,
  known_version maj = true -> has_extended_header fl = false -> Forall (fun f => frame_ok f = true) fs ->
  frames_size fs <= n -> n + 10 < 2 ^ 31 ->
  forall k c t, announces_extended c = false -> tag_has t (map frame_of fs) ->
  t_header t = mkTH (lit "ID3") maj mi fl n ext -> 2048 - 2 ^ 31 < t_padding t < 2 ^ 31 ->
  save_times (S k) (Some c) (Some t)
  = Ok (Some (big_bytes maj mi fl n fs ++ concat (repeat (left_over maj mi fl n fs) k) ++ audio c)).
Proof. exact big_saves. Qed.
Print Assumptions C96_saves.

(** Two sizes: one that is recorded, but not as the standard asks, and one of
    which 2^29 is lost. *)
Example C96_applies :
  let t n := tag_with samples n in
  let c := [xff; xfb] in
  let n := 2 ^ 28 in
  let m := 2 ^ 29 + 300 in
  announces_extended c = false /\ (forall k, tag_has (t k) (map frame_of samples))
  /\ forallb (fun f => frame_ok f && readable f) samples = true
  /\ frames_size samples <= n /\ n + 10 < 2 ^ 31 /\ frames_size samples <= n mod 2 ^ 29
  /\ frames_size samples <= m /\ m + 10 < 2 ^ 31 /\ frames_size samples <= m mod 2 ^ 29
  /\ size_bytes n = [x80; x00; x00; x00] /\ n mod 2 ^ 29 = n
  /\ size_bytes m = [x00; x00; x02; x2c] /\ m mod 2 ^ 29 = 300.
Proof.
  split; [reflexivity|]. split; [apply tag_with_has|]. split; [reflexivity|].
  do 6 (split; [vm_compute; (reflexivity || discriminate)|]).
  do 3 (split; [vm_compute; reflexivity|]). vm_compute; reflexivity.
Qed.

(** A session that makes a tag so big, by setting a large picture for instance:
    it succeeds if there is room and the bytes of the tag can be counted by an
    int, and is undefined otherwise. *)
Theorem C96_session : forall major minor flags fs pad sound cs es,
  known_version major = true -> has_extended_header flags = false ->
  Forall (fun f => frame_ok f = true /\ readable f = true) fs ->
  0 <= pad -> frames_size fs + pad < 2 ^ 28 ->
  Forall2 means cs es -> all_proper es fs = true ->
  let content := tagged_file major minor flags fs pad sound in
  let fs' := edited es fs in
  let room := room_left es fs pad in
  let n := frames_size fs' + room in
  - 2 ^ 31 <= n < 2 ^ 32 ->
  if (0 <=? room) && (n + 10 <? 2 ^ 31)
  then run_session cs (Some content) = Ok (Some (big_bytes major minor flags n fs' ++ sound))
  else exists u, run_session cs (Some content) = Ub u.
Proof. exact big_session. Qed.
Print Assumptions C96_session.

(** A cover of 2^29 bytes; the size that is recorded is 60. *)
Example C96_applies_session :
  let pic := repeat x01 (Z.to_nat (2 ^ 29)) in
  let huge := FPicture [x00; x00] (Iso (lit "image/png")) x03 (Utf16 false []) pic in
  let cs := [SetAlbumCover (clit "image/png") (zlen pic) (Some (cells pic))] in
  Forall2 means cs [Put huge] /\ all_proper [Put huge] [title] = true
  /\ edited [Put huge] [title] = [title; huge] /\ room_left [Put huge] [title] 25 = 15
  /\ frames_size [title; huge] + 15 = 2 ^ 29 + 60
  /\ run_session cs (Some (tagged_file x03 x00 x00 [title] 25 [xff]))
     = Ok (Some (big_bytes x03 x00 x00 (2 ^ 29 + 60) [title; huge] ++ [xff]))
  /\ (2 ^ 29 + 60) mod 2 ^ 29 = 60.
Proof.
  intros pic huge cs.
  assert (Z : zlen pic = 2 ^ 29) by (unfold pic; rewrite zlen_repeat; apply Z2Nat.id; discriminate).
  clearbody pic.
  assert (B : body_size huge = 16 + 2 ^ 29).
  { unfold body_size, frame_body, huge. cbn [frame_encoding body_with]. rewrite !zlen_app, Z. reflexivity. }
  assert (M : Forall2 means cs [Put huge]).
  { constructor; [|constructor].
    apply (MAlbumCover (clit "image/png") (Some (cells pic)) (Iso (lit "image/png")) pic); apply points_to_exact. }
  assert (A : all_proper [Put huge] [title] = true).
  { cbn [all_proper]. unfold proper. cbn [edit_ok]. unfold frame_ok. rewrite B. reflexivity. }
  assert (S : frames_size [title; huge] + 15 = 2 ^ 29 + 60) by (cbn [frames_size fold_right]; rewrite B; reflexivity).
  pose proof (C96_session x03 x00 x00 [title] 25 [xff] cs [Put huge] eq_refl eq_refl) as Q.
  cbv zeta in Q. change (edited [Put huge] [title]) with [title; huge] in *. change (room_left [Put huge] [title] 25) with 15 in *.
  rewrite S in Q. do 5 (split; [auto; fail|]). split; [|reflexivity].
  change ((0 <=? 15) && (2 ^ 29 + 60 + 10 <? 2 ^ 31)) with true in Q. cbv iota in Q. apply Q.
  - constructor; [split; reflexivity|constructor].
  - discriminate.
  - reflexivity.
  - exact M.
  - exact A.
  - split; [discriminate|reflexivity].
Qed.
