(** Properties of lookups and edits: C18-C26. *)
From Verif Require Import File Calls Spec SpecEdit ClaimFacts Samples.

(** ** C18 *)

Theorem C18_lookup : forall t ps arg id,
  t_frames t = list_of ps -> Forall sane (map fp_frame ps) -> points_to arg id -> length id = 4%nat ->
  ID3v2_Tag_get_frame (Some t) arg = Ok (find (fun p => named id (fp_frame p)) ps)
  /\ ID3v2_Tag_get_frames (Some t) arg = Ok (list_of (filter (fun p => named id (fp_frame p)) ps)).
Proof. exact lookup. Qed.
Print Assumptions C18_lookup.

(** Ids without zero bytes are compared in full. *)
Theorem C18_exact : forall id f,
  sane f -> length id = 4%nat -> forallb (fun c => negb (is_zero c)) id = true ->
  (named id f = true <-> fh_id (f_hdr f) = cells id).
Proof. exact named_exact. Qed.
Print Assumptions C18_exact.

Theorem C18_named : forall t ps,
  t_frames t = list_of ps -> Forall sane (map fp_frame ps) ->
  let first id := Ok (find (fun p => named (lit id) (fp_frame p)) ps) in
  let all id := Ok (list_of (filter (fun p => named (lit id) (fp_frame p)) ps)) in
  ID3v2_Tag_get_artist_frame (Some t) = first "TPE1"%string
  /\ ID3v2_Tag_get_album_frame (Some t) = first "TALB"%string
  /\ ID3v2_Tag_get_title_frame (Some t) = first "TIT2"%string
  /\ ID3v2_Tag_get_track_frame (Some t) = first "TRCK"%string
  /\ ID3v2_Tag_get_album_artist_frame (Some t) = first "TPE2"%string
  /\ ID3v2_Tag_get_genre_frame (Some t) = first "TCON"%string
  /\ ID3v2_Tag_get_year_frame (Some t) = first "TYER"%string
  /\ ID3v2_Tag_get_disc_number_frame (Some t) = first "TPOS"%string
  /\ ID3v2_Tag_get_composer_frame (Some t) = first "TCOM"%string
  /\ ID3v2_Tag_get_comment_frame (Some t) = first "COMM"%string
  /\ ID3v2_Tag_get_album_cover_frame (Some t) = first "APIC"%string
  /\ ID3v2_Tag_get_comment_frames (Some t) = all "COMM"%string
  /\ ID3v2_Tag_get_apic_frames (Some t) = all "APIC"%string.
Proof. exact lookup_named. Qed.
Print Assumptions C18_named.

Theorem C18_null :
  (forall arg, ID3v2_Tag_get_frame None arg = Ok None /\ ID3v2_Tag_get_frames None arg = Ok [])
  /\ ID3v2_Tag_get_artist_frame None = Ok None /\ ID3v2_Tag_get_album_frame None = Ok None
  /\ ID3v2_Tag_get_title_frame None = Ok None /\ ID3v2_Tag_get_track_frame None = Ok None
  /\ ID3v2_Tag_get_album_artist_frame None = Ok None /\ ID3v2_Tag_get_genre_frame None = Ok None
  /\ ID3v2_Tag_get_year_frame None = Ok None /\ ID3v2_Tag_get_disc_number_frame None = Ok None
  /\ ID3v2_Tag_get_composer_frame None = Ok None /\ ID3v2_Tag_get_comment_frame None = Ok None
  /\ ID3v2_Tag_get_album_cover_frame None = Ok None
  /\ ID3v2_Tag_get_comment_frames None = Ok [] /\ ID3v2_Tag_get_apic_frames None = Ok [].
Proof. exact lookup_null. Qed.
Print Assumptions C18_null.

Example C18_applies :
  let t := tag_with samples 500 in
  let ps := combine (seq 0 5) (map frame_of samples) in
  t_frames t = list_of ps /\ Forall sane (map fp_frame ps)
  /\ points_to ID3v2_COMMENT_FRAME_ID (lit "COMM")
  /\ find (fun p => named (lit "COMM") (fp_frame p)) ps = Some (1%nat, frame_of comment1)
  /\ filter (fun p => named (lit "COMM") (fp_frame p)) ps
     = [(1%nat, frame_of comment1); (3%nat, frame_of comment2)].
Proof.
  split; [reflexivity|]. split; [exact samples_sane|]. split; [exists [Some x00]; reflexivity|]. split; reflexivity.
Qed.

(** ** C19 *)

(** [means c (Put f)]: call [c] is one of the setters and its arguments
    describe the frame [f]; [getter_of] pairs it with the getter. *)
Theorem C19_set_get : forall t fs c f g,
  tag_has t fs -> Forall sane fs -> 0 <= th_tag_size (t_header t) < 2 ^ 32 ->
  means c (Put f) -> frame_ok f = true -> getter_of c = Some g ->
  exists t' p, run_call t c = Ok t' /\ g (Some t') = Ok (Some p) /\ fp_frame p = frame_of f.
Proof. exact set_then_get. Qed.
Print Assumptions C19_set_get.

(** Every setter has a getter. *)
Theorem C19_all_setters : forall c f, means c (Put f) -> exists g, getter_of c = Some g.
Proof. exact setter_has_getter. Qed.
Print Assumptions C19_all_setters.

Example C19_applies :
  tag_has (tag_with samples 500) (map frame_of samples) /\ Forall sane (map frame_of samples)
  /\ means (SetComment (clit "eng") (clit "x")) (Put (FComment [x00; x00] (lit "eng") (Utf16 false []) (Iso (lit "x"))))
  /\ frame_ok (FComment [x00; x00] (lit "eng") (Utf16 false []) (Iso (lit "x"))) = true.
Proof.
  split; [apply tag_with_has|]. split; [exact samples_sane|]. split; [|reflexivity].
  apply MComment; [exists [Some x00]|exists []]; reflexivity.
Qed.

(** ** C20 *)

Theorem C20_set : forall t fs c f,
  tag_has t fs -> Forall sane fs -> 0 <= th_tag_size (t_header t) < 2 ^ 32 ->
  means c (Put f) -> frame_ok f = true ->
  exists t', run_call t c = Ok t'
    /\ ((existsb (named (frame_id f)) fs = false /\ tag_has t' (fs ++ [frame_of f]))
        \/ exists l1 x l2, fs = l1 ++ x :: l2 /\ existsb (named (frame_id f)) l1 = false
             /\ named (frame_id f) x = true /\ tag_has t' (l1 ++ frame_of f :: l2)).
Proof. exact set_shape. Qed.
Print Assumptions C20_set.

Theorem C20_add : forall t fs c f,
  tag_has t fs -> Forall sane fs -> 0 <= th_tag_size (t_header t) < 2 ^ 32 ->
  means c (Append f) -> frame_ok f = true ->
  exists t', run_call t c = Ok t' /\ tag_has t' (fs ++ [frame_of f]).
Proof. exact add_shape. Qed.
Print Assumptions C20_add.

Example C20_applies :
  tag_has (tag_with samples 500) (map frame_of samples)
  /\ existsb (named (frame_id artist)) (map frame_of samples) = false
  /\ existsb (named (frame_id comment2)) (map frame_of [title]) = false
  /\ named (frame_id comment2) (frame_of comment1) = true
  /\ means (SetArtist (Some (cells (text_image (Iso (lit "Someone")))))) (Put artist)
  /\ means (nth 1 calls DeleteTitle) (Append comment1).
Proof.
  split; [apply tag_with_has|]. repeat (split; [reflexivity|]).
  pose proof calls_mean as H. inversion H as [|? ? ? ? M1 H1]; subst. inversion H1 as [|? ? ? ? M2 H2]; subst. auto.
Qed.

(** ** C21 *)

Theorem C21_delete : forall t c id l1 x l2,
  let fs := l1 ++ x :: l2 in
  tag_has t fs -> Forall sane fs -> 0 <= th_tag_size (t_header t) < 2 ^ 32 ->
  means c (Remove id) -> existsb (named id) l1 = false -> named id x = true ->
  exists t', run_call t c = Ok t'
    /\ frames_in (t_frames t') = l1 ++ l2
    /\ t_header t' = sized (t_header t) ((th_tag_size (t_header t) - (10 + fh_size (f_hdr x))) mod 2 ^ 32)
    /\ t_padding t' = t_padding t
    /\ (l1 = [] \/ l2 <> [] -> tag_has t' (l1 ++ l2)).
Proof. exact delete_first. Qed.
Print Assumptions C21_delete.

Example C21_applies :
  let l1 := [frame_of title] in
  let l2 := map frame_of [private; comment2; cover] in
  map frame_of samples = l1 ++ frame_of comment1 :: l2
  /\ means DeleteComment (Remove (lit "COMM"))
  /\ existsb (named (lit "COMM")) l1 = false /\ named (lit "COMM") (frame_of comment1) = true.
Proof. repeat split. constructor. Qed.

(** ** C22 *)

Theorem C22_absent : forall t c id fs,
  tag_has t fs -> Forall sane fs -> means c (Remove id) -> existsb (named id) fs = false ->
  run_call t c = Ub NullDeref.
Proof. exact delete_absent. Qed.
Print Assumptions C22_absent.

Example C22_applies :
  tag_has (tag_with samples 500) (map frame_of samples) /\ means DeleteArtist (Remove (lit "TPE1"))
  /\ existsb (named (lit "TPE1")) (map frame_of samples) = false
  /\ run_call ID3v2_Tag_new_empty DeleteArtist = Ub NullDeref.
Proof. split; [apply tag_with_has|]. repeat split. constructor. Qed.

(** ** C23 *)

Theorem C23_indexed : forall t c id i l1 x l2,
  let fs := l1 ++ x :: l2 in
  tag_has t fs -> Forall sane fs -> 0 <= th_tag_size (t_header t) < 2 ^ 32 ->
  means c (RemoveNth id i) -> named id x = true -> zlen (filter (named id) l1) = i ->
  exists t', run_call t c = Ok t'
    /\ frames_in (t_frames t') = l1 ++ l2
    /\ t_header t' = t_header t /\ t_padding t' = t_padding t
    /\ (l1 = [] \/ l2 <> [] -> tag_has t' (l1 ++ l2)).
Proof. exact delete_nth. Qed.
Print Assumptions C23_indexed.

Theorem C23_out_of_range : forall t c id i fs,
  tag_has t fs -> Forall sane fs -> means c (RemoveNth id i) ->
  i < 0 \/ zlen (filter (named id) fs) <= i ->
  run_call t c = Ok t.
Proof. exact delete_nth_out. Qed.
Print Assumptions C23_out_of_range.

Example C23_applies :
  let l1 := map frame_of [title; comment1; private] in
  map frame_of samples = l1 ++ frame_of comment2 :: [frame_of cover]
  /\ means (DeleteCommentFrame 1) (RemoveNth (lit "COMM") 1)
  /\ named (lit "COMM") (frame_of comment2) = true
  /\ zlen (filter (named (lit "COMM")) l1) = 1
  /\ zlen (filter (named (lit "COMM")) (map frame_of samples)) <= 2.
Proof. repeat split; [constructor|discriminate]. Qed.

(** ** C24 *)

(** [victim_pos e frames = Some n]: the delete removes the frame at position
    [n]; here it is the last of at least two frames. *)
Theorem C24_write_exits : forall t fs f c e maj mi fl n ext content h,
  let frames := map frame_of (fs ++ [f]) in
  fs <> [] -> tag_has t frames -> Forall (fun f => frame_ok f = true) (fs ++ [f]) ->
  t_header t = mkTH (lit "ID3") maj mi fl n ext ->
  frames_size (fs ++ [f]) <= n -> n + 10 < 2 ^ 31 -> 0 <= t_padding t < 2 ^ 31 ->
  means c e -> victim_pos e frames = Some (length fs) ->
  ID3v2_read_tag_header (Some content) = Ok h ->
  exists t', run_call t c = Ok t' /\ Tag_to_char_stream t' = Exit 1
    /\ ID3v2_write_tag (Some content) (Some t') = Exit 1.
Proof. exact hole_write. Qed.
Print Assumptions C24_write_exits.

Theorem C24_added_frame_is_lost : forall t fs f c e maj mi fl n ext c' g arg id,
  let frames := map frame_of (fs ++ [f]) in
  fs <> [] -> tag_has t frames -> Forall (fun f => frame_ok f = true) (fs ++ [f]) ->
  t_header t = mkTH (lit "ID3") maj mi fl n ext ->
  frames_size (fs ++ [f]) <= n -> n + 10 < 2 ^ 31 ->
  means c e -> victim_pos e frames = Some (length fs) ->
  frame_ok g = true -> means c' (Append g) \/ means c' (Put g) ->
  id = frame_id g -> existsb (named id) (map frame_of fs) = false -> points_to arg id ->
  exists t' t'', run_call t c = Ok t' /\ run_call t' c' = Ok t''
    /\ frames_in (t_frames t'') = map frame_of fs ++ [frame_of g]
    /\ ID3v2_Tag_get_frame (Some t'') arg = Ok None.
Proof. exact hole_hides. Qed.
Print Assumptions C24_added_frame_is_lost.

Theorem C24_otherwise_no_hole : forall t fs c e n,
  tag_has t fs -> Forall sane fs -> 0 <= th_tag_size (t_header t) < 2 ^ 32 ->
  means c e -> victim_pos e fs = Some n -> (S n < length fs)%nat \/ length fs = 1%nat ->
  exists t', run_call t c = Ok t' /\ tag_has t' (apply_edit e fs).
Proof. exact no_hole. Qed.
Print Assumptions C24_otherwise_no_hole.

Example C24_applies :
  let fs := [title; comment1; private; comment2] in
  samples = fs ++ [cover] /\ tag_has (tag_with samples 500) (map frame_of (fs ++ [cover]))
  /\ Forall (fun f => frame_ok f = true) (fs ++ [cover]) /\ frames_size (fs ++ [cover]) <= 500
  /\ means DeleteAlbumCover (Remove (lit "APIC"))
  /\ victim_pos (Remove (lit "APIC")) (map frame_of (fs ++ [cover])) = Some (length fs)
  /\ ID3v2_read_tag_header (Some (lit "some audio")) = Ok None
  /\ means (SetArtist (Some (cells (text_image (Iso (lit "Someone")))))) (Put artist)
  /\ existsb (named (frame_id artist)) (map frame_of fs) = false.
Proof.
  split; [reflexivity|]. split; [apply tag_with_has|]. split; [repeat constructor|]. split; [discriminate|].
  split; [constructor|]. split; [reflexivity|]. split; [reflexivity|].
  split; [apply MArtist, points_to_exact|reflexivity].
Qed.

(** ** C25 *)

(** [all_allowed]: no delete of an absent frame, no delete of the last of
    several frames, and the frames that are put in are well formed. *)
Theorem C25_history : forall t fs cs es,
  tag_has t fs -> Forall sane fs -> 0 <= th_tag_size (t_header t) < 2 ^ 32 ->
  Forall2 means cs es -> all_allowed es fs = true ->
  exists t', run_calls t cs = Ok t' /\ tag_has t' (apply_edits es fs) /\ t_padding t' = t_padding t.
Proof. exact history. Qed.
Print Assumptions C25_history.

Example C25_applies :
  tag_has (tag_with samples 500) (map frame_of samples) /\ Forall sane (map frame_of samples)
  /\ Forall2 means calls edits /\ all_allowed edits (map frame_of samples) = true
  /\ apply_edits edits (map frame_of samples) = map frame_of [comment1; private; cover; artist; comment1].
Proof.
  split; [apply tag_with_has|]. split; [exact samples_sane|]. split; [exact calls_mean|]. split; reflexivity.
Qed.

(** ** C26 *)

(** [room] is the recorded size minus the bytes the frames need; [room_delta]
    says by how much each edit changes it.  The recorded size is an unsigned
    int, hence the modulus. *)
Theorem C26_room : forall t fs cs es room,
  tag_has t fs -> Forall sane fs -> 0 <= th_tag_size (t_header t) < 2 ^ 32 ->
  th_tag_size (t_header t) = bytes_needed fs + room ->
  Forall2 means cs es -> all_allowed es fs = true ->
  let fs' := apply_edits es fs in
  exists t', run_calls t cs = Ok t' /\ tag_has t' fs'
    /\ t_header t' = sized (t_header t) ((bytes_needed fs' + (room + room_deltas es fs)) mod 2 ^ 32).
Proof. exact history_room. Qed.
Print Assumptions C26_room.

Example C26_applies :
  bytes_needed (map frame_of samples) = 106
  /\ room_deltas edits (map frame_of samples) = -10 - 10 + 0 + (10 + fh_size (f_hdr (frame_of comment2))) + 0
  /\ exists t', run_calls (tag_with samples 500) calls = Ok t'
     /\ th_tag_size (t_header t') = bytes_needed (apply_edits edits (map frame_of samples)) + (500 - 106 - 20 + 22).
Proof. split; [vm_compute; reflexivity|]. split; [vm_compute; reflexivity|]. eexists. split; vm_compute; reflexivity. Qed.
