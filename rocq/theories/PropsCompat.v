(** Properties of the version 1 interface: C39, C40. *)
From Verif Require Import File Compat Calls Spec SpecEdit SpecFile SpecCompat CompatFacts Samples.

(** ** C39 *)

(** A tag that is read and has frames: same tag below, and the version 1 list
    mirrors it.  One without frames: NULL is dereferenced. *)
Theorem C39_load : forall p n t fs,
  ID3v2_read_tag_from_buffer p n = Ok (Some t) ->
  tag_has t (map frame_of fs) -> Forall (fun f => frame_ok f = true) fs ->
  match fs with
  | [] => load_tag_with_buffer p n = Ub NullDeref
  | _ => exists c raw, load_tag_with_buffer p n = Ok c /\ ct_tag c = t /\ mirrors c fs
         /\ memcpy_from p n = Ok raw /\ ct_raw c = Some raw
         /\ ct_header c = mkCH (cells (th_identifier (t_header t))) (Some (th_major (t_header t)))
                (Some (th_minor (t_header t))) (Some (th_flags (t_header t)))
                (Some (to_i32 (th_tag_size (t_header t)))) (Some (to_i32 (th_ext_size (t_header t))))
  end.
Proof. exact load_gen. Qed.
Print Assumptions C39_load.

Theorem C39_no_tag : forall p n,
  ID3v2_read_tag_from_buffer p n = Ok None -> load_tag_with_buffer p n = Ub NullDeref.
Proof. exact load_none. Qed.
Print Assumptions C39_no_tag.

Theorem C39_file : forall f t fs,
  ID3v2_read_tag f = Ok (Some t) -> tag_has t (map frame_of fs) -> Forall (fun f => frame_ok f = true) fs ->
  match fs with
  | [] => load_tag f = Ub NullDeref
  | _ => exists c, load_tag f = Ok c /\ ct_tag c = t /\ mirrors c fs
         /\ ct_header c = mkCH (cells (th_identifier (t_header t))) (Some (th_major (t_header t)))
                (Some (th_minor (t_header t))) (Some (th_flags (t_header t)))
                (Some (to_i32 (th_tag_size (t_header t)))) (Some (to_i32 (th_ext_size (t_header t))))
  end.
Proof. exact load_file_gen. Qed.
Print Assumptions C39_file.

(** A missing file, and one without a tag. *)
Theorem C39_file_no_tag : forall f, ID3v2_read_tag f = Ok None -> load_tag f = Ub NullDeref.
Proof. exact load_file_none. Qed.
Print Assumptions C39_file_no_tag.

Theorem C39_getters : forall c afs, mirrored c afs ->
  let first id := Ok (option_map (fun af => compat_of (fst af) (snd af))
                                 (find (fun af => has_id (lit id) (snd af)) afs)) in
  tag_get_title (Some c) = first "TIT2"%string
  /\ tag_get_artist (Some c) = first "TPE1"%string
  /\ tag_get_album (Some c) = first "TALB"%string
  /\ tag_get_album_artist (Some c) = first "TPE2"%string
  /\ tag_get_genre (Some c) = first "TCON"%string
  /\ tag_get_track (Some c) = first "TRCK"%string
  /\ tag_get_year (Some c) = first "TYER"%string
  /\ tag_get_comment (Some c) = first "COMM"%string
  /\ tag_get_disc_number (Some c) = first "TPOS"%string
  /\ tag_get_composer (Some c) = first "TCOM"%string
  /\ tag_get_album_cover (Some c) = first "APIC"%string.
Proof. exact getters. Qed.
Print Assumptions C39_getters.

(** The content functions, on the frames of a tag. *)
Theorem C39_contents : forall c afs a f, mirrored c afs -> In (a, f) afs ->
  let live := t_frames (ct_tag c) in
  let g := Some (compat_of a f) in
  match f with
  | FText _ _ t =>
      parse_text_frame_content live g = Ok (mkTC (zlen (text_image t)) (text_encoding t) (cells (text_image t)))
  | FComment _ lang d co =>
      parse_comment_frame_content live g
      = Ok (mkCC (cells lang) (cells (text_image d)) (mkTC (zlen (text_image co)) (text_encoding co) (cells (text_image co))))
  | FPicture _ m ty d pic =>
      parse_apic_frame_content live g
      = Ok (mkAC (text_encoding d) (cells (text_image m)) ty (cells (text_image d)) (zlen pic) (cells pic))
  | FOther _ _ _ => True
  end.
Proof. exact contents. Qed.
Print Assumptions C39_contents.

Theorem C39_contents_confused : forall c afs a f, mirrored c afs -> In (a, f) afs ->
  let live := t_frames (ct_tag c) in
  let g := Some (compat_of a f) in
  (match f with FText _ _ _ => True | _ => parse_text_frame_content live g = Ub TypeConfusion end)
  /\ (match f with FComment _ _ _ _ => True | _ => parse_comment_frame_content live g = Ub TypeConfusion end)
  /\ (match f with FPicture _ _ _ _ _ => True | _ => parse_apic_frame_content live g = Ub TypeConfusion end).
Proof. exact contents_confused. Qed.
Print Assumptions C39_contents_confused.

(** A file with five frames, loaded; the comment and the cover got from it. *)
Definition sample_file : list byte := tag_bytes x03 x00 x00 200 samples ++ [xff; xfb].

Example C39_applies :
  exists c, load_tag (Some sample_file) = Ok c
    /\ ct_header c = compat_header x03 x00 x00 200
    /\ tag_get_comment (Some c) = Ok (Some (compat_of 1 comment1))
    /\ tag_get_artist (Some c) = Ok None
    /\ (let* g := tag_get_album_cover (Some c) in parse_apic_frame_content (t_frames (ct_tag c)) g)
       = Ok (mkAC x01 (cells (lit "image/png" ++ [x00])) x03 (cells [xff; xfe; x00; x00]) 3 (cells [x00; x00; xff])).
Proof.
  eexists. split; [vm_compute; reflexivity|]. split; [vm_compute; reflexivity|].
  split; [vm_compute; reflexivity|]. split; vm_compute; reflexivity.
Qed.

Example C39_applies_empty :
  load_tag (Some (tag_bytes x04 x00 x00 20 [])) = Ub NullDeref
  /\ (exists t, ID3v2_read_tag (Some (tag_bytes x04 x00 x00 20 [])) = Ok (Some t))
  /\ load_tag (Some (lit "no tag here")) = Ub NullDeref /\ load_tag None = Ub NullDeref.
Proof. split; [vm_compute; reflexivity|]. split; [eexists; vm_compute; reflexivity|]. split; vm_compute; reflexivity. Qed.

(** ** C40 *)

(** The tag has a frame with the id. *)
Theorem C40_set : forall c fs cc f,
  mirrors c fs -> cmeans cc f -> frame_ok f = true -> existsb (has_id (frame_id f)) fs = true ->
  exists c', run_ccall cc (Some c) = Ok c' /\ mirrors c' (put_frame f fs)
    /\ ct_raw c' = ct_raw c /\ ct_header c' = ct_header c.
Proof. exact set_ok. Qed.
Print Assumptions C40_set.

(** It has not. *)
Theorem C40_absent : forall c fs cc f,
  mirrors c fs -> cmeans cc f -> frame_ok f = true -> existsb (has_id (frame_id f)) fs = false ->
  run_ccall cc (Some c) = Ub NullDeref.
Proof. exact set_absent. Qed.
Print Assumptions C40_absent.

Theorem C40_new : forall cc f, cmeans cc f -> frame_ok f = true -> run_ccall cc (Some new_tag) = Ub NullDeref.
Proof. exact set_new. Qed.
Print Assumptions C40_new.

(** Any number of setters. *)
Theorem C40_history : forall ccs c fs gs fs',
  mirrors c fs -> Forall2 cmeans ccs gs -> put_frames gs fs = Some fs' ->
  exists c', run_ccalls ccs c = Ok c' /\ mirrors c' fs' /\ ct_raw c' = ct_raw c /\ ct_header c' = ct_header c.
Proof. exact set_history. Qed.
Print Assumptions C40_history.

Theorem C40_history_absent : forall ccs1 cc ccs2 c fs gs g fs',
  mirrors c fs -> Forall2 cmeans ccs1 gs -> put_frames gs fs = Some fs' -> cmeans cc g -> frame_ok g = true ->
  existsb (has_id (frame_id g)) fs' = false ->
  run_ccalls (ccs1 ++ cc :: ccs2) c = Ub NullDeref.
Proof. exact set_history_ub. Qed.
Print Assumptions C40_history_absent.

(** Frames got before a set of the same id must not be used after it. *)
Theorem C40_stale : forall c afs cc f a g c',
  mirrored c afs -> cmeans cc f -> frame_ok f = true -> run_ccall cc (Some c) = Ok c' ->
  find (fun af => has_id (frame_id f) (snd af)) afs = Some (a, g) ->
  let live := t_frames (ct_tag c') in
  let old := Some (compat_of a g) in
  parse_text_frame_content live old = Ub UseAfterFree
  /\ parse_comment_frame_content live old = Ub UseAfterFree
  /\ parse_apic_frame_content live old = Ub UseAfterFree.
Proof. exact stale. Qed.
Print Assumptions C40_stale.

(** Covers from files that do not exist, or whose name has no dot. *)
Theorem C40_cover_missing : forall name t, tag_set_album_cover name None t = Ub NullDeref.
Proof. exact cover_missing. Qed.
Print Assumptions C40_cover_missing.

Theorem C40_cover_no_extension : forall p name pic t,
  points_to p (text_image (Iso name)) -> forallb (fun c => negb (is_zero c)) name = true ->
  extension name = None -> zlen pic < 2 ^ 31 ->
  tag_set_album_cover p (Some pic) t = Ub NullDeref.
Proof. exact cover_no_extension. Qed.
Print Assumptions C40_cover_no_extension.

(** Written to a file with set_tag, the tag is loaded again from it. *)
Theorem C40_set_tag : forall content c fs maj mi fl n,
  announces_extended content = false -> known_version maj = true -> has_extended_header fl = false ->
  mirrors c fs -> fs <> [] -> Forall (fun f => survives maj f = true) fs ->
  t_header (ct_tag c) = mkTH (lit "ID3") maj mi fl n 0 -> frames_size fs <= n -> n < 2 ^ 28 ->
  0 <= t_padding (ct_tag c) < 2 ^ 31 ->
  exists c1 written c2, set_tag (Some content) (Some c) = Ok (Some written, c1)
    /\ written = tag_bytes maj mi fl n fs ++ audio content
    /\ mirrors c1 fs
    /\ load_tag (Some written) = Ok c2 /\ mirrors c2 fs /\ t_header (ct_tag c2) = t_header (ct_tag c)
    /\ ct_header c2 = compat_header maj mi fl n.
Proof. exact set_then_load. Qed.
Print Assumptions C40_set_tag.

(** free_tag on what was loaded, and on a new tag. *)
Theorem C40_free : forall c fs raw,
  mirrors c fs -> fs <> [] -> ct_raw c = Some raw -> free_tag (Some c) = Ok tt.
Proof. exact free_loaded. Qed.
Print Assumptions C40_free.

Theorem C40_free_new : free_tag (Some new_tag) = Ub UninitRead.
Proof. exact free_new. Qed.
Print Assumptions C40_free_new.

(** Load, set title and cover, write, load, look. *)
Definition new_title : text := Iso (lit "New").

Example C40_applies :
  cmeans (CTitle (Some (cells (text_image new_title))) x00) (FText (lit "TIT2") [x00; x00] new_title)
  /\ cmeans (CCoverFile (Some (cells (text_image (Iso (lit "a.b.png"))))) (Some [x01; x02]))
            (FPicture [x00; x00] (Iso (lit "image/png")) x03 (Utf16 false []) [x01; x02])
  /\ exists c c1 written c2,
       load_tag (Some sample_file) = Ok c
       /\ run_ccalls [CTitle (Some (cells (text_image new_title))) x00;
                      CCoverFile (Some (cells (text_image (Iso (lit "a.b.png"))))) (Some [x01; x02])] c = Ok c1
       /\ run_ccall (CArtist (Some (cells (text_image new_title))) x00) (Some c) = Ub NullDeref
       /\ (let* g := tag_get_title (Some c) in parse_text_frame_content (t_frames (ct_tag c1)) g) = Ub UseAfterFree
       /\ (let* (f, _) := set_tag (Some sample_file) (Some c1) in Ok f) = Ok (Some written)
       /\ load_tag (Some written) = Ok c2
       /\ (let* g := tag_get_title (Some c2) in parse_text_frame_content (t_frames (ct_tag c2)) g)
          = Ok (mkTC 4 x00 (cells (lit "New" ++ [x00])))
       /\ free_tag (Some c2) = Ok tt.
Proof.
  split; [apply KTitle, points_to_exact|].
  split; [apply (KCoverFile _ (lit "a.b.png")); [apply points_to_exact|reflexivity|reflexivity]|].
  eexists _, _, _, _. split; [vm_compute; reflexivity|]. split; [vm_compute; reflexivity|].
  split; [vm_compute; reflexivity|]. split; [vm_compute; reflexivity|]. split; [vm_compute; reflexivity|].
  split; [vm_compute; reflexivity|]. split; [vm_compute; reflexivity|]. vm_compute; reflexivity.
Qed.

Example C40_applies_history :
  exists c fs', load_tag (Some sample_file) = Ok c /\ mirrors c samples
    /\ put_frames [FText (lit "TIT2") [x00; x00] new_title] samples = Some fs' /\ fs' <> samples
    /\ Forall (fun f => survives x03 f = true) fs'.
Proof.
  eexists _, _. split; [vm_compute; reflexivity|]. split.
  - exists (combine (seq 0 5) samples). split; [|reflexivity]. split; [vm_compute; reflexivity|].
    split; [vm_compute; reflexivity|]. split; [exact (seq_NoDup 5 0)|]. split; [|repeat constructor].
    change (Forall (fun a => (a < 5)%nat) (seq 0 5)). cbn. repeat constructor.
  - split; [vm_compute; reflexivity|]. split; [discriminate|]. repeat constructor.
Qed.

(** ** C33 *)

(** remove_tag of the version 1 interface leaves the sound, too. *)
Theorem C33_remove_tag :
  (forall content, announces_extended content = false -> remove_tag (Some content) = Ok (Some (audio content)))
  /\ remove_tag None = Ok None.
Proof. exact remove_file. Qed.
Print Assumptions C33_remove_tag.

Example C33_remove_tag_applies :
  let content := lit "ID3" ++ [x03; x00; x00; x00; x00; x00; x02; x00; x00; xff; xfb; x90] in
  announces_extended content = false /\ audio content = [xff; xfb; x90] /\ remove_tag (Some content) = Ok (Some [xff; xfb; x90]).
Proof. repeat split; vm_compute; reflexivity. Qed.
