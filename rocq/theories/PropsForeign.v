(** The version 1 interface on the files of other programs: C61. *)
From Verif Require Import File Compat Calls Spec SpecEdit SpecFile SpecRead SpecSession SpecRewrite SpecCompat SpecForeign
  ReadFacts ForeignFacts Samples.
From Coq Require Import Lia.

(** For whole frames the struct is that of C39. *)
Theorem C61_whole : forall c fs, Forall (fun f => frame_ok f = true) fs ->
  (mirrors_any c (map frame_of fs) <-> mirrors c fs).
Proof. exact mirrors_whole. Qed.
Print Assumptions C61_whole.

(** Loading, whatever the file. *)
Theorem C61_load : forall content r, file_read content r ->
  match r with
  | None => load_tag (Some content) = Ub NullDeref
  | Some (h, gs, pad) =>
      match gs with
      | [] => load_tag (Some content) = Ub NullDeref
      | _ =>
        (Forall sane gs /\ exists c raw, load_tag (Some content) = Ok c /\ mirrors_any c gs
           /\ t_header (ct_tag c) = h /\ t_padding (ct_tag c) = pad /\ ct_raw c = Some raw
           /\ ct_header c = compat_header (th_major h) (th_minor h) (th_flags h) (th_tag_size h))
        \/ (Exists (fun g => ~ sane g) gs /\ load_tag (Some content) = Ub IntOverflow)
      end
  end.
Proof. exact load_foreign. Qed.
Print Assumptions C61_load.

Theorem C61_unread : forall content, (forall r, ~ file_read content r) -> exists u, load_tag (Some content) = Ub u.
Proof. exact load_unread. Qed.
Print Assumptions C61_unread.

Theorem C61_getters : forall c ps, mirrored_any c ps -> Forall sane (map fp_frame ps) ->
  let first id := Ok (option_map (fun p => compat_any (fp_addr p) (fp_frame p))
                                 (find (fun p => named (lit id) (fp_frame p)) ps)) in
  tag_get_title (Some c) = first "TIT2"%string
  /\ tag_get_artist (Some c) = first "TPE1"%string
  /\ tag_get_album (Some c) = first "TALB"%string
  /\ tag_get_album_artist (Some c) = first "TPE2"%string
  /\ tag_get_genre (Some c) = first "TCON"%string
  /\ tag_get_track (Some c) = first "TRCK"%string
  /\ tag_get_year (Some c) = first "TYER"%string
  /\ tag_get_comment (Some c) = first "COMM"%string
  /\ tag_get_disc_number (Some c) = first "TPOS"%string
  /\ tag_get_composer (Some c) = first "TCOM"%string
  /\ tag_get_album_cover (Some c) = first "APIC"%string.
Proof. exact getters_any. Qed.
Print Assumptions C61_getters.

(** The content of a cover that was cut off is got, with what is missing of it
    indeterminate. *)
Theorem C61_contents : forall c ps a g, mirrored_any c ps -> In (a, g) ps ->
  let live := t_frames (ct_tag c) in
  let p := Some (compat_any a g) in
  (forall id fl t, g = frame_of (FText id fl t) ->
     parse_text_frame_content live p = Ok (mkTC (zlen (text_image t)) (text_encoding t) (cells (text_image t))))
  /\ (forall fl lang d co, g = frame_of (FComment fl lang d co) ->
     parse_comment_frame_content live p
     = Ok (mkCC (cells lang) (cells (text_image d)) (mkTC (zlen (text_image co)) (text_encoding co) (cells (text_image co)))))
  /\ (forall d, f_data g = DApic d ->
     parse_apic_frame_content live p
     = Ok (mkAC (ad_encoding d) (ad_mime d) (ad_type d) (ad_desc d) (ad_picture_size d) (ad_data d))).
Proof. exact contents_any. Qed.
Print Assumptions C61_contents.

(** Load, set, save. *)
Theorem C61_session : forall content h gs pad ccs fs,
  file_read content (Some (h, gs, pad)) -> gs <> [] -> Forall sane gs ->
  Forall2 cmeans ccs fs -> forallb frame_ok fs = true ->
  exists c, load_tag (Some content) = Ok c /\ mirrors_any c gs
    /\ match put_over fs gs with
       | None => run_ccalls ccs c = Ub NullDeref
       | Some gs' =>
           let n := bytes_needed gs' + (th_tag_size h - bytes_needed gs) in
           exists c', run_ccalls ccs c = Ok c' /\ mirrors_any c' gs' /\ ct_header c' = ct_header c
           /\ (- 2 ^ 31 <= n < 2 ^ 28 ->
               (exists fs', gs' = map frame_of fs' /\ Forall (fun f => frame_ok f = true) fs'
                  /\ if frames_size fs' <=? n
                     then exists c'', set_tag (Some content) (Some c')
                            = Ok (Some (tag_bytes (th_major h) (th_minor h) (th_flags h) n fs' ++ audio content), c'')
                          /\ mirrors c'' fs'
                     else exists u, set_tag (Some content) (Some c') = Ub u)
               \/ (Exists cut_frame gs' /\ exists u, set_tag (Some content) (Some c') = Ub u))
       end.
Proof. exact save_foreign. Qed.
Print Assumptions C61_session.

Theorem C61_free : forall c gs raw, mirrors_any c gs -> gs <> [] -> ct_raw c = Some raw -> free_tag (Some c) = Ok tt.
Proof. exact free_any. Qed.
Print Assumptions C61_free.

(** A file of another program that ends within the cover: it is loaded, and the
    cover got from it has 24 bytes that nobody wrote.  With the title set it
    cannot be saved; with another cover it can. *)
Definition torn_file : list byte :=
  lit "ID3" ++ [x03; x00; x00] ++ [x00; x00; x00; x46]
  ++ (lit "TIT2" ++ [x00; x00; x00; x06] ++ [x00; x00] ++ [x03] ++ lit "k" ++ [x00] ++ lit "val")
  ++ (lit "APIC" ++ [x00; x00; x00; x27] ++ [x00; x00] ++ [x00] ++ lit "image/png" ++ [x00] ++ [x03] ++ [x00] ++ lit "ab").

Definition torn_cover : frame :=
  mkFrame (mkFH (cells (lit "APIC")) 39 (cells [x00; x00]))
    (DApic (mkAD x00 (cells (lit "image/png" ++ [x00])) x03 (cells [x00]) (cells (lit "ab") ++ repeat None 24) 26)).

Definition torn_frames : list frame := [frame_of (FText (lit "TIT2") [x00; x00] (Iso (lit "k"))); torn_cover].

Lemma torn_read : file_read torn_file (Some (mkTH (lit "ID3") x03 x00 x00 70 0, torn_frames, 5)).
Proof.
  destruct (read_file_exactly torn_file) as [(r & t & R & E & S)|[_ (u & E)]]; vm_compute in E; [|discriminate E].
  injection E as <-. destruct r as [[[h fs] pad]|]; [|contradiction]. destruct S as (<- & H & <-).
  destruct H as (ps & E & <- & _). destruct ps as [|p1 [|p2 [|p3 ps]]]; try discriminate E.
  injection E as <- <-. exact R.
Qed.

Example C61_applies :
  let hi := Some (cells (text_image (Iso (lit "Hi")))) in
  let png := Some (cells (text_image (Iso (lit "image/png")))) in
  let f := FText (lit "TIT2") [x00; x00] (Iso (lit "Hi")) in
  let g := FPicture [x00; x00] (Iso (lit "image/png")) x03 (Utf16 false []) (lit "ab") in
  file_read torn_file (Some (mkTH (lit "ID3") x03 x00 x00 70 0, torn_frames, 5))
  /\ Forall sane torn_frames /\ cut_frame torn_cover
  /\ Forall2 cmeans [CTitle hi x00; CCoverBytes (Some (cells (lit "ab"))) png 2] [f; g]
  /\ forallb frame_ok [f; g] = true
  /\ put_over [f; g] torn_frames = Some (map frame_of [f; g])
  /\ put_over [FText (lit "TALB") [x00; x00] (Iso (lit "Hi"))] torn_frames = None
  /\ exists c, load_tag (Some torn_file) = Ok c /\ mirrored_any c (combine [0%nat; 1%nat] torn_frames)
     /\ tag_get_album_cover (Some c) = Ok (Some (compat_any 1 torn_cover))
     /\ (exists c1, run_ccall (CTitle hi x00) (Some c) = Ok c1 /\ set_tag (Some torn_file) (Some c1) = Ub UninitRead)
     /\ (exists c2 c3, run_ccalls [CTitle hi x00; CCoverBytes (Some (cells (lit "ab"))) png 2] c = Ok c2
         /\ set_tag (Some torn_file) (Some c2) = Ok (Some (tag_bytes x03 x00 x00 50 [f; g]), c3))
     /\ run_ccall (CAlbum hi x00) (Some c) = Ub NullDeref
     /\ free_tag (Some c) = Ok tt.
Proof.
  intros hi png f g.
  split; [exact torn_read|]. split.
  { constructor; [|constructor; [|constructor]].
    - split; [exists (lit "TIT2"); split; reflexivity|cbn; lia].
    - split; [exists (lit "APIC"); split; reflexivity|cbn; lia]. }
  split; [right; cbn; tauto|]. split.
  { constructor; [apply KTitle, points_to_exact|]. constructor; [|constructor].
    apply (KCoverBytes (Some (cells (lit "ab"))) png (lit "ab") (Iso (lit "image/png"))); apply points_to_exact. }
  do 3 (split; [vm_compute; reflexivity|]).
  eexists. split; [vm_compute; reflexivity|]. split.
  { split; [vm_compute; reflexivity|]. split; [vm_compute; reflexivity|].
    split; [exact (seq_NoDup 2 0)|]. cbn. repeat constructor. }
  split; [vm_compute; reflexivity|].
  split; [eexists; split; [vm_compute; reflexivity|]; vm_compute; reflexivity|].
  split; [eexists _, _; split; [vm_compute; reflexivity|]; vm_compute; reflexivity|].
  split; vm_compute; reflexivity.
Qed.
