(** Properties of whole sessions with a file: C56 and C57. *)
From Coq Require Import Lia.
From Verif Require Import File Calls Spec SpecEdit SpecFile Compat SpecCompat SpecSession Samples.
From Verif Require Import SessionFacts CompatSessionFacts.

(** ** C56 *)

(** A tagged file is read, edited and written. *)
Theorem C56_session : forall major minor flags fs pad sound cs es,
  known_version major = true -> has_extended_header flags = false ->
  Forall (fun f => frame_ok f = true /\ readable f = true) fs ->
  0 <= pad -> frames_size fs + pad < 2 ^ 28 ->
  Forall2 means cs es -> all_proper es fs = true ->
  let content := tagged_file major minor flags fs pad sound in
  let fs' := edited es fs in
  let room := room_left es fs pad in
  let n := frames_size fs' + room in
  - 2 ^ 31 <= n < 2 ^ 28 ->
  exists t t', ID3v2_read_tag (Some content) = Ok (Some t) /\ run_calls t cs = Ok t'
    /\ if 0 <=? room
       then ID3v2_write_tag (Some content) (Some t')
            = Ok (Some (tag_bytes major minor flags n fs' ++ sound), Some (padded t'))
       else exists u, ID3v2_write_tag (Some content) (Some t') = Ub u.
Proof. exact session. Qed.
Print Assumptions C56_session.

(** Any number of sessions with a file of the library's own making. *)
Theorem C56_sessions : forall major minor flags sound css fs pad ess fs' pad',
  known_version major = true -> has_extended_header flags = false ->
  Forall (fun f => survives major f = true) fs -> 0 <= pad -> frames_size fs + pad < 2 ^ 28 ->
  Forall2 (Forall2 means) css ess -> after_sessions major ess fs pad = Some (fs', pad') ->
  run_sessions css (Some (tag_bytes major minor flags (frames_size fs + pad) fs ++ sound))
  = Ok (Some (tag_bytes major minor flags (frames_size fs' + pad') fs' ++ sound)).
Proof. exact sessions_ok. Qed.
Print Assumptions C56_sessions.

(** Five edits of a file with a synchsafe tag, with room for two new frames and
    with room for one. *)
Example C56_applies :
  Forall (fun f => frame_ok f = true /\ readable f = true) samples
  /\ Forall2 means calls edits /\ all_proper edits samples = true
  /\ edited edits samples = [comment1; private; cover; artist; comment1]
  /\ room_left edits samples 20 = 20 - 20 + (10 + body_size comment2)
  /\ room_left [Put artist; Append comment1] samples 20 = 0
  /\ room_left [Put artist; Append comment1] samples 19 = -1
  /\ (let* t := ID3v2_read_tag (Some (tagged_file x04 x00 x00 samples 20 [xff])) in
      let* t := deref t in let* t := run_calls t (firstn 2 calls) in
      let* r := ID3v2_write_tag (Some (tagged_file x04 x00 x00 samples 20 [xff])) (Some t) in Ok (fst r))
     = Ok (Some (tag_bytes x04 x00 x00 (frames_size (samples ++ [artist; comment1])) (samples ++ [artist; comment1]) ++ [xff]))
  /\ (let* t := ID3v2_read_tag (Some (tagged_file x04 x00 x00 samples 19 [xff])) in
      let* t := deref t in let* t := run_calls t (firstn 2 calls) in
      let* r := ID3v2_write_tag (Some (tagged_file x04 x00 x00 samples 19 [xff])) (Some t) in Ok (fst r))
     = Ub OobWrite.
Proof.
  split; [repeat constructor|]. split; [exact calls_mean|].
  repeat (split; [vm_compute; reflexivity|]). vm_compute. reflexivity.
Qed.

(** Two sessions: the five edits, then the cover again. *)
Example C56_applies_twice :
  Forall2 (Forall2 means) [calls; [SetAlbumCover (clit "image/png") 3 (Some (cells [x00; x00; xff]))]] [edits; [Put cover]]
  /\ after_sessions x03 [edits; [Put cover]] samples 20
     = Some ([comment1; private; cover; artist; comment1], 10 + body_size comment2).
Proof.
  split; [|vm_compute; reflexivity]. constructor; [exact calls_mean|]. constructor; [|constructor].
  constructor; [|constructor].
  apply (MAlbumCover (clit "image/png") (Some (cells [x00; x00; xff])) (Iso (lit "image/png")) [x00; x00; xff]);
    [apply points_to_exact|apply points_to_exact].
Qed.

(** ** C57 *)

Theorem C57_session : forall major minor flags fs pad sound ccs gs,
  known_version major = true -> has_extended_header flags = false ->
  Forall (fun f => frame_ok f = true /\ readable f = true) fs -> fs <> [] ->
  0 <= pad -> frames_size fs + pad < 2 ^ 28 ->
  Forall2 cmeans ccs gs -> forallb frame_ok gs = true ->
  let content := tagged_file major minor flags fs pad sound in
  exists c, load_tag (Some content) = Ok c /\ mirrors c fs
    /\ ct_header c = compat_header major minor flags (frames_size fs + pad)
    /\ match put_frames gs fs with
       | None => run_ccalls ccs c = Ub NullDeref
       | Some fs' =>
           let n := frames_size fs' + pad in
           exists c', run_ccalls ccs c = Ok c' /\ mirrors c' fs' /\ ct_header c' = ct_header c
           /\ (n < 2 ^ 28 ->
               exists c'', set_tag (Some content) (Some c') = Ok (Some (tag_bytes major minor flags n fs' ++ sound), c'')
               /\ mirrors c'' fs'
               /\ (Forall (fun f => survives major f = true) fs' ->
                   exists c2, load_tag (Some (tag_bytes major minor flags n fs' ++ sound)) = Ok c2 /\ mirrors c2 fs'
                     /\ ct_header c2 = compat_header major minor flags n))
       end.
Proof. exact session_v1. Qed.
Print Assumptions C57_session.

(** A longer title in a tag without any padding; an artist, which is not there. *)
Definition long_title : text := Iso (lit "A rather long title").

Example C57_applies :
  Forall2 cmeans [CTitle (Some (cells (text_image long_title))) x00] [FText (lit "TIT2") [x00; x00] long_title]
  /\ put_frames [FText (lit "TIT2") [x00; x00] long_title] samples
     = Some [FText (lit "TIT2") [x00; x00] long_title; comment1; private; comment2; cover]
  /\ put_frames [FText (lit "TPE1") [x00; x00] long_title] samples = None
  /\ exists c c1 c2 written,
       load_tag (Some (tagged_file x03 x00 x00 samples 0 [xff])) = Ok c
       /\ run_ccalls [CTitle (Some (cells (text_image long_title))) x00] c = Ok c1
       /\ run_ccalls [CArtist (Some (cells (text_image long_title))) x00] c = Ub NullDeref
       /\ (let* (f, _) := set_tag (Some (tagged_file x03 x00 x00 samples 0 [xff])) (Some c1) in Ok f) = Ok (Some written)
       /\ load_tag (Some written) = Ok c2
       /\ (let* g := tag_get_title (Some c2) in parse_text_frame_content (t_frames (ct_tag c2)) g)
          = Ok (mkTC 20 x00 (cells (text_image long_title))).
Proof.
  split; [constructor; [apply KTitle, points_to_exact|constructor]|].
  split; [vm_compute; reflexivity|]. split; [vm_compute; reflexivity|].
  eexists _, _, _, _. split; [vm_compute; reflexivity|]. split; [vm_compute; reflexivity|].
  split; [vm_compute; reflexivity|]. split; [vm_compute; reflexivity|]. split; [vm_compute; reflexivity|]. vm_compute; reflexivity.
Qed.
