(** Properties of tags with a hole in their list, and of every sequence of
    edits: C85. *)
From Coq Require Import Permutation.
From Verif Require Import File Calls Spec SpecEdit SpecFile SpecHole HoleFacts Samples.

(** ** C85 *)

(** One edit, on any tag: what the tag holds afterwards, or that NULL is
    dereferenced. *)
Theorem C85_edit : forall t s c e,
  tag_holds t s -> Forall sane (held s) -> 0 <= th_tag_size (t_header t) < 2 ^ 32 ->
  means c e -> edit_ok e = true ->
  match edit_shelf e s with
  | Some s' =>
      exists t', run_call t c = Ok t' /\ tag_holds t' s'
        /\ t_header t' = sized (t_header t) ((th_tag_size (t_header t) + size_delta e (seen s)) mod 2 ^ 32)
        /\ t_padding t' = t_padding t
  | None => run_call t c = Ub NullDeref
  end.
Proof. exact any_edit_step. Qed.
Print Assumptions C85_edit.

(** Any number of edits, with no condition on what they delete. *)
Theorem C85_history : forall cs t s es,
  tag_holds t s -> Forall sane (held s) -> 0 <= th_tag_size (t_header t) < 2 ^ 32 ->
  Forall2 means cs es -> forallb edit_ok es = true ->
  match edit_shelves es s with
  | Some (s', d) =>
      exists t', run_calls t cs = Ok t' /\ tag_holds t' s'
        /\ t_header t' = sized (t_header t) ((th_tag_size (t_header t) + d) mod 2 ^ 32)
        /\ t_padding t' = t_padding t
  | None => run_calls t cs = Ub NullDeref
  end.
Proof. exact any_history. Qed.
Print Assumptions C85_history.

(** Tags without a hole are among them; the edits of C25 leave none. *)
Theorem C85_whole : forall t fs, tag_has t fs <-> tag_holds t (whole fs).
Proof. exact whole_has. Qed.
Print Assumptions C85_whole.

Theorem C85_no_hole : forall es fs, all_allowed es fs = true ->
  option_map fst (edit_shelves es (whole fs)) = Some (whole (apply_edits es fs)).
Proof. exact edits_whole. Qed.
Print Assumptions C85_no_hole.

(** Getters do not see the frames behind the hole. *)
Theorem C85_get : forall t s arg id,
  tag_holds t s -> Forall sane (held s) -> points_to arg id -> length id = 4%nat ->
  (exists p, ID3v2_Tag_get_frame (Some t) arg = Ok p /\ option_map fp_frame p = find (named id) (seen s))
  /\ (exists l, ID3v2_Tag_get_frames (Some t) arg = Ok l /\ frames_in l = filter (named id) (seen s)).
Proof. exact hole_get. Qed.
Print Assumptions C85_get.

(** No edit loses another frame, hole or not. *)
Theorem C85_nothing_lost : forall t s c e t',
  tag_holds t s -> Forall sane (held s) -> 0 <= th_tag_size (t_header t) < 2 ^ 32 ->
  means c e -> edit_ok e = true -> run_call t c = Ok t' ->
  Permutation (frames_in (t_frames t') ++ taken_out e (seen s)) (put_in e ++ frames_in (t_frames t)).
Proof. exact nothing_lost. Qed.
Print Assumptions C85_nothing_lost.

(** Deleting comment 0 or picture 0, where none is seen, brings back what is
    behind the hole. *)
Theorem C85_closed : forall t l f hidden c id,
  tag_holds t (mkShelf l (Some (f :: hidden))) -> Forall sane (l ++ f :: hidden) -> 0 <= th_tag_size (t_header t) < 2 ^ 32 ->
  means c (RemoveNth id 0) -> existsb (named id) l = false ->
  exists t', run_call t c = Ok t' /\ tag_has t' (l ++ f :: hidden) /\ t_header t' = t_header t.
Proof. exact hole_closed. Qed.
Print Assumptions C85_closed.

(** Writing: with frames before the hole the process ends; with none, a tag
    without frames is written, whatever is behind the hole. *)
Theorem C85_write_exits : forall t fs hidden content h maj mi fl n ext,
  tag_holds t (mkShelf (map frame_of fs) (Some hidden)) -> Forall (fun f => frame_ok f = true) fs -> fs <> [] ->
  t_header t = mkTH (lit "ID3") maj mi fl n ext -> frames_size fs <= n -> n + 10 < 2 ^ 31 ->
  0 <= t_padding t < 2 ^ 31 -> ID3v2_read_tag_header (Some content) = Ok h ->
  ID3v2_write_tag (Some content) (Some t) = Exit 1.
Proof. exact holed_write. Qed.
Print Assumptions C85_write_exits.

Theorem C85_write_hidden : forall t hidden content maj mi fl n ext,
  tag_holds t (mkShelf [] (Some hidden)) -> announces_extended content = false ->
  t_header t = mkTH (lit "ID3") maj mi fl n ext -> 0 <= n < 2 ^ 28 -> 2048 - 2 ^ 31 < t_padding t < 2 ^ 31 ->
  ID3v2_write_tag (Some content) (Some t)
  = Ok (Some (tag_bytes maj mi fl n [] ++ audio content), Some (padded t)).
Proof. exact hidden_write. Qed.
Print Assumptions C85_write_hidden.

(** The cover, the last of five frames, is deleted; the artist is set and lost;
    deleting cover 0, though there is none, brings the artist back. *)
Definition set_someone : call := SetArtist (Some (cells (text_image (Iso (lit "Someone"))))).

Example C85_applies :
  let fs := map frame_of [title; comment1; private; comment2] in
  let es := [Remove (lit "APIC"); Put artist; RemoveNth (lit "APIC") 0] in
  tag_holds (tag_with samples 500) (whole (map frame_of samples))
  /\ Forall sane (held (whole (map frame_of samples)))
  /\ Forall2 means [DeleteAlbumCover; set_someone; DeleteApicFrame 0] es /\ forallb edit_ok es = true
  /\ option_map fst (edit_shelves (firstn 2 es) (whole (map frame_of samples))) = Some (mkShelf fs (Some [frame_of artist]))
  /\ option_map fst (edit_shelves es (whole (map frame_of samples))) = Some (whole (fs ++ [frame_of artist]))
  /\ edit_shelves [Remove (lit "APIC"); Remove (lit "APIC")] (whole (map frame_of samples)) = None.
Proof.
  split; [apply C85_whole; apply tag_with_has|]. split; [change (Forall sane (map frame_of samples ++ [])); rewrite app_nil_r; exact samples_sane|].
  split; [|repeat split; vm_compute; reflexivity].
  constructor; [constructor|]. constructor; [apply MArtist, points_to_exact|]. constructor; [constructor|constructor].
Qed.

(** A title and a comment; the comment, the last, is deleted, the artist set,
    and then the title deleted: nothing is seen.  What is added next takes the
    first entry, and the artist is seen again. *)
Example C85_applies_refilled :
  let es := [Remove (lit "COMM"); Put artist; Remove (lit "TIT2")] in
  option_map fst (edit_shelves es (whole (map frame_of [title; comment1]))) = Some (mkShelf [] (Some [frame_of artist]))
  /\ option_map fst (edit_shelves (es ++ [Append comment1]) (whole (map frame_of [title; comment1])))
     = Some (whole (map frame_of [comment1; artist])).
Proof. split; vm_compute; reflexivity. Qed.

Example C85_applies_write :
  let made := run_calls (tag_with [title; comment1] 500) [DeleteComment; set_someone] in
  (let* t := made in ID3v2_write_tag (Some (lit "sound")) (Some t)) = Exit 1
  /\ exists t, (let* t := made in run_call t DeleteTitle) = Ok t
     /\ tag_holds t (mkShelf [] (Some [frame_of artist]))
     /\ (let* (f, _) := ID3v2_write_tag (Some (lit "sound")) (Some t) in Ok f)
        = Ok (Some (tag_bytes x03 x00 x00 (th_tag_size (t_header t)) [] ++ lit "sound")).
Proof.
  split; [vm_compute; reflexivity|]. eexists. split; [vm_compute; reflexivity|]. split.
  - exists []. eexists [_]. split; [reflexivity|]. split; [|split; [|split; [|reflexivity]]].
    + repeat constructor. intros [].
    + repeat constructor.
    + vm_compute. reflexivity.
  - vm_compute. reflexivity.
Qed.
