(** Properties of calls whose arguments point into the tag: C84. *)
From Verif Require Import Heap Alias Spec SpecEdit SpecHeap SpecAlias Samples.
From Verif Require Import HeapEditFacts AliasFacts.

(** C84: every call is as with copies of its arguments, whatever they point to *)

Theorem C84_call : forall h m tag c k,
  heap_is h m -> with_copies c h = Some k -> run_acall tag c h = run_call_h tag k h.
Proof. exact alias_is. Qed.
Print Assumptions C84_call.

Theorem C84_get : forall h m tag id i, heap_is h m -> string_of id h = Some i ->
  ID3v2_Tag_get_frame_a tag id h = ID3v2_Tag_get_frame_h tag i h
  /\ ID3v2_Tag_get_frames_a tag id h = ID3v2_Tag_get_frames_h tag i h.
Proof. exact alias_get. Qed.
Print Assumptions C84_get.

Theorem C84_edit : forall h a t rest fs c k e,
  tag_at h a t rest -> tag_has t fs -> Forall sane fs -> Forall kind_ok fs -> 0 <= th_tag_size (t_header t) < 2 ^ 32 ->
  with_copies c h = Some k -> means k e -> all_allowed [e] fs = true ->
  exists h' t' lost, run_acall (Some a) c h = Ok h' /\ tag_at h' a t' (lost ++ rest) /\ tag_has t' (apply_edit e fs).
Proof. exact alias_edit. Qed.
Print Assumptions C84_edit.

(** C84: strings of the tag's own frames *)

Theorem C84_copy : forall h a t l rest fs q x id fl txt pj j pf f,
  tag_laid h a t l rest -> tag_has t fs -> Forall sane fs -> Forall kind_ok fs -> 0 <= th_tag_size (t_header t) < 2 ^ 32 ->
  In q l -> n_frame (p_node q) = Some (x, frame_of (FText id fl txt)) ->
  points_to pj j -> points_to pf f -> frame_ok (FText j f txt) = true ->
  exists h' t' lost,
    run_acall (Some a) (ASetText (Own pj) (Own pf) (Inside (l_x (p_lay q)) TheBytes 0)) h = Ok h'
    /\ tag_at h' a t' (lost ++ rest) /\ tag_has t' (put (named j) (frame_of (FText j f txt)) fs).
Proof. exact copy_text. Qed.
Print Assumptions C84_copy.

Theorem C84_itself : forall h a t l rest fs1 fs2 q x id fl txt,
  let f := FText id fl txt in
  tag_laid h a t l rest -> tag_has t (fs1 ++ frame_of f :: fs2) -> Forall sane (fs1 ++ frame_of f :: fs2) ->
  Forall kind_ok (fs1 ++ frame_of f :: fs2) -> 0 <= th_tag_size (t_header t) < 2 ^ 32 ->
  In q l -> n_frame (p_node q) = Some (x, frame_of f) -> frame_ok f = true -> existsb (named id) fs1 = false ->
  exists h' t' lost,
    run_acall (Some a) (ASetText (Inside (l_header (p_lay q)) TheId 0) (Inside (l_header (p_lay q)) TheFlags 0)
                                 (Inside (l_x (p_lay q)) TheBytes 0)) h = Ok h'
    /\ tag_at h' a t' (lost ++ rest) /\ tag_has t' (fs1 ++ frame_of f :: fs2).
Proof. exact set_to_itself. Qed.
Print Assumptions C84_itself.

Theorem C84_delete : forall h a t l rest fs q x g id,
  tag_laid h a t l rest -> tag_has t fs -> Forall sane fs -> Forall kind_ok fs -> 0 <= th_tag_size (t_header t) < 2 ^ 32 ->
  In q l -> n_frame (p_node q) = Some (x, g) -> fh_id (f_hdr g) = cells id -> length id = 4%nat -> allowed (Remove id) fs = true ->
  exists h' t' lost,
    run_acall (Some a) (ADelete (Inside (l_header (p_lay q)) TheId 0)) h = Ok h'
    /\ tag_at h' a t' (lost ++ rest) /\ tag_has t' (remove_first (named id) fs).
Proof. exact delete_by_own_id. Qed.
Print Assumptions C84_delete.

(** A tag with an artist and a title. *)
Definition heap84 : heap := mkHeap [(7%nat, BBytes (cells (lit "someone else's")))] 8.
Definition song_title : fspec := FText (lit "TIT2") [x00; x00] (Iso (lit "Song")).
Definition make84 : list call :=
  [ SetArtist (Some (cells (text_image (Iso (lit "Someone"))))); SetTitle (Some (cells (text_image (Iso (lit "Song"))))) ].
Definition made84 : heap := match run_calls_h (Some 10%nat) make84 (snd (ID3v2_Tag_new_empty_h heap84)) with Ok h => h | _ => heap84 end.

(** The artist's text is block 11, its header block 13. *)
Example C84_call_applies :
  heap_is made84 (live made84)
  /\ with_copies (ASetText (Own (clit "TALB")) (Own NO_FLAGS) (Inside 11 TheBytes 0)) made84
     = Some (SetTextFrame (mkTextInput (clit "TALB") NO_FLAGS (Some (cells (text_image (Iso (lit "Someone")))))))
  /\ with_copies (ASetText (Inside 13 TheId 0) (Inside 13 TheFlags 0) (Inside 11 TheBytes 4)) made84
     = Some (SetTextFrame (mkTextInput (Some (cells (lit "TPE1"))) (Some (cells [x00; x00])) (Some (cells (text_image (Iso (lit "one")))))))
  /\ with_copies (ADelete (Inside 13 TheId 0)) made84 = Some (DeleteFrame (Some (cells (lit "TPE1"))))
  /\ match run_acall (Some 10%nat) (ASetText (Inside 13 TheId 0) (Inside 13 TheFlags 0) (Inside 11 TheBytes 4)) made84 with
     | Ok h => fetch (Inside 11 TheBytes 4) h = Ub UseAfterFree
     | _ => False
     end.
Proof.
  split.
  { split; [apply Permutation_refl|]. split.
    - apply (NoDup_count_occ' PeanoNat.Nat.eq_dec). intros x I. vm_compute in I. repeat (destruct I as [<-|I]; [vm_compute; reflexivity|]). destruct I.
    - apply Forall_forall. intros x I. vm_compute in I. repeat (destruct I as [<-|I]; [vm_compute; repeat constructor|]). destruct I. }
  split; [vm_compute; reflexivity|]. split; [vm_compute; reflexivity|]. split; [vm_compute; reflexivity|]. vm_compute. reflexivity.
Qed.

Example C84_copy_applies : exists h a t l rest q x,
  tag_laid h a t l rest /\ tag_has t (map frame_of [artist; song_title])
  /\ Forall sane (map frame_of [artist; song_title]) /\ Forall kind_ok (map frame_of [artist; song_title])
  /\ In q l /\ n_frame (p_node q) = Some (x, frame_of artist)
  /\ frame_ok artist = true /\ frame_ok (FText (lit "TALB") [x00; x00] (Iso (lit "Someone"))) = true
  /\ fh_id (f_hdr (frame_of artist)) = cells (lit "TPE1") /\ allowed (Remove (lit "TPE1")) (map frame_of [artist; song_title]) = true.
Proof.
  assert (M : Forall2 means make84 [Put artist; Put song_title]).
  { constructor; [apply MArtist, points_to_exact|]. constructor; [apply MTitle, points_to_exact|constructor]. }
  assert (H : heap_is heap84 (live heap84)) by (repeat split; repeat constructor; cbn; auto).
  destruct (edits_from_scratch heap84 (live heap84) make84 [Put artist; Put song_title] H M eq_refl)
    as (a & h1 & h2 & h3 & t & lost & _ & _ & T & Th & _).
  change (apply_edits [Put artist; Put song_title] []) with (map frame_of [artist; song_title]) in Th.
  destruct T as (l & T). pose proof T as (ah & head & _ & El & _).
  pose proof Th as (ps & Ep & Em & _). 
  destruct ps as [|(x & g) ps]; [discriminate Em|]. 
  assert (Eg : fp_frame (x, g) = frame_of artist) by (cbn [map] in Em; congruence). cbn [fp_frame snd] in Eg. subst g.
  destruct l as [|q l]; [rewrite Ep in El; discriminate El|].
  exists h2, a, t, (q :: l), (lost ++ live heap84), q, x.
  split; [exact T|]. split; [exact Th|].
  split.
  { constructor; [|constructor; [|constructor]].
    - split; [exists (lit "TPE1"); split; reflexivity|vm_compute; split; [discriminate|reflexivity]].
    - split; [exists (lit "TIT2"); split; reflexivity|vm_compute; split; [discriminate|reflexivity]]. }
  split; [constructor; [|constructor; [|constructor]]; eexists _, _; split; reflexivity|].
  split; [left; reflexivity|].
  split; [|repeat split].
  rewrite Ep in El. cbn [map] in El. assert (Eq : p_node q = mkNode (Some (x, frame_of artist)) true) by (change (mkNode (Some (x, frame_of artist)) true :: map (fun p => mkNode (Some p) true) ps = p_node q :: map p_node l) in El; congruence).
  rewrite Eq. reflexivity.
Qed.
