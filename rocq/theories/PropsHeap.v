(** Properties of memory ownership: C41, C45, C46, C48. *)
From Verif Require Import File Calls Spec SpecEdit HistFacts Heap SpecHeap HeapTagFacts HeapLifeFacts HeapEditFacts HeapPtrFacts Samples.
From Coq Require Import Lia.

(** ** C41 *)

(** Every API call does on the heap what its description on values says: same
    outcome, and if that is a tag, that tag is in the heap.  [lost] are the
    blocks that nothing points to any more.  The descriptions on values know
    no free, so an outcome that is not [Ub UseAfterFree] or [Ub BadFree] there
    is neither here. *)
Theorem C41_call : forall h a t rest c,
  tag_at h a t rest -> kinds_ok (t_frames t) -> call_kind c ->
  agrees (fun t' h' => exists lost,
            length lost = (node_leak c (t_frames t) + struct_leak c)%nat
            /\ tag_at h' a t' (lost ++ rest) /\ kinds_ok (t_frames t')
            /\ (list_leak (t_frames t') + struct_leak c = list_leak (t_frames t))%nat)
    (run_call t c) (run_call_h (Some a) c h).
Proof. exact call_at. Qed.
Print Assumptions C41_call.

(** So does every sequence of calls. *)
Theorem C41_history : forall cs h a t rest,
  tag_at h a t rest -> kinds_ok (t_frames t) -> Forall call_kind cs ->
  agrees (fun t' h' => exists lost,
            length lost = (node_leaks t cs + struct_leaks cs)%nat
            /\ tag_at h' a t' (lost ++ rest) /\ kinds_ok (t_frames t')
            /\ (list_leak (t_frames t') + struct_leaks cs = list_leak (t_frames t))%nat)
    (run_calls t cs) (run_calls_h (Some a) cs h).
Proof. exact calls_are. Qed.
Print Assumptions C41_history.

(** ID3v2_Tag_free frees every block of the tag once, except the structs of
    frames of unknown kinds; a second call uses freed memory. *)
Theorem C41_free : forall h a t rest,
  tag_at h a t rest -> kinds_ok (t_frames t) ->
  exists h' lost, ID3v2_Tag_free (Some a) h = Ok h' /\ heap_is h' (lost ++ rest)
    /\ length lost = list_leak (t_frames t) /\ ~ In a (map fst (lost ++ rest)).
Proof. exact free_is_all. Qed.
Print Assumptions C41_free.

Theorem C41_free_twice : forall h a t rest h',
  tag_at h a t rest -> kinds_ok (t_frames t) ->
  ID3v2_Tag_free (Some a) h = Ok h' -> ID3v2_Tag_free (Some a) h' = Ub UseAfterFree.
Proof. exact free_twice. Qed.
Print Assumptions C41_free_twice.

(** From ID3v2_Tag_new_empty to ID3v2_Tag_free, for calls that stay clear of
    the two defects of the delete functions. *)
Theorem C41_from_scratch : forall h m cs es,
  heap_is h m -> Forall2 means cs es -> all_allowed es [] = true ->
  exists a h1 h2 h3 t lost,
    ID3v2_Tag_new_empty_h h = (a, h1) /\ run_calls_h (Some a) cs h1 = Ok h2
    /\ tag_at h2 a t (lost ++ m) /\ tag_has t (apply_edits es [])
    /\ ID3v2_Tag_free (Some a) h2 = Ok h3 /\ heap_is h3 (lost ++ m) /\ length lost = edit_leaks es [].
Proof. exact edits_from_scratch. Qed.
Print Assumptions C41_from_scratch.

Definition heap0 : heap := mkHeap [(7%nat, BBytes (cells (lit "someone else's")))] 8.
Definition making : list call :=
  [ SetArtist (Some (cells (text_image (Iso (lit "Someone")))));
    AddCommentFrame (mkCommentInput NO_FLAGS (clit "eng") EMPTY_UNICODE_STR
                                    (Some (cells (text_image (Iso (lit "nice"))))));
    AddCommentFrame (mkCommentInput NO_FLAGS (clit "eng") EMPTY_UNICODE_STR
                                    (Some (cells (text_image (Iso (lit "nice"))))));
    SetAlbumCover (clit "image/png") 3 (Some (cells [x00; x00; xff]));
    DeleteArtist ].
Definition made_of : list edit := [ Put artist; Append comment1; Append comment1; Put cover; Remove (lit "TPE1") ].

Lemma making_means : Forall2 means making made_of.
Proof.
  assert (Mc : means (AddCommentFrame (mkCommentInput NO_FLAGS (clit "eng") EMPTY_UNICODE_STR
                        (Some (cells (text_image (Iso (lit "nice"))))))) (Append comment1)).
  { apply (MAddComment NO_FLAGS (clit "eng") EMPTY_UNICODE_STR);
      [exists [Some x00]; reflexivity|exists [Some x00]; reflexivity|exists [Some x00]; reflexivity|apply points_to_exact]. }
  constructor; [apply MArtist, points_to_exact|]. constructor; [exact Mc|]. constructor; [exact Mc|].
  constructor; [|constructor; [constructor|constructor]].
  apply (MAlbumCover (clit "image/png") (Some (cells [x00; x00; xff])) (Iso (lit "image/png")) [x00; x00; xff]);
    [exists []; reflexivity|exists []; reflexivity].
Qed.

Example C41_applies :
  heap_is heap0 (live heap0) /\ Forall2 means making made_of /\ all_allowed made_of [] = true
  /\ apply_edits made_of [] = map frame_of [comment1; comment1; cover]
  /\ Forall call_kind making
  /\ exists a h1 h2 h3, ID3v2_Tag_new_empty_h heap0 = (a, h1) /\ run_calls_h (Some a) making h1 = Ok h2
     /\ length (live h2) = (1 + 2 + 3 + 5 + 5 + 6)%nat
     /\ ID3v2_Tag_free (Some a) h2 = Ok h3 /\ live h3 = live heap0.
Proof.
  split; [repeat split; repeat constructor; cbn; auto|]. split; [exact making_means|]. split; [reflexivity|]. split; [reflexivity|].
  split; [repeat constructor|]. eexists _, _, _, _. split; [vm_compute; reflexivity|]. split; [vm_compute; reflexivity|].
  split; [vm_compute; reflexivity|]. split; [vm_compute; reflexivity|]. vm_compute; reflexivity.
Qed.

(** ** C45 *)

(** Nothing is lost when no frame is deleted by its number ... *)
Theorem C45_no_leak : forall h m cs t,
  heap_is h m -> run_calls ID3v2_Tag_new_empty cs = Ok t -> Forall call_kind cs ->
  (forall c, In c cs -> match c with DeleteCommentFrame _ | DeleteApicFrame _ => False | _ => True end) ->
  exists a h1 h2 h3, ID3v2_Tag_new_empty_h h = (a, h1) /\ run_calls_h (Some a) cs h1 = Ok h2
    /\ ID3v2_Tag_free (Some a) h2 = Ok h3 /\ heap_is h3 m.
Proof. exact life_clean. Qed.
Print Assumptions C45_no_leak.

(** ... else the nodes of the lists of candidates, up to the deleted one. *)
Theorem C45_leak : forall h a t rest fs cs es,
  tag_at h a t rest -> tag_has t fs -> Forall sane fs -> Forall kind_ok fs ->
  0 <= th_tag_size (t_header t) < 2 ^ 32 -> Forall2 means cs es -> all_allowed es fs = true ->
  exists h2 h3 t' lost lost',
    run_calls_h (Some a) cs h = Ok h2 /\ tag_at h2 a t' (lost ++ rest) /\ tag_has t' (apply_edits es fs)
    /\ ID3v2_Tag_free (Some a) h2 = Ok h3 /\ heap_is h3 (lost' ++ lost ++ rest)
    /\ (length lost' + length lost = edit_leaks es fs + list_sum (map frame_leak fs))%nat
    /\ length lost' = list_sum (map frame_leak (apply_edits es fs)).
Proof. exact edits_on_heap. Qed.
Print Assumptions C45_leak.

(** Deleting the second of two comments loses one node; asking for a third
    loses two. *)
Example C45_applies :
  let del := [ DeleteCommentFrame 5; DeleteCommentFrame 1 ] in
  let es := made_of ++ [ RemoveNth (lit "COMM") 5; RemoveNth (lit "COMM") 1 ] in
  Forall2 means (making ++ del) es /\ all_allowed es [] = true /\ edit_leaks es [] = 3%nat
  /\ apply_edits es [] = map frame_of [comment1; cover]
  /\ exists a h1 h2 h3, ID3v2_Tag_new_empty_h heap0 = (a, h1) /\ run_calls_h (Some a) (making ++ del) h1 = Ok h2
     /\ ID3v2_Tag_free (Some a) h2 = Ok h3 /\ length (live h3) = 4%nat.
Proof.
  split; [apply Forall2_app; [exact making_means|repeat constructor]|].
  split; [reflexivity|]. split; [reflexivity|]. split; [reflexivity|].
  eexists _, _, _, _. split; [vm_compute; reflexivity|]. split; [vm_compute; reflexivity|].
  split; [vm_compute; reflexivity|]. vm_compute; reflexivity.
Qed.

(** The struct of a frame of an unknown kind is lost. *)
Example C45_applies_unknown :
  let l := mkLay 11 12 13 0 0 0 in
  let t := mkTag TagHeader_new_empty (list_of [(0%nat, frame_of private)]) 0 1 in
  let h := mkHeap (tag_blocks 8 9 10 t [mkP 10 l (mkNode (Some (0%nat, frame_of private)) true)]) 20 in
  tag_at h 8 t [] /\ tag_has t [frame_of private] /\ kind_ok (frame_of private) /\ frame_leak (frame_of private) = 1%nat
  /\ exists h', ID3v2_Tag_free (Some 8%nat) h = Ok h' /\ live h' = [(11%nat, BFrame (Some 12%nat) (Some 13%nat))].
Proof.
  cbv zeta. split.
  - exists [mkP 10 (mkLay 11 12 13 0 0 0) (mkNode (Some (0%nat, frame_of private)) true)], 9%nat, 10%nat.
    split; [|split; [reflexivity|split; [reflexivity|split; [repeat constructor|split; repeat constructor; cbn; tauto]]]].
    split; [reflexivity|]. split; cbn; repeat constructor; cbn; lia.
  - split; [exists [(0%nat, frame_of private)]; repeat split; repeat constructor; cbn; tauto|].
    split; [eexists _, _; split; [reflexivity|repeat split; discriminate]|]. split; [reflexivity|].
    eexists. split; vm_compute; reflexivity.
Qed.

(** ** C46 *)

(** The list of found frames shares them with the tag: ID3v2_FrameList_unlink
    leaves the tag as it is, ... *)
Theorem C46_unlink : forall h a t rest id v,
  tag_at h a t rest -> ID3v2_Tag_get_frames (Some t) id = Ok v ->
  exists list h1 h2, ID3v2_Tag_get_frames_h (Some a) id h = Ok (list, h1)
    /\ ID3v2_FrameList_unlink list h1 = Ok h2 /\ tag_at h2 a t rest.
Proof. exact get_frames_unlink. Qed.
Print Assumptions C46_unlink.

(** ... ID3v2_FrameList_free, when something was found, does not. *)
Theorem C46_free : forall h a t rest id v,
  tag_at h a t rest -> kinds_ok (t_frames t) -> ID3v2_Tag_get_frames (Some t) id = Ok v -> v <> FrameList_new ->
  exists list h1 h2, ID3v2_Tag_get_frames_h (Some a) id h = Ok (list, h1)
    /\ ID3v2_FrameList_free list h1 = Ok h2 /\ ID3v2_Tag_free (Some a) h2 = Ub UseAfterFree.
Proof. exact free_found. Qed.
Print Assumptions C46_free.

Example C46_applies :
  exists a h1 h2 list h3 h4 t,
    ID3v2_Tag_new_empty_h heap0 = (a, h1) /\ run_calls_h (Some a) making h1 = Ok h2 /\ tag_at h2 a t (live heap0)
    /\ kinds_ok (t_frames t)
    /\ (exists v, ID3v2_Tag_get_frames (Some t) (clit "COMM") = Ok v /\ v <> FrameList_new)
    /\ ID3v2_Tag_get_frames_h (Some a) (clit "COMM") h2 = Ok (list, h3)
    /\ length (live h3) = (length (live h2) + 2)%nat
    /\ ID3v2_FrameList_unlink list h3 = Ok h4 /\ live h4 = live h2.
Proof.
  destruct C41_applies as (H & M & A & _ & K & _).
  destruct (new_is heap0 _ H) as (a & h1 & E1 & T1 & K1).
  destruct (run_calls ID3v2_Tag_new_empty making) as [t| | |] eqn:E; try (vm_compute in E; discriminate E).
  assert (S := C41_history making h1 a _ _ T1 K1 K). rewrite E in S. destruct S as (h2 & E2 & lost & L & T2 & K2 & _).
  apply length_zero_iff_nil in L. subst lost.
  vm_compute in E1. injection E1 as <- <-. vm_compute in E. injection E as <-. vm_compute in E2. injection E2 as <-.
  eexists _, _, _, _, _, _, _. split; [vm_compute; reflexivity|]. split; [vm_compute; reflexivity|]. split; [exact T2|].
  split; [exact K2|]. split; [eexists; split; [vm_compute; reflexivity|discriminate]|].
  split; [vm_compute; reflexivity|]. split; [vm_compute; reflexivity|]. split; vm_compute; reflexivity.
Qed.

(** ** C48 *)

(** A getter returns the pointer to the first frame with the id. *)
Theorem C48_get : forall h a t ps arg id,
  pointers h a t ps -> Forall sane (map snd ps) -> points_to arg id -> length id = 4%nat ->
  ID3v2_Tag_get_frame_h (Some a) arg h = Ok (option_map fst (find (fun p => named id (snd p)) ps)).
Proof. exact get_in_pointers. Qed.
Print Assumptions C48_get.

(** A call that changes the tag edits the list of pointers: the pointer to a
    frame that is replaced or deleted dangles afterwards, all others still
    point to the same frame. *)
Theorem C48_edit : forall h a t ps c e,
  pointers h a t ps -> Forall sane (map snd ps) -> Forall kind_ok (map snd ps) ->
  0 <= th_tag_size (t_header t) < 2 ^ 32 -> means c e -> edit_ok e = true -> allowed e (map snd ps) = true ->
  exists h' t' new,
    run_call t c = Ok t' /\ run_call_h (Some a) c h = Ok h' /\ pointers h' a t' (edit_pointers e new ps)
    /\ ~ In new (map fst ps)
    /\ (forall p, In p (map fst ps) -> ~ In p (map fst (edit_pointers e new ps)) -> header_of (Some p) h' = Ub UseAfterFree).
Proof. exact edit_on_pointers. Qed.
Print Assumptions C48_edit.

(** Pointers to frames of other ids than those of the calls stay as they are,
    and the getter returns them again. *)
Theorem C48_untouched : forall cs h a t ps es arg id,
  pointers h a t ps -> Forall sane (map snd ps) -> Forall kind_ok (map snd ps) ->
  0 <= th_tag_size (t_header t) < 2 ^ 32 -> Forall2 means cs es -> all_allowed es (map snd ps) = true ->
  points_to arg id -> length id = 4%nat -> (forall e, In e es -> same_id (edit_id e) id = false) ->
  exists h' t' ps',
    run_calls_h (Some a) cs h = Ok h' /\ pointers h' a t' ps' /\ map snd ps' = apply_edits es (map snd ps)
    /\ filter (fun p => named id (snd p)) ps' = filter (fun p => named id (snd p)) ps
    /\ ID3v2_Tag_get_frame_h (Some a) arg h' = ID3v2_Tag_get_frame_h (Some a) arg h.
Proof. exact untouched_get. Qed.
Print Assumptions C48_untouched.

(** For any calls, whatever they are given, and also beyond the holes that
    deletes leave: a pointer to a frame is good exactly as long as the frame is
    in the tag; a dangling pointer never becomes good again. *)
Theorem C48_history : forall cs h a t x p f t' h',
  frame_in h a t x p f -> kinds_ok (t_frames t) -> Forall call_kind cs ->
  run_calls t cs = Ok t' -> run_calls_h (Some a) cs h = Ok h' ->
  if in_dec Nat.eq_dec x (addresses (t_frames t')) then frame_in h' a t' x p f
  else header_of (Some p) h' = Ub UseAfterFree.
Proof. exact pointer_after. Qed.
Print Assumptions C48_history.

(** Two comments and a picture; the first comment is deleted. *)
Example C48_applies :
  exists a h1 h2 t ps p p' c h3,
    ID3v2_Tag_new_empty_h heap0 = (a, h1) /\ run_calls_h (Some a) making h1 = Ok h2
    /\ pointers h2 a t ps /\ map snd ps = map frame_of [comment1; comment1; cover]
    /\ Forall sane (map snd ps) /\ Forall kind_ok (map snd ps) /\ 0 <= th_tag_size (t_header t) < 2 ^ 32
    /\ means (DeleteCommentFrame 0) (RemoveNth (lit "COMM") 0) /\ allowed (RemoveNth (lit "COMM") 0) (map snd ps) = true
    /\ same_id (edit_id (RemoveNth (lit "COMM") 0)) (lit "APIC") = false
    /\ ID3v2_Tag_get_frame_h (Some a) (clit "COMM") h2 = Ok (Some p)
    /\ ID3v2_Tag_get_frame_h (Some a) (clit "APIC") h2 = Ok (Some c)
    /\ run_call_h (Some a) (DeleteCommentFrame 0) h2 = Ok h3
    /\ header_of (Some p) h3 = Ub UseAfterFree
    /\ ID3v2_Tag_get_frame_h (Some a) (clit "COMM") h3 = Ok (Some p') /\ p' <> p
    /\ ID3v2_Tag_get_frame_h (Some a) (clit "APIC") h3 = Ok (Some c).
Proof.
  destruct C41_applies as (H & M & A & Ea & K & _).
  destruct (new_is heap0 _ H) as (a & h1 & E1 & T1 & K1).
  destruct (edit_steps making ID3v2_Tag_new_empty [] made_of new_empty_has (Forall_nil _)) as (t & E & Th & S & Hd & _);
    [cbn; lia|exact M|exact A|].
  assert (Si := C41_history making h1 a _ _ T1 K1 K). rewrite E in Si. destruct Si as (h2 & E2 & lost & _ & T2 & K2 & _).
  destruct (pointers_exist h2 a t _ _ T2 Th) as (ps & Ep & P). rewrite Ea in *.
  vm_compute in E1. injection E1 as <- <-. vm_compute in E2. injection E2 as <-.
  eexists _, _, _, t, ps, _, _, _, _. split; [vm_compute; reflexivity|]. split; [vm_compute; reflexivity|].
  split; [exact P|]. split; [exact Ep|]. rewrite Ep. split; [exact S|].
  split; [repeat constructor; eexists _, _; split; reflexivity|].
  split; [rewrite Hd; cbn [sized th_tag_size]; apply Z.mod_pos_bound; lia|].
  split; [constructor|]. split; [reflexivity|]. split; [reflexivity|].
  split; [vm_compute; reflexivity|]. split; [vm_compute; reflexivity|]. split; [vm_compute; reflexivity|].
  split; [vm_compute; reflexivity|]. split; [vm_compute; reflexivity|]. split; [discriminate|vm_compute; reflexivity].
Qed.
