(** Properties of the version 1 interface in memory: C54 and C55. *)
From Verif Require Import File Compat Calls Spec SpecEdit SpecFile SpecCompat Heap HeapIO CompatHeap SpecHeap SpecHeapIO SpecCompatHeap
  CompatHeapFacts CompatSetFacts CompatLifeFacts Samples.

(** ** C54 *)

(** Loading does on the heap what its description on values says; it leaves the
    version 1 tag with the tag it shows, and two blocks per frame of unknown
    kind. *)
Theorem C54_load_file : forall h m f,
  heap_is h m -> agrees (v1_loaded m) (load_tag f) (load_tag_h f h).
Proof. exact load_tag_is. Qed.
Print Assumptions C54_load_file.

Theorem C54_load_buffer : forall h m p n,
  heap_is h m -> n < 2 ^ 31 -> agrees (v1_loaded m) (load_tag_with_buffer p n) (load_tag_with_buffer_h p n h).
Proof. exact load_buffer_is. Qed.
Print Assumptions C54_load_buffer.

(** A tag made by new_tag cannot be freed: [raw] was never assigned. *)
Theorem C54_new : forall h m, heap_is h m ->
  exists a h', new_tag_h h = (a, h') /\ ctag_at h' a new_tag m /\ free_tag_h (Some a) h' = Ub UninitRead.
Proof. exact new_freed. Qed.
Print Assumptions C54_new.

Theorem C54_set : forall h a c pl cl rest s,
  ctag_laid h a c pl cl rest ->
  agrees (fun c' h' => v1_set (ccall_id s) a cl rest c c' h') (run_ccall s (Some c)) (run_ccall_h s (Some a) h).
Proof. exact run_ccall_is. Qed.
Print Assumptions C54_set.

Theorem C54_save : forall h a c pl cl rest f,
  ctag_laid h a c pl cl rest ->
  agrees (v1_saved a pl cl f (written_leak (t_frames (ct_tag c))) rest) (set_tag f (Some c)) (set_tag_h f (Some a) h).
Proof. exact set_tag_is. Qed.
Print Assumptions C54_save.

Theorem C54_free : forall h a c pl cl rest,
  ctag_laid h a c pl cl rest ->
  agrees (fun _ h' => v1_freed h (list_leak (t_frames (ct_tag c))) rest h') (free_tag (Some c)) (free_tag_h (Some a) h).
Proof. exact free_tag_is. Qed.
Print Assumptions C54_free.

(** remove_tag leaves nothing allocated. *)
Theorem C54_remove : forall h m f,
  heap_is h m ->
  agrees (fun v r => v = fst r /\ heap_is (snd r) m) (ID3v2_delete_tag_states f) (remove_tag_h f h).
Proof. exact remove_tag_is. Qed.
Print Assumptions C54_remove.

(** Whatever is in the file and whatever is set and saved in between. *)
Theorem C54_program : forall h m f ops,
  heap_is h m -> agrees (v1_ended m ops) (v1_program f ops) (v1_program_h f ops h).
Proof. exact program_is. Qed.
Print Assumptions C54_program.

Theorem C54_freed : forall h a c rest h',
  ctag_at h a c rest -> free_tag_h (Some a) h = Ok h' ->
  free_tag_h (Some a) h' = Ub UseAfterFree /\ (forall f, set_tag_h f (Some a) h' = Ub UseAfterFree)
  /\ (forall id, get_compat_h (Some a) id h' = Ub UseAfterFree).
Proof. exact freed_end. Qed.
Print Assumptions C54_freed.

Definition v1_song : list byte := tag_bytes x03 x00 x00 130 samples ++ [xff; xfb; x90].
Definition v1_heap : heap := mkHeap [(7%nat, BBytes (cells (lit "someone else's")))] 8.
Definition v1_ops : list v1_op :=
  [ OpSet (CTitle (clit "A") x00); OpSave (Some v1_song); OpSet (CComment (clit "good") x00);
    OpSet (CCoverBytes (Some (cells [x01; x02])) (clit "image/png") 2); OpSave (Some (lit "only sound, no tag")) ].

Lemma v1_heap_is : heap_is v1_heap (live v1_heap).
Proof. repeat split; repeat constructor; cbn; auto. Qed.

(** One of the five frames is of an unknown kind, and the tag is saved twice:
    seven blocks are left. *)
Example C54_applies :
  heap_is v1_heap (live v1_heap)
  /\ saves v1_ops = 2%nat
  /\ (exists fs c, v1_program (Some v1_song) v1_ops = Ok (fs, c) /\ length fs = 2%nat /\ list_leak (t_frames (ct_tag c)) = 1%nat)
  /\ (exists fs h, v1_program_h (Some v1_song) v1_ops v1_heap = Ok (fs, h) /\ length (live h) = (1 + 7)%nat).
Proof.
  split; [exact v1_heap_is|]. split; [reflexivity|].
  split; [eexists _, _; split; [vm_compute; reflexivity|split; vm_compute; reflexivity]|].
  eexists _, _; split; [vm_compute; reflexivity|vm_compute; reflexivity].
Qed.

(** The hypotheses of the other theorems hold of a tag that was loaded. *)
Example C54_applies_loaded :
  exists a h c pl cl rest, load_tag_h (Some v1_song) v1_heap = Ok (a, h) /\ ctag_laid h a c pl cl rest
    /\ length cl = 5%nat /\ (exists h', run_ccall_h (CTitle (clit "A") x00) (Some a) h = Ok h')
    /\ (exists r, set_tag_h (Some v1_song) (Some a) h = Ok r)
    /\ (exists h', free_tag_h (Some a) h = Ok h' /\ length (live h') = 4%nat)
    /\ run_ccall_h (CAlbum (clit "no such frame") x00) (Some a) h = Ub NullDeref.
Proof.
  assert (L := C54_load_file v1_heap _ (Some v1_song) v1_heap_is).
  destruct (load_tag (Some v1_song)) as [c| | |] eqn:E; try (vm_compute in E; discriminate E).
  destruct L as ((a & h) & Eh & lost & (pl & cl & T) & _). cbn [fst snd] in *.
  exists a, h, c, pl, cl, (lost ++ live v1_heap). split; [exact Eh|]. split; [exact T|]. split.
  { destruct T as (? & ? & ? & _ & Ef & _). apply (f_equal (@length cnode)) in Ef. rewrite map_length in Ef. rewrite <- Ef.
    vm_compute in E. injection E as <-. reflexivity. }
  vm_compute in Eh. injection Eh as <- <-.
  split; [eexists; vm_compute; reflexivity|]. split; [eexists; vm_compute; reflexivity|].
  split; [eexists; split; [vm_compute; reflexivity|reflexivity]|]. vm_compute. reflexivity.
Qed.

(** ** C55 *)

(** A getter returns the pointer to the struct of a frame of the list. *)
Theorem C55_get : forall h a c pl cl rest id,
  ctag_laid h a c pl cl rest -> agrees (c_pointer cl) (get_compat (Some c) id) (get_compat_h (Some a) id h).
Proof. exact get_compat_is. Qed.
Print Assumptions C55_get.

(** Setting the frame frees what the pointer points to; setting another one
    does not change it. *)
Theorem C55_set : forall h a c rest s h' id p,
  ctag_at h a c rest -> run_ccall_h s (Some a) h = Ok h' -> In id v1_ids ->
  get_compat_h (Some a) (clit id) h = Ok (Some p) ->
  (lit id = ccall_id s -> load (Some p) h' = Ub UseAfterFree)
  /\ (lit id <> ccall_id s -> load (Some p) h' = load (Some p) h).
Proof. exact set_pointers. Qed.
Print Assumptions C55_set.

Theorem C55_text : forall h a c pl cl rest f p,
  ctag_laid h a c pl cl rest -> c_pointer cl f p ->
  agrees (text_copied a c pl cl rest) (parse_text_frame_content (t_frames (ct_tag c)) f) (parse_text_frame_content_h p h).
Proof. exact text_content_is. Qed.
Print Assumptions C55_text.

Theorem C55_comment : forall h a c pl cl rest f p,
  ctag_laid h a c pl cl rest -> c_pointer cl f p ->
  agrees (comment_shared a c pl cl rest) (parse_comment_frame_content (t_frames (ct_tag c)) f) (parse_comment_frame_content_h p h).
Proof. exact comment_content_is. Qed.
Print Assumptions C55_comment.

Theorem C55_picture : forall h a c pl cl rest f p,
  ctag_laid h a c pl cl rest -> c_pointer cl f p ->
  agrees (apic_shared a c pl cl rest) (parse_apic_frame_content (t_frames (ct_tag c)) f) (parse_apic_frame_content_h p h).
Proof. exact apic_content_is. Qed.
Print Assumptions C55_picture.

(** Of contents that were got before the tag was freed, only a text stays
    whole. *)
Theorem C55_text_freed : forall a c pl cl rest v p h h',
  text_copied a c pl cl rest v (p, h) -> free_tag_h (Some a) h = Ok h' -> text_stays h' p v.
Proof. exact text_end. Qed.
Print Assumptions C55_text_freed.

Theorem C55_comment_freed : forall a c pl cl rest v p h h',
  comment_shared a c pl cl rest v (p, h) -> free_tag_h (Some a) h = Ok h' -> comment_dangles h' p.
Proof. exact comment_end. Qed.
Print Assumptions C55_comment_freed.

Theorem C55_picture_freed : forall a c pl cl rest v p h h',
  apic_shared a c pl cl rest v (p, h) -> free_tag_h (Some a) h = Ok h' -> apic_dangles h' p.
Proof. exact apic_end. Qed.
Print Assumptions C55_picture_freed.

(** Title, comment and cover of the same file; the struct of the title is freed
    when the title is set, that of the comment is not. *)
Example C55_applies :
  exists a h c pl cl rest p q r x y z hx hy hz h' hf,
    load_tag_h (Some v1_song) v1_heap = Ok (a, h) /\ ctag_laid h a c pl cl rest
    /\ get_compat_h (Some a) (clit "TIT2") h = Ok (Some p) /\ get_compat_h (Some a) (clit "COMM") h = Ok (Some q)
    /\ get_compat_h (Some a) (clit "APIC") h = Ok (Some r) /\ get_compat_h (Some a) (clit "TALB") h = Ok None
    /\ parse_text_frame_content_h (Some p) h = Ok (x, hx) /\ parse_comment_frame_content_h (Some q) hx = Ok (y, hy)
    /\ parse_apic_frame_content_h (Some r) hy = Ok (z, hz) /\ length (live hz) = (length (live h) + 5)%nat
    /\ parse_text_frame_content_h (Some r) h = Ub TypeConfusion
    /\ run_ccall_h (CTitle (clit "A") x00) (Some a) h = Ok h'
    /\ load (Some p) h' = Ub UseAfterFree /\ load (Some q) h' = load (Some q) h
    /\ free_tag_h (Some a) hz = Ok hf /\ length (live hf) = (4 + 5)%nat
    /\ comment_dangles hf y /\ apic_dangles hf z.
Proof.
  assert (L := C54_load_file v1_heap _ (Some v1_song) v1_heap_is).
  destruct (load_tag (Some v1_song)) as [c| | |] eqn:E; try (vm_compute in E; discriminate E).
  destruct L as ((a & h) & Eh & lost & (pl & cl & T) & _). cbn [fst snd] in *.
  exists a, h, c, pl, cl, (lost ++ live v1_heap).
  assert (Eh' := Eh). vm_compute in Eh'. injection Eh' as <- <-.
  eexists _, _, _, _, _, _, _, _, _, _, _.
  split; [exact Eh|]. split; [exact T|]. clear.
  do 7 (split; [vm_compute; reflexivity|]).
  do 7 (split; [vm_compute; reflexivity|]).
  split; [eexists _, _, _, _, _, _|eexists _, _, _, _, _, _]; repeat (split; [vm_compute; reflexivity|]); vm_compute; reflexivity.
Qed.
