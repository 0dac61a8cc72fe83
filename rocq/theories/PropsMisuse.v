(** A text frame under an id that does not stand for text: C58. *)
From Verif Require Import File Calls Spec SpecEdit Heap HeapIO SpecHeap SpecHeapIO SpecMisuse EditFacts MisuseFacts MisuseEditFacts MisuseWriteFacts MisuseLifeFacts Samples.

(** ** C58 *)

(** ID3v2_Tag_set_text_frame takes any id of four bytes ... *)
Theorem C58_set : forall t fs id fl s i f x, tag_has t fs -> Forall sane fs ->
  points_to id i -> points_to fl f -> points_to s (text_image x) ->
  length i = 4%nat -> length f = 2%nat -> text_ok x = true -> zlen (text_image x) + 11 < 2 ^ 31 ->
  exists t' p, ID3v2_Tag_set_text_frame t (mkTextInput id fl s) = Ok t'
    /\ tag_has t' (put (named i) (frame_of (FText i f x)) fs)
    /\ ID3v2_Tag_get_frame (Some t') id = Ok (Some p) /\ fp_frame p = frame_of (FText i f x).
Proof. exact set_text_any. Qed.
Print Assumptions C58_set.

(** ... but such a frame does not have the kind that its id stands for, ... *)
Theorem C58_misfiled : forall i f x, i <> [] -> id_starts i "T" = false -> misfiled (frame_of (FText i f x)).
Proof. exact text_misfiled. Qed.
Print Assumptions C58_misfiled.

(** ... and a tag with one of those cannot be written to any file. *)
Theorem C58_write : forall t f file, misfiled f -> In f (visible (t_frames t)) ->
  forall r, ID3v2_write_tag_states file (Some t) <> Ok r.
Proof. exact misfiled_file. Qed.
Print Assumptions C58_write.

(** From ID3v2_Tag_new_empty to ID3v2_Tag_free: setting a text frame under an id
    that starts with C or A makes the tag impossible to free, under any other
    that does not start with T two blocks are lost. *)
Theorem C58_life : forall h m id fl s i f x, heap_is h m ->
  points_to id i -> points_to fl f -> points_to s (text_image x) ->
  length i = 4%nat -> length f = 2%nat -> text_ok x = true -> zlen (text_image x) + 11 < 2 ^ 31 ->
  exists a h1 h2 t, ID3v2_Tag_new_empty_h h = (a, h1)
    /\ ID3v2_Tag_set_text_frame_h (Some a) (mkTextInput id fl s) h1 = Ok h2
    /\ tag_at h2 a t m /\ tag_has t [frame_of (FText i f x)]
    /\ if id_starts i "T" then exists h3, ID3v2_Tag_free (Some a) h2 = Ok h3 /\ heap_is h3 m
       else if id_starts i "C" || id_starts i "A" then ID3v2_Tag_free (Some a) h2 = Ub TypeConfusion
       else exists h3 lost, ID3v2_Tag_free (Some a) h2 = Ok h3 /\ heap_is h3 (lost ++ m) /\ length lost = 2%nat.
Proof. exact text_life. Qed.
Print Assumptions C58_life.

(** For any tag at all, and any calls with any arguments: the outcome on the
    heap is the one on values, except where a frame is freed whose id stands
    for another kind than it has ([release]); so many blocks are lost. *)
Theorem C58_call : forall h a t rest c, tag_at h a t rest ->
  agrees (left_at a rest) (call_result t c) (run_call_h (Some a) c h).
Proof. exact call_any. Qed.
Print Assumptions C58_call.

Theorem C58_history : forall cs h a t rest, tag_at h a t rest ->
  agrees (left_at a rest) (calls_result t cs) (run_calls_h (Some a) cs h).
Proof. exact calls_any. Qed.
Print Assumptions C58_history.

Theorem C58_free : forall h a t rest, tag_at h a t rest ->
  agrees (fun n h' => exists lost, heap_is h' (lost ++ rest) /\ length lost = n)
    (releases (t_frames t)) (ID3v2_Tag_free (Some a) h).
Proof. exact free_any. Qed.
Print Assumptions C58_free.

(** Writing any tag from the heap succeeds exactly when writing its value does. *)
Theorem C58_store : forall h a t pl rest f, tag_laid h a t pl rest ->
  fares (stored a pl (written_leak (t_frames t)) rest)
    (ID3v2_write_tag_states f (Some t)) (ID3v2_write_tag_h f (Some a) h).
Proof. exact write_tag_any. Qed.
Print Assumptions C58_store.

(** An artist's web page, set as if it were text; and a comment. *)
Definition page : text := Iso (lit "http://example.org").
Definition set_page : call := SetTextFrame (mkTextInput (clit "WOAR") NO_FLAGS (clit "http://example.org")).
Definition set_wrong_comment : call := SetTextFrame (mkTextInput (clit "COMM") NO_FLAGS (clit "nice")).
Definition set_comment : call := SetComment (clit "eng") (clit "nicer").

Example C58_applies :
  points_to (clit "WOAR") (lit "WOAR") /\ points_to NO_FLAGS [x00; x00] /\ points_to (clit "http://example.org") (text_image page)
  /\ text_ok page = true /\ zlen (text_image page) + 11 < 2 ^ 31
  /\ (exists t, run_calls ID3v2_Tag_new_empty [set_page] = Ok t /\ visible (t_frames t) = [frame_of (FText (lit "WOAR") [x00; x00] page)]
        /\ ID3v2_write_tag_states (Some (lit "music")) (Some t) = Ub TypeConfusion)
  /\ id_starts (lit "WOAR") "T" = false /\ heap_is (mkHeap [] 0) []
  /\ (exists a h1 h2 h3, ID3v2_Tag_new_empty_h (mkHeap [] 0) = (a, h1)
        /\ run_calls_h (Some a) [set_page; set_page; set_page] h1 = Ok h2 /\ length (live h2) = (3 + 4 + 2 + 2)%nat
        /\ ID3v2_Tag_free (Some a) h2 = Ok h3 /\ length (live h3) = 6%nat)
  /\ (exists a h1, ID3v2_Tag_new_empty_h (mkHeap [] 0) = (a, h1)
        /\ run_calls_h (Some a) [set_wrong_comment; set_comment] h1 = Ub TypeConfusion
        /\ exists t, run_calls ID3v2_Tag_new_empty [set_wrong_comment; set_comment] = Ok t).
Proof.
  split; [exists (cells [x00]); reflexivity|]. split; [exists (cells [x00]); reflexivity|]. split; [exists []; reflexivity|].
  split; [reflexivity|]. split; [reflexivity|]. split; [eexists; split; [vm_compute; reflexivity|split; vm_compute; reflexivity]|].
  split; [reflexivity|]. split; [repeat split; constructor|].
  split; [eexists _, _, _, _; split; [vm_compute; reflexivity|]; split; [vm_compute; reflexivity|]; split; [vm_compute; reflexivity|]; split; vm_compute; reflexivity|].
  eexists _, _. split; [vm_compute; reflexivity|]. split; [vm_compute; reflexivity|]. eexists. vm_compute. reflexivity.
Qed.
