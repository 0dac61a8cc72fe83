(** The laws of edits: C87. *)
From Coq Require Import Permutation.
From Verif Require Import File Calls Spec SpecEdit SpecFile SpecHole SpecLaws LawFacts Samples.

(** ** C87 *)

(** Tags that differ only in addresses cannot be told apart: by getters, by
    saving, by any calls that follow. *)
Theorem C87_get : forall t u arg id, alike t u -> points_to arg id -> length id = 4%nat ->
  (let* p := ID3v2_Tag_get_frame (Some t) arg in Ok (option_map fp_frame p))
  = (let* p := ID3v2_Tag_get_frame (Some u) arg in Ok (option_map fp_frame p))
  /\ (let* l := ID3v2_Tag_get_frames (Some t) arg in Ok (frames_in l))
     = (let* l := ID3v2_Tag_get_frames (Some u) arg in Ok (frames_in l)).
Proof. exact get_alike. Qed.
Print Assumptions C87_get.

Theorem C87_write : forall f t u, alike t u ->
  (let* (s, _) := ID3v2_write_tag_states f (Some t) in Ok s) = (let* (s, _) := ID3v2_write_tag_states f (Some u) in Ok s).
Proof. exact write_alike. Qed.
Print Assumptions C87_write.

Theorem C87_calls : forall t u cs es, alike t u -> 0 <= th_tag_size (t_header t) < 2 ^ 32 ->
  Forall2 means cs es -> forallb edit_ok es = true ->
  match run_calls t cs with
  | Ok t' => exists u', run_calls u cs = Ok u' /\ alike t' u'
  | Ub k => run_calls u cs = Ub k
  | _ => False
  end.
Proof. exact calls_alike. Qed.
Print Assumptions C87_calls.

(** Of two settings of the same frame only the second counts. *)
Theorem C87_last_wins : forall t fs c d f g,
  tag_has t fs -> Forall sane fs -> 0 <= th_tag_size (t_header t) < 2 ^ 32 ->
  means c (Put f) -> means d (Put g) -> frame_ok f = true -> frame_ok g = true ->
  same_id (frame_id f) (frame_id g) = true ->
  exists t1 t2, run_calls t [c; d] = Ok t1 /\ run_calls t [d] = Ok t2 /\ alike t1 t2.
Proof. exact last_wins. Qed.
Print Assumptions C87_last_wins.

(** Different frames may be set in either order: the getters see the same, and
    if one of the two was there before, the tags are alike. *)
Theorem C87_set_order : forall t fs c d f g,
  tag_has t fs -> Forall sane fs -> 0 <= th_tag_size (t_header t) < 2 ^ 32 ->
  means c (Put f) -> means d (Put g) -> frame_ok f = true -> frame_ok g = true ->
  same_id (frame_id f) (frame_id g) = false ->
  exists t1 t2, run_calls t [c; d] = Ok t1 /\ run_calls t [d; c] = Ok t2
    /\ t_header t1 = t_header t2 /\ t_padding t1 = t_padding t2
    /\ (exists l1 l2, tag_has t1 l1 /\ tag_has t2 l2 /\ Permutation l1 l2 /\ forall id, filter (named id) l1 = filter (named id) l2)
    /\ (existsb (named (frame_id f)) fs = true \/ existsb (named (frame_id g)) fs = true -> alike t1 t2).
Proof. exact either_order. Qed.
Print Assumptions C87_set_order.

(** Setting a frame and deleting it is the same as deleting it, where that leaves
    no hole. *)
Theorem C87_set_delete : forall t fs c d f,
  tag_has t fs -> Forall sane fs -> 0 <= th_tag_size (t_header t) < 2 ^ 32 ->
  means c (Put f) -> means d (Remove (frame_id f)) -> frame_ok f = true ->
  allowed (Remove (frame_id f)) fs = true ->
  exists t1 t2, run_calls t [c; d] = Ok t1 /\ run_calls t [d] = Ok t2 /\ alike t1 t2.
Proof. exact set_delete. Qed.
Print Assumptions C87_set_delete.

(** Setting a new frame and deleting it does not give the tag back: a hole is
    left at the end, and the recorded size is ten less than it was. *)
Theorem C87_set_delete_new : forall t fs c d f,
  tag_has t fs -> Forall sane fs -> 0 <= th_tag_size (t_header t) < 2 ^ 32 ->
  means c (Put f) -> means d (Remove (frame_id f)) -> frame_ok f = true ->
  fs <> [] -> existsb (named (frame_id f)) fs = false ->
  exists t', run_calls t [c; d] = Ok t' /\ tag_holds t' (mkShelf fs (Some []))
    /\ t_header t' = sized (t_header t) ((th_tag_size (t_header t) - 10) mod 2 ^ 32) /\ t_padding t' = t_padding t.
Proof. exact set_delete_new. Qed.
Print Assumptions C87_set_delete_new.

(** Different frames may be deleted in either order. *)
Theorem C87_delete_order : forall t fs c d i j,
  tag_has t fs -> Forall sane fs -> 0 <= th_tag_size (t_header t) < 2 ^ 32 ->
  means c (Remove i) -> means d (Remove j) -> same_id i j = false ->
  all_allowed [Remove i; Remove j] fs = true -> all_allowed [Remove j; Remove i] fs = true ->
  exists t1 t2, run_calls t [c; d] = Ok t1 /\ run_calls t [d; c] = Ok t2 /\ alike t1 t2.
Proof. exact delete_order. Qed.
Print Assumptions C87_delete_order.

(** A tag of a title, two comments and a private frame, and a cover.  Its title
    and its artist are set, its title and its comment deleted. *)
Definition set_artist (s : list byte) : call := SetArtist (Some (cells (text_image (Iso s)))).
Definition set_title (s : list byte) : call := SetTitle (Some (cells (text_image (Iso s)))).
Definition artist_of (s : list byte) : fspec := FText (lit "TPE1") [x00; x00] (Iso s).
Definition title_of (s : list byte) : fspec := FText (lit "TIT2") [x00; x00] (Iso s).

Example C87_applies :
  let fs := map frame_of samples in
  tag_has (tag_with samples 500) fs /\ Forall sane fs
  /\ means (set_artist (lit "X")) (Put (artist_of (lit "X"))) /\ means (set_title (lit "Song")) (Put (title_of (lit "Song")))
  /\ frame_ok (artist_of (lit "X")) = true /\ frame_ok (title_of (lit "Song")) = true
  /\ same_id (frame_id (artist_of (lit "X"))) (frame_id (artist_of (lit "Yes"))) = true
  /\ same_id (frame_id (artist_of (lit "X"))) (frame_id (title_of (lit "Song"))) = false
  /\ existsb (named (lit "TIT2")) fs = true /\ existsb (named (lit "TPE1")) fs = false
  /\ means DeleteTitle (Remove (lit "TIT2")) /\ allowed (Remove (lit "TIT2")) fs = true
  /\ means DeleteComment (Remove (lit "COMM")) /\ same_id (lit "TIT2") (lit "COMM") = false
  /\ all_allowed [Remove (lit "TIT2"); Remove (lit "COMM")] fs = true
  /\ all_allowed [Remove (lit "COMM"); Remove (lit "TIT2")] fs = true.
Proof.
  split; [apply tag_with_has|]. split; [exact samples_sane|]. split; [apply MArtist, points_to_exact|].
  split; [apply MTitle, points_to_exact|]. repeat (split; [first [constructor | vm_compute; reflexivity]|]). vm_compute. reflexivity.
Qed.

(** The addresses do differ: the artist of the second tag is at another one. *)
Example C87_applies_alike :
  exists t1 t2, run_calls (tag_with samples 500) [set_artist (lit "X"); set_artist (lit "Yes")] = Ok t1
    /\ run_calls (tag_with samples 500) [set_artist (lit "Yes")] = Ok t2 /\ alike t1 t2
    /\ map (fun n => option_map fp_addr (n_frame n)) (t_frames t1) <> map (fun n => option_map fp_addr (n_frame n)) (t_frames t2).
Proof.
  destruct (C87_last_wins (tag_with samples 500) (map frame_of samples) (set_artist (lit "X")) (set_artist (lit "Yes"))
              (artist_of (lit "X")) (artist_of (lit "Yes"))) as (t1 & t2 & E1 & E2 & A);
    try (apply MArtist, points_to_exact); try reflexivity; try exact samples_sane; try apply tag_with_has.
  - vm_compute. split; congruence.
  - exists t1, t2. repeat split; try apply A; auto.
    revert E1 E2. vm_compute. intros E1 E2. injection E1 as <-. injection E2 as <-. discriminate.
Qed.
