(** Properties of calls to which memory is refused: C66. *)
From Coq Require Import List ZArith Lia.
From Verif Require Import File Compat Calls Spec SpecEdit SpecFile Oom SpecOom.
From Verif Require Import OomFacts OomReadFacts OomCallFacts Samples.
Import ListNotations.
Open Scope Z_scope.

(** ** C66 *)

(** Setting, adding and deleting frames and converting text need every byte they
    ask for: after one refusal the behaviour is undefined.  This and all that
    follows also says that a call comes to what it does elsewhere (C01 to C65) if
    everything is granted. *)
Theorem C66_edit : forall t c, by_index c = false -> needs_all (run_call_o t c) (run_call t c).
Proof. exact n_run_call. Qed.
Print Assumptions C66_edit.

Theorem C66_text : forall p, needs_all (ID3v2_to_unicode_o p) (ID3v2_to_unicode p).
Proof. exact n_to_unicode. Qed.
Print Assumptions C66_text.

(** Deleting a comment or picture by index changes nothing if there is none and
    the list to look through is refused. *)
Theorem C66_by_index : forall t c, by_index c = true ->
  answers (run_call_o t c) (run_call t c)
    (fun new r => (listing t c = Ok FrameList_new /\ new = [(RNode, false)]) /\ r = Ok t
               \/ ~ (listing t c = Ok FrameList_new /\ new = [(RNode, false)]) /\ undefined r).
Proof. exact a_by_index. Qed.
Print Assumptions C66_by_index.

(** Listing the frames of a kind gives NULL, not an empty list, if there are none
    and the list is refused. *)
Theorem C66_list : forall t id,
  answers (ID3v2_Tag_get_frames_o (Some t) id) (ID3v2_Tag_get_frames (Some t) id)
    (fun new r => ID3v2_Tag_get_frames (Some t) id = Ok FrameList_new /\ new = [(RNode, false)] /\ r = Ok []
               \/ ID3v2_Tag_get_frames (Some t) id <> Ok FrameList_new /\ undefined r).
Proof. exact a_listing. Qed.
Print Assumptions C66_list.

(** A header that is refused looks like a file without a tag. *)
Theorem C66_header :
  (forall f, answers (ID3v2_read_tag_header_o f) (ID3v2_read_tag_header f) (header_or_undefined (Ok None)))
  /\ (forall p, answers (ID3v2_read_tag_header_from_buffer_o p) (ID3v2_read_tag_header_from_buffer p) (header_or_undefined (Ok None))).
Proof. exact a_headers. Qed.
Print Assumptions C66_header.

(** Reading a file gives NULL if the header or the room for the tag is refused, a
    tag without a list if it has no frames and the list is refused, and nothing
    defined after any other refusal. *)
Theorem C66_read : forall f, answers (ID3v2_read_tag_o f) (ID3v2_read_tag f) (file_answer (ID3v2_read_tag f)).
Proof. exact a_read_tag. Qed.
Print Assumptions C66_read.

(** The same of a buffer, where frames of which the buffer holds only the header
    may lose their data. *)
Theorem C66_buffer : forall p n, n < 2 ^ 31 ->
  answers (ID3v2_read_tag_from_buffer_o p n) (ID3v2_read_tag_from_buffer p n)
    (fun new r => if refused is_tag_header new then r = Ok None else tag_answer false (ID3v2_read_tag_from_buffer p n) new r).
Proof. exact a_read_tag_buffer. Qed.
Print Assumptions C66_buffer.

(** Writing to a file while the header is refused keeps all that was in the
    file, the old tag too, after the new tag. *)
Theorem C66_write : forall content tag,
  answers (ID3v2_write_tag_o (Some content) (Some tag)) (ID3v2_write_tag (Some content) (Some tag))
    (fun new r => if refused_only is_tag_header new then r = with_old content (ID3v2_write_tag (Some []) (Some tag)) else undefined r).
Proof. exact write_over. Qed.
Print Assumptions C66_write.

Theorem C66_write_missing : forall tag, needs_all (ID3v2_write_tag_o None (Some tag)) (ID3v2_write_tag None (Some tag)).
Proof. exact write_nowhere. Qed.
Print Assumptions C66_write_missing.

(** Deleting a tag while the header is refused leaves the file as it is. *)
Theorem C66_delete : forall f,
  answers (ID3v2_delete_tag_o f) (ID3v2_delete_tag f)
    (fun new r => if refused_only is_tag_header new then r = Ok f else undefined r).
Proof. exact a_delete. Qed.
Print Assumptions C66_delete.

(** A new tag lacks what was refused, header or list, unless it is the tag. *)
Theorem C66_new : ends_in ID3v2_Tag_new_empty_o (fun new r =>
  if refused is_tag new then undefined r
  else r = Ok (if refused is_tag_header new then Headless (tag_missing new)
               else Whole (mkTag TagHeader_new_empty (tag_missing new) 0 0))).
Proof. exact e_new_empty. Qed.
Print Assumptions C66_new.

(** Version 1.  Setting and parsing need every byte they ask for. *)
Theorem C66_v1_set : forall s e tag,
  needs_all (tag_set_title_o s tag) (tag_set_title s e tag)
  /\ needs_all (tag_set_artist_o s tag) (tag_set_artist s e tag)
  /\ needs_all (tag_set_album_o s tag) (tag_set_album s e tag)
  /\ needs_all (tag_set_album_artist_o s tag) (tag_set_album_artist s e tag)
  /\ needs_all (tag_set_genre_o s tag) (tag_set_genre s e tag)
  /\ needs_all (tag_set_track_o s tag) (tag_set_track s e tag)
  /\ needs_all (tag_set_year_o s tag) (tag_set_year s e tag)
  /\ needs_all (tag_set_comment_o s tag) (tag_set_comment s e tag)
  /\ needs_all (tag_set_disc_number_o s tag) (tag_set_disc_number s e tag)
  /\ needs_all (tag_set_composer_o s tag) (tag_set_composer s e tag)
  /\ (forall mime n, needs_all (tag_set_album_cover_from_bytes_o s mime n tag) (tag_set_album_cover_from_bytes s mime n tag))
  /\ (forall picture, needs_all (tag_set_album_cover_o s picture tag) (tag_set_album_cover s picture tag)).
Proof. exact v1_setters. Qed.
Print Assumptions C66_v1_set.

Theorem C66_v1_parse : forall l f,
  needs_all (parse_text_frame_content_o l f) (parse_text_frame_content l f)
  /\ needs_all (parse_comment_frame_content_o l f) (parse_comment_frame_content l f)
  /\ needs_all (parse_apic_frame_content_o l f) (parse_apic_frame_content l f).
Proof. exact a_contents. Qed.
Print Assumptions C66_v1_parse.

(** Loading is undefined after any refusal, except that a tag without frames,
    which cannot be loaded otherwise, can be when its list is refused. *)
Theorem C66_v1_load : forall f, answers (load_tag_o f) (load_tag f) (load_file_answer f).
Proof. exact a_load_tag. Qed.
Print Assumptions C66_v1_load.

Theorem C66_v1_load_buffer : forall p n, n < 2 ^ 31 ->
  answers (load_tag_with_buffer_o p n) (load_tag_with_buffer p n) (load_answer p n).
Proof. exact a_load_buffer. Qed.
Print Assumptions C66_v1_load_buffer.

Theorem C66_v1_write : forall content t,
  answers (set_tag_o (Some content) (Some t)) (set_tag (Some content) (Some t))
    (fun new r => if refused_only is_tag_header new then r = with_old content (set_tag (Some []) (Some t)) else undefined r).
Proof. exact set_over. Qed.
Print Assumptions C66_v1_write.

Theorem C66_v1_remove : forall f,
  answers (remove_tag_o f) (remove_tag f) (fun new r => if refused_only is_tag_header new then r = Ok f else undefined r).
Proof. exact v1_remove. Qed.
Print Assumptions C66_v1_remove.

Theorem C66_v1_new : ends_in new_tag_o (fun new r =>
  if refused is_compat_part new then undefined r
  else r = Ok (if refused is_tag_header new then CHeadless (compat_list new) (tag_missing new)
               else CWhole (mkCTag None empty_compat_header (compat_list new) (mkTag TagHeader_new_empty (tag_missing new) 0 0)))).
Proof. exact e_new_ctag. Qed.
Print Assumptions C66_v1_new.

(** An allocator that refuses all requests of a kind. *)
Definition without (p : request -> bool) : allocator := fun _ r => negb (p r).

Definition full_song : list byte := tag_bytes x03 x00 x00 130 samples ++ [xff; xfb; x90].
Definition bare_song : list byte := tag_bytes x03 x00 x00 20 [] ++ [xff; xfb; x90].

(** A text is set if all is granted; each refusal of a kind that was asked for
    makes it undefined. *)
Example C66_edit_applies :
  let c := SetArtist (Some (cells (text_image (Iso (lit "Someone"))))) in
  let t := tag_with samples 130 in
  by_index c = false
  /\ (exists t', fst (run_call_o t c (without (fun _ => false)) []) = Ok t' /\ run_call t c = Ok t')
  /\ (exists u, fst (run_call_o t c (without is_node) []) = Ub u)
  /\ (exists u, fst (run_call_o t c (fun l _ => Z.of_nat (length l) <? 3) []) = Ub u).
Proof.
  cbv zeta. split; [reflexivity|]. split; [eexists; split; [vm_compute; reflexivity|vm_compute; reflexivity]|].
  split; eexists; vm_compute; reflexivity.
Qed.

Example C66_by_index_applies :
  let t := tag_with [title] 130 in
  by_index (DeleteCommentFrame 0) = true
  /\ run_call_o t (DeleteCommentFrame 0) (without is_node) [] = (Ok t, [(RNode, false)])
  /\ ID3v2_Tag_get_frames_o (Some t) ID3v2_COMMENT_FRAME_ID (without is_node) [] = (Ok [], [(RNode, false)])
  /\ ID3v2_Tag_get_frames (Some t) ID3v2_COMMENT_FRAME_ID = Ok FrameList_new
  /\ fst (run_call_o (tag_with [comment1] 130) (DeleteCommentFrame 0) (without is_node) []) = Ub NullDeref.
Proof. vm_compute. repeat split. Qed.

(** The five frames are read, or nothing, or nothing is defined; a tag without
    frames may come without a list. *)
Example C66_read_applies :
  (exists t, fst (ID3v2_read_tag_o (Some full_song) (without (fun _ => false)) []) = Ok (Some t)
             /\ ID3v2_read_tag (Some full_song) = Ok (Some t) /\ length (t_frames t) = 5%nat)
  /\ fst (ID3v2_read_tag_o (Some full_song) (without is_tag_header) []) = Ok None
  /\ fst (ID3v2_read_tag_o (Some full_song) (without is_file) []) = Ok None
  /\ fst (ID3v2_read_tag_o (Some full_song) (without is_node) []) = Ub NullDeref
  /\ fst (ID3v2_read_tag_o (Some full_song) (without is_raw) []) = Ub NullDeref
  /\ (exists t, ID3v2_read_tag (Some bare_song) = Ok (Some t)
                /\ fst (ID3v2_read_tag_o (Some bare_song) (without is_node) []) = Ok (Some (unlisted t))
                /\ frameless t = true /\ unlisted t <> t).
Proof.
  split; [eexists; split; [vm_compute; reflexivity|split; vm_compute; reflexivity]|].
  split; [vm_compute; reflexivity|]. split; [vm_compute; reflexivity|]. split; [vm_compute; reflexivity|]. split; [vm_compute; reflexivity|].
  eexists. split; [vm_compute; reflexivity|]. split; [vm_compute; reflexivity|]. split; [reflexivity|discriminate].
Qed.

(** A buffer that ends after the header of its only frame. *)
Definition headers_only : mem :=
  cells (lit "ID3" ++ [x03; x00; x00; x00; x00; x00; x14] ++ lit "PRIV" ++ [x00; x00; x00; x03; x00; x00]).

Example C66_buffer_applies :
  exists t t', ID3v2_read_tag_from_buffer (Some headers_only) 20 = Ok (Some t)
    /\ fst (ID3v2_read_tag_from_buffer_o (Some headers_only) 20 (without is_raw) []) = Ok (Some t')
    /\ starved t t' /\ t' <> t.
Proof.
  eexists. eexists. split; [vm_compute; reflexivity|]. split; [vm_compute; reflexivity|]. split; [|discriminate].
  split; [reflexivity|]. split; [reflexivity|]. split; [reflexivity|]. split.
  - constructor; [|constructor]. split; [reflexivity|]. split; [reflexivity|]. right. exists (mkFH (cells (lit "PRIV")) 3 (cells [x00; x00])). split; [reflexivity|split; reflexivity].
  - constructor. split; reflexivity.
Qed.

(** The old tag is still there after the new one, or everything is. *)
Example C66_write_applies :
  exists new_tag t',
    fst (ID3v2_write_tag_o (Some full_song) (Some (tag_with [artist] 130)) (without is_tag_header) [])
      = Ok (Some (new_tag ++ full_song), Some t')
    /\ ID3v2_write_tag (Some full_song) (Some (tag_with [artist] 130)) = Ok (Some (new_tag ++ [xff; xfb; x90]), Some t')
    /\ fst (ID3v2_delete_tag_o (Some full_song) (without is_tag_header) []) = Ok (Some full_song)
    /\ ID3v2_delete_tag (Some full_song) = Ok (Some [xff; xfb; x90]).
Proof.
  exists (match ID3v2_write_tag (Some []) (Some (tag_with [artist] 130)) with Ok (Some b, _) => b | _ => [] end). eexists.
  split; [vm_compute; reflexivity|]. split; [vm_compute; reflexivity|]. split; vm_compute; reflexivity.
Qed.

Example C66_new_applies :
  fst (ID3v2_Tag_new_empty_o (without (fun _ => false)) []) = Ok (Whole (mkTag TagHeader_new_empty FrameList_new 0 0))
  /\ fst (ID3v2_Tag_new_empty_o (without is_node) []) = Ok (Whole (mkTag TagHeader_new_empty [] 0 0))
  /\ fst (ID3v2_Tag_new_empty_o (without is_tag_header) []) = Ok (Headless FrameList_new)
  /\ fst (ID3v2_Tag_new_empty_o (without is_tag) []) = Ub NullDeref
  /\ fst (new_tag_o (without is_compat_node) [])
     = Ok (CWhole (mkCTag None empty_compat_header [] (mkTag TagHeader_new_empty FrameList_new 0 0))).
Proof. vm_compute. repeat split. Qed.

Example C66_v1_applies :
  (exists c, fst (load_tag_o (Some full_song) (without (fun _ => false)) []) = Ok c /\ load_tag (Some full_song) = Ok c
     /\ (exists u, fst (tag_set_title_o (Some (cells (text_image (Iso (lit "T"))))) (Some c)
                         (without (fun r => match r with RCompatFrame => true | _ => false end)) []) = Ub u)
     /\ exists c', tag_set_title (Some (cells (text_image (Iso (lit "T"))))) x00 (Some c) = Ok c'
          /\ fst (tag_set_title_o (Some (cells (text_image (Iso (lit "T"))))) (Some c) (without (fun _ => false)) []) = Ok c')
  /\ fst (load_tag_o (Some full_song) (without is_tag_header) []) = Ub NullDeref
  /\ fst (load_tag_o (Some full_song) (without is_compat_node) []) = Ub NullDeref
  /\ load_tag (Some bare_song) = Ub NullDeref
  /\ exists c, fst (load_tag_o (Some bare_song) (without is_node) []) = Ok c /\ ct_frames c = new_frame_list.
Proof.
  split.
  { eexists. split; [vm_compute; reflexivity|]. split; [vm_compute; reflexivity|]. split; [eexists; vm_compute; reflexivity|].
    eexists. split; vm_compute; reflexivity. }
  split; [vm_compute; reflexivity|]. split; [vm_compute; reflexivity|]. split; [vm_compute; reflexivity|].
  eexists. split; vm_compute; reflexivity.
Qed.
