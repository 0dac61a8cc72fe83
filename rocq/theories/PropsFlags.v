(** Properties of the flags of the tag header and of footers: C83. *)
From Verif Require Import File Calls Spec SpecEdit SpecFile SpecRead SpecRewrite SpecSession SpecFlags Samples.
From Verif Require Import ReadFacts FlagsFacts.

(** C83: flags *)

Theorem C83_read : forall content flags, has_extended_header flags = has_extended_header (flags_of content) ->
  (forall t, ID3v2_read_tag (Some content) = Ok (Some t) ->
     exists t' gs, ID3v2_read_tag (Some (with_flags flags content)) = Ok (Some t')
       /\ tag_has t gs /\ tag_has t' gs /\ t_padding t' = t_padding t
       /\ th_flags (t_header t) = flags_of content
       /\ t_header t' = mkTH (lit "ID3") (th_major (t_header t)) (th_minor (t_header t)) flags
                             (th_tag_size (t_header t)) (th_ext_size (t_header t)))
  /\ (ID3v2_read_tag (Some content) = Ok None -> ID3v2_read_tag (Some (with_flags flags content)) = Ok None)
  /\ (forall u, ID3v2_read_tag (Some content) = Ub u -> exists u', ID3v2_read_tag (Some (with_flags flags content)) = Ub u').
Proof. exact flags_ignored. Qed.
Print Assumptions C83_read.

Theorem C83_write : forall content flags h gs pad cs es out,
  has_extended_header flags = false ->
  file_read content (Some (h, gs, pad)) -> Forall sane gs ->
  Forall2 means cs es -> all_allowed es gs = true ->
  - 2 ^ 31 <= bytes_needed (apply_edits es gs) + (th_tag_size h - bytes_needed gs) + room_deltas es gs < 2 ^ 28 ->
  run_session cs (Some content) = Ok (Some out) ->
  run_session cs (Some (with_flags flags content)) = Ok (Some (with_flags flags out)).
Proof. exact flags_kept. Qed.
Print Assumptions C83_write.

(** C83: footers *)

Theorem C83_footer_kept : forall content minor flags n pad fs sound cs es,
  file_read content (Some (mkTH (lit "ID3") x04 minor flags n 0, map frame_of fs, pad)) ->
  Forall (fun f => frame_ok f = true) fs -> n < 2 ^ 28 ->
  audio content = footer minor flags n ++ sound ->
  Forall2 means cs es -> all_proper es fs = true ->
  let fs' := edited es fs in
  let room := room_left es fs (n - frames_size fs) in
  let n' := frames_size fs' + room in
  0 <= room -> n' < 2 ^ 28 ->
  run_session cs (Some content) = Ok (Some (tag_bytes x04 minor flags n' fs' ++ footer minor flags n ++ sound)).
Proof. exact footer_written. Qed.
Print Assumptions C83_footer_kept.

Theorem C83_footer_left : forall content minor flags n sound, announces_extended content = false ->
  audio content = footer minor flags n ++ sound ->
  ID3v2_delete_tag (Some content) = Ok (Some (footer minor flags n ++ sound))
  /\ ID3v2_read_tag (Some (footer minor flags n ++ sound)) = Ok None
  /\ ID3v2_delete_tag (Some (footer minor flags n ++ sound)) = Ok (Some (footer minor flags n ++ sound)).
Proof. exact footer_stays. Qed.
Print Assumptions C83_footer_left.

(** An experimental tag with a footer, whose artist gets another name. *)
Definition both : list fspec := [artist; private].
Definition footed : list byte := tag_bytes x04 x00 x30 (frames_size both) both ++ footer x00 x30 (frames_size both) ++ [xff; xfb].
Definition rename : list call := [SetArtist (Some (cells (text_image (Iso (lit "Somebody else")))))].
Definition renamed : list edit := [Put (FText (lit "TPE1") [x00; x00] (Iso (lit "Somebody else")))].

Example C83_applies :
  file_read footed (Some (mkTH (lit "ID3") x04 x00 x30 32 0, map frame_of both, 0))
  /\ Forall (fun f => frame_ok f = true) both /\ Forall sane (map frame_of both)
  /\ audio footed = footer x00 x30 32 ++ [xff; xfb] /\ announces_extended footed = false
  /\ Forall2 means rename renamed /\ all_proper renamed both = true /\ all_allowed renamed (map frame_of both) = true
  /\ room_left renamed both 0 = 0 /\ frames_size (edited renamed both) = 38
  /\ run_session rename (Some footed)
     = Ok (Some (tag_bytes x04 x00 x30 38 (edited renamed both) ++ footer x00 x30 32 ++ [xff; xfb]))
  /\ has_extended_header x80 = has_extended_header (flags_of footed)
  /\ run_session rename (Some (with_flags x80 footed))
     = Ok (Some (tag_bytes x04 x00 x80 38 (edited renamed both) ++ footer x00 x30 32 ++ [xff; xfb])).
Proof.
  split.
  { destruct (read_file_exactly footed) as [(r & t & R & E & S)|[_ (u & E)]]; vm_compute in E; [|discriminate E].
    injection E as <-. destruct r as [[[h fs] pad]|]; [|contradiction]. destruct S as (<- & H & <-).
    destruct H as (ps & E & <- & _). destruct ps as [|p1 [|p2 [|p3 ps]]]; try discriminate E.
    injection E as <- <-. exact R. }
  split; [repeat constructor|].
  split.
  { constructor; [|constructor; [|constructor]].
    - split; [exists (lit "TPE1"); split; reflexivity|vm_compute; split; [discriminate|reflexivity]].
    - split; [exists (lit "PRIV"); split; reflexivity|vm_compute; split; [discriminate|reflexivity]]. }
  split; [vm_compute; reflexivity|]. split; [vm_compute; reflexivity|].
  split; [constructor; [apply MArtist, points_to_exact|constructor]|].
  repeat (split; [vm_compute; reflexivity|]). vm_compute. reflexivity.
Qed.
