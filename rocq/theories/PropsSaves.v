(** Saving and deleting again and again: C88. *)
From Verif Require Import File Calls Spec SpecEdit SpecFile SpecSaves SavesFacts Samples.

(** ** C88 *)

(** Whether a tag can be saved, and which bytes it becomes, does not depend on
    the file: they go in front of what follows the old tag. *)
Theorem C88_target : forall t,
  (exists bytes t', forall content, announces_extended content = false ->
     ID3v2_write_tag (Some content) (Some t) = Ok (Some (bytes ++ audio content), Some t'))
  \/ (exists u, forall content, announces_extended content = false -> ID3v2_write_tag (Some content) (Some t) = Ub u)
  \/ (exists n, forall content, announces_extended content = false -> ID3v2_write_tag (Some content) (Some t) = Exit n).
Proof. exact target_free. Qed.
Print Assumptions C88_target.

(** After a tag was saved, saving any other and deleting do what they would
    have done before. *)
Theorem C88_again : forall content t c1 t', honest (t_header t) ->
  ID3v2_write_tag (Some content) (Some t) = Ok (Some c1, t') ->
  audio c1 = audio content
  /\ ID3v2_delete_tag (Some c1) = ID3v2_delete_tag (Some content)
  /\ (forall t2, ID3v2_write_tag (Some c1) (Some t2) = ID3v2_write_tag (Some content) (Some t2)).
Proof. exact saved_again. Qed.
Print Assumptions C88_again.

(** What is read back depends on the tag only. *)
Theorem C88_read : forall c d t c1 d1 t1 t2, honest (t_header t) ->
  ID3v2_write_tag (Some c) (Some t) = Ok (Some c1, t1) -> ID3v2_write_tag (Some d) (Some t) = Ok (Some d1, t2) ->
  t1 = t2 /\ ID3v2_read_tag (Some c1) = ID3v2_read_tag (Some d1).
Proof. exact saved_read. Qed.
Print Assumptions C88_read.

(** Saving the tag that was just saved changes neither the file nor, if its
    padding was not negative, the tag. *)
Theorem C88_twice : forall content t c1 t', honest (t_header t) ->
  ID3v2_write_tag (Some content) (Some t) = Ok (Some c1, Some t') ->
  exists t2, ID3v2_write_tag (Some c1) (Some t') = Ok (Some c1, Some t2) /\ (0 <= t_padding t -> t2 = t').
Proof. exact saved_twice. Qed.
Print Assumptions C88_twice.

(** However often tags are saved and deleted, only the last call counts.  (With
    deletions among them, what follows the tag must not look like a tag, or
    each deletion takes off another one.) *)
Theorem C88_history : forall content ops o,
  announces_extended content = false -> (In Delete ops -> no_tag (audio content)) -> Forall op_fine ops ->
  run_file_ops (ops ++ [o]) (Some content) = run_file_ops [o] (Some content).
Proof. exact only_last. Qed.
Print Assumptions C88_history.

(** Without an honest header it is different.  From 2^29 bytes on the size is
    cut, and deleting leaves most of the tag in the file. *)
Theorem C88_long : forall content t c1 t',
  th_identifier (t_header t) = lit "ID3" -> known_version (th_major (t_header t)) = true ->
  has_extended_header (th_flags (t_header t)) = false -> 2 ^ 29 <= th_tag_size (t_header t) < 2 ^ 32 ->
  ID3v2_write_tag (Some content) (Some t) = Ok (Some c1, t') ->
  exists junk, ID3v2_delete_tag (Some c1) = Ok (Some (junk ++ audio content))
    /\ zlen junk = 2 ^ 29 * (th_tag_size (t_header t) / 2 ^ 29) /\ 2 ^ 29 <= zlen junk.
Proof. exact saved_long. Qed.
Print Assumptions C88_long.

(** With another version the tag is not found again: it is neither read nor
    deleted, and saving it once more puts a second one in front. *)
Theorem C88_unknown : forall content t c1 t',
  th_identifier (t_header t) = lit "ID3" -> known_version (th_major (t_header t)) = false ->
  0 <= th_tag_size (t_header t) < 2 ^ 32 ->
  ID3v2_write_tag (Some content) (Some t) = Ok (Some c1, t') ->
  ID3v2_read_tag (Some c1) = Ok None /\ ID3v2_delete_tag (Some c1) = Ok (Some c1)
  /\ exists bytes, bytes <> [] /\ c1 = bytes ++ audio content
     /\ exists t2, ID3v2_write_tag (Some c1) t' = Ok (Some (bytes ++ c1), t2).
Proof. exact saved_unknown. Qed.
Print Assumptions C88_unknown.

(** With the flag for an extended header, every later call on the file is
    undefined. *)
Theorem C88_extended : forall content t c1 t',
  th_identifier (t_header t) = lit "ID3" -> known_version (th_major (t_header t)) = true ->
  has_extended_header (th_flags (t_header t)) = true -> 0 <= th_tag_size (t_header t) < 2 ^ 32 ->
  ID3v2_write_tag (Some content) (Some t) = Ok (Some c1, t') ->
  ID3v2_read_tag (Some c1) = Ub UninitRead /\ ID3v2_delete_tag (Some c1) = Ub UninitRead
  /\ forall t2, ID3v2_write_tag (Some c1) (Some t2) = Ub UninitRead.
Proof. exact saved_extended. Qed.
Print Assumptions C88_extended.

(** A tag of five frames and one of one, saved to a file and deleted. *)
Definition small : Tag := tag_with [artist] 30.
Definition large : Tag := tag_with samples 300.

Example C88_applies :
  let song := lit "not a tag but sound" in
  can_be_saved small /\ can_be_saved large /\ no_tag song /\ no_tag (audio song)
  /\ run_file_ops ([Save large; Delete; Save small; Delete; Save large] ++ [Save small]) (Some song)
     = run_file_ops [Save small] (Some song)
  /\ run_file_ops [Save small] (Some song) <> run_file_ops [Save large] (Some song)
  /\ run_file_ops [Save small] (Some song) <> run_file_ops [Delete] (Some song).
Proof.
  assert (S : can_be_saved small).
  { split; [repeat split; vm_compute; congruence|]. eexists. vm_compute. reflexivity. }
  assert (L : can_be_saved large).
  { split; [repeat split; vm_compute; congruence|]. eexists. vm_compute. reflexivity. }
  split; [exact S|]. split; [exact L|]. split; [reflexivity|]. split; [reflexivity|]. split; [|split; vm_compute; discriminate].
  apply C88_history; [reflexivity|reflexivity|]. repeat (apply Forall_cons; [first [exact S|exact L|exact I]|]). apply Forall_nil.
Qed.

(** Tags in front of tags: the first deletion takes off one, the second the other. *)
Example C88_stacked :
  match ID3v2_write_tag (Some (lit "sound")) (Some small) with
  | Ok (Some c, _) =>
      match ID3v2_write_tag (Some []) (Some large) with
      | Ok (Some d, _) =>
          run_file_ops [Delete] (Some (d ++ c)) = Ok (Some c)
          /\ run_file_ops [Delete; Delete] (Some (d ++ c)) = Ok (Some (lit "sound"))
      | _ => False
      end
  | _ => False
  end.
Proof. vm_compute. split; reflexivity. Qed.

(** Tags whose headers are not honest. *)
Example C88_applies_long : exists n t c1 t', n = 2 ^ 29 + 7 /\ t_header t = mkTH (lit "ID3") x03 x00 x00 n 0
  /\ ID3v2_write_tag (Some (lit "sound")) (Some t) = Ok (Some c1, t').
Proof.
  destruct (output_blank (2 ^ 29 + 7) 0 empty_node) as (bytes & E); [reflexivity|discriminate|reflexivity|].
  eexists _, _, _, _. split; [reflexivity|]. split; [|apply E; reflexivity]. reflexivity.
Qed.

Definition with_header (t : Tag) (major flags : byte) : Tag :=
  mkTag (mkTH (lit "ID3") major x00 flags (th_tag_size (t_header t)) 0) (t_frames t) (t_padding t) (t_fresh t).

Example C88_applies_others :
  (exists r, ID3v2_write_tag (Some (lit "sound")) (Some (with_header small x02 x00)) = Ok r)
  /\ known_version x05 = false
  /\ (exists r, ID3v2_write_tag (Some (lit "sound")) (Some (with_header small x05 x00)) = Ok r)
  /\ has_extended_header x40 = true
  /\ (exists r, ID3v2_write_tag (Some (lit "sound")) (Some (with_header small x03 x40)) = Ok r).
Proof.
  split; [eexists; vm_compute; reflexivity|]. split; [reflexivity|]. split; [eexists; vm_compute; reflexivity|].
  split; [reflexivity|]. eexists; vm_compute; reflexivity.
Qed.
