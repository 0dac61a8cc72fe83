(** Properties of writing tags to a stream: C27, C28. *)
From Verif Require Import File Calls Spec SpecEdit ClaimFacts Samples.

(** ** C27 *)

Theorem C27_fits : forall t fs maj mi fl n ext,
  tag_has t (map frame_of fs) -> Forall (fun f => frame_ok f = true) fs ->
  t_header t = mkTH (lit "ID3") maj mi fl n ext ->
  0 <= n -> n + 10 < 2 ^ 31 -> frames_size fs <= n ->
  exists cs, Tag_to_char_stream t = Ok cs /\ cs_size cs = n + 10
    /\ exists size_bytes, length size_bytes = 4%nat /\ (n < 2 ^ 28 -> size_bytes = synchsafe32 n)
    /\ cs_stream cs = cells (lit "ID3" ++ [maj; mi; fl] ++ size_bytes ++ images be32 fs ++ zeros (n - frames_size fs)).
Proof. exact write_fits. Qed.
Print Assumptions C27_fits.

Theorem C27_overflows : forall t fs maj mi fl n ext,
  tag_has t (map frame_of fs) -> Forall (fun f => frame_ok f = true) fs ->
  t_header t = mkTH (lit "ID3") maj mi fl n ext ->
  0 <= n -> n + 10 < 2 ^ 31 -> n < frames_size fs ->
  Tag_to_char_stream t = Ub OobWrite.
Proof. exact tag_write_over. Qed.
Print Assumptions C27_overflows.

(** For recorded sizes whose buffer size is not an int there is undefined
    behaviour as well. *)
Theorem C27_iff : forall t fs maj mi fl n ext,
  tag_has t (map frame_of fs) -> Forall (fun f => frame_ok f = true) fs ->
  t_header t = mkTH (lit "ID3") maj mi fl n ext ->
  0 <= n < 2 ^ 32 ->
  if (frames_size fs <=? n) && (n + 10 <? 2 ^ 31)
  then exists cs, Tag_to_char_stream t = Ok cs
  else exists u, Tag_to_char_stream t = Ub u.
Proof. exact tag_write_iff. Qed.
Print Assumptions C27_iff.

Example C27_applies :
  tag_has (tag_with samples 106) (map frame_of samples) /\ Forall (fun f => frame_ok f = true) samples
  /\ frames_size samples = 106
  /\ (exists cs, Tag_to_char_stream (tag_with samples 106) = Ok cs)
  /\ Tag_to_char_stream (tag_with samples 105) = Ub OobWrite.
Proof.
  split; [apply tag_with_has|]. split; [repeat constructor|]. split; [reflexivity|].
  split; [eexists; vm_compute; reflexivity|vm_compute; reflexivity].
Qed.

(** ** C28 *)

(** Sets and adds only: the buffer is ten bytes too short for each frame. *)
Theorem C28_short : forall cs es,
  Forall2 means cs es -> es <> [] -> forallb is_set es = true -> forallb edit_ok es = true ->
  let fs := apply_edits es [] in
  bytes_needed fs < 2 ^ 31 ->
  exists t, run_calls ID3v2_Tag_new_empty cs = Ok t /\ tag_has t fs
    /\ th_tag_size (t_header t) = bytes_needed fs - 10 * zlen fs
    /\ Tag_to_char_stream t = Ub OobWrite.
Proof. exact scratch_short. Qed.
Print Assumptions C28_short.

(** Also with deletes (other than the indexed ones) in between. *)
Theorem C28_history : forall cs es,
  Forall2 means cs es -> es <> [] -> all_allowed es [] = true ->
  forallb (fun e => match e with RemoveNth _ _ => false | _ => true end) es = true ->
  10 * zlen es < 2 ^ 31 -> bytes_needed (apply_edits es []) < 2 ^ 32 ->
  exists t, run_calls ID3v2_Tag_new_empty cs = Ok t
    /\ tag_has t (apply_edits es []) /\ exists u, Tag_to_char_stream t = Ub u.
Proof. exact scratch_history. Qed.
Print Assumptions C28_history.

Theorem C28_empty :
  exists cs, Tag_to_char_stream ID3v2_Tag_new_empty = Ok cs /\ cs_size cs = 10
    /\ cs_stream cs = cells (header_image x03 x00 x00 0).
Proof. exact scratch_empty. Qed.
Print Assumptions C28_empty.

Example C28_applies :
  let cs := [SetArtist (Some (cells (text_image (Iso (lit "Someone"))))); nth 1 calls DeleteTitle;
             SetArtist (Some (cells (text_image (Iso (lit "Someone")))))] in
  let es := [Put artist; Append comment1; Put artist] in
  Forall2 means cs es /\ forallb is_set es = true /\ forallb edit_ok es = true
  /\ zlen (apply_edits es []) = 2
  /\ exists t, run_calls ID3v2_Tag_new_empty cs = Ok t /\ Tag_to_char_stream t = Ub OobWrite.
Proof.
  pose proof calls_mean as H. inversion H as [|? ? ? ? M1 H1]; subst. inversion H1 as [|? ? ? ? M2 H2]; subst.
  split; [exact (Forall2_cons _ _ M1 (Forall2_cons _ _ M2 (Forall2_cons _ _ M1 (Forall2_nil _))))|].
  split; [vm_compute; reflexivity|]. split; [vm_compute; reflexivity|]. split; [vm_compute; reflexivity|].
  eexists. split. vm_compute. reflexivity. vm_compute. reflexivity.
Qed.
