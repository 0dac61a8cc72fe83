(** How many rounds the loops of a call make: C92. *)
From Verif Require Import Cost Spec SpecEdit SpecFile SpecCost CostFacts Samples.
From Coq Require Import Lia.

(** The counting functions compute what the others compute. *)
Theorem C92_same :
  (forall p n, erase (ID3v2_read_tag_from_buffer_t p n) = ID3v2_read_tag_from_buffer p n)
  /\ (forall f, erase (ID3v2_read_tag_t f) = ID3v2_read_tag f)
  /\ (forall t id, erase (ID3v2_Tag_get_frame_t t id) = ID3v2_Tag_get_frame t id)
  /\ (forall t id, erase (ID3v2_Tag_get_frames_t t id) = ID3v2_Tag_get_frames t id)
  /\ (forall t c, erase (run_call_t t c) = run_call t c)
  /\ (forall f t, erase (ID3v2_write_tag_t f t) = ID3v2_write_tag f t)
  /\ (forall f, erase (ID3v2_delete_tag_t f) = ID3v2_delete_tag f)
  /\ (forall p, erase (ID3v2_to_unicode_t p) = ID3v2_to_unicode p).
Proof.
  exact (conj erase_read (conj erase_read_file (conj erase_tag_get (conj erase_tag_gets
        (conj erase_call (conj erase_write (conj erase_delete_tag erase_unicode))))))).
Qed.
Print Assumptions C92_same.

(** Reading: a round per frame, and for every frame a walk over those before. *)
Theorem C92_read : forall p n t fs,
  n < 2 ^ 31 -> ID3v2_read_tag_from_buffer p n = Ok (Some t) -> tag_has t fs ->
  exists stop, ID3v2_read_tag_from_buffer_t p n = Ok (Some t, zlen fs + hops (zlen fs) + stop)
    /\ 0 <= stop <= 1 /\ 8 * zlen fs <= n.
Proof. exact read_timed. Qed.
Print Assumptions C92_read.

(** Never more than quadratic in the length of the buffer, *)
Theorem C92_bound : forall p n r k,
  n < 2 ^ 31 -> ID3v2_read_tag_from_buffer_t p n = Ok (r, k) -> 128 * k <= n * n + 16 * n + 128.
Proof. exact read_quadratic. Qed.
Print Assumptions C92_bound.

(** and that much (up to a factor) for buffers of small frames. *)
Theorem C92_worst : forall (m : nat) p, 12 * Z.of_nat m < 2 ^ 28 ->
  let fs := repeat (FText (lit "TIT2") [x00; x00] (Iso [])) m in
  let bytes := header_image x03 x00 x00 (12 * Z.of_nat m) ++ images be32 fs in
  points_to p bytes ->
  zlen bytes = 10 + 12 * Z.of_nat m
  /\ exists t stop, 0 <= stop <= 1
     /\ ID3v2_read_tag_from_buffer_t p (zlen bytes) = Ok (Some t, Z.of_nat m + hops (Z.of_nat m) + stop).
Proof. exact read_worst. Qed.
Print Assumptions C92_worst.

(** Ten frames: 36 steps between nodes. *)
Example C92_applies_read :
  let fs := repeat (FText (lit "TIT2") [x00; x00] (Iso [])) 10 in
  let bytes := header_image x03 x00 x00 120 ++ images be32 fs in
  hops 10 = 36
  /\ exists t, ID3v2_read_tag_from_buffer_t (Some (cells bytes)) 130 = Ok (Some t, 46)
     /\ ID3v2_read_tag_from_buffer (Some (cells bytes)) 130 = Ok (Some t) /\ tag_has t (map frame_of fs).
Proof.
  split; [reflexivity|]. eexists. split; [vm_compute; reflexivity|]. split; [vm_compute; reflexivity|].
  exists (combine (seq 0 10) (map frame_of (repeat (FText (lit "TIT2") [x00; x00] (Iso [])) 10))).
  split; [vm_compute; reflexivity|]. split; [vm_compute; reflexivity|]. split.
  - change (NoDup (seq 0 10)). apply seq_NoDup.
  - change (Forall (fun a => (a < 10)%nat) (seq 0 10)). apply Forall_forall. intros a I. apply in_seq in I. lia.
Qed.

(** Looking frames up. *)
Theorem C92_get : forall t fs arg id,
  tag_has t fs -> Forall sane fs -> points_to arg id -> length id = 4%nat ->
  (exists r, ID3v2_Tag_get_frame_t (Some t) arg = Ok (r, search id fs))
  /\ (exists l, ID3v2_Tag_get_frames_t (Some t) arg = Ok (l, zlen fs + hops (zlen (filter (named id) fs)))).
Proof. exact lookup_timed. Qed.
Print Assumptions C92_get.

(** Every call that changes a tag. *)
Theorem C92_edit : forall t fs c e t',
  tag_has t fs -> Forall sane fs -> means c e -> edit_ok e = true ->
  run_call t c = Ok t' -> run_call_t t c = Ok (t', edit_rounds e fs).
Proof. exact edit_timed. Qed.
Print Assumptions C92_edit.

(** The samples: title, comment, private, comment, cover. *)
Example C92_applies_edit :
  let t := tag_with samples 500 in
  let fs := map frame_of samples in
  tag_has t fs /\ Forall sane fs
  /\ search (lit "COMM") fs = 2
  /\ (exists t', run_call t (DeleteCommentFrame 1) = Ok t')
  /\ edit_rounds (RemoveNth (lit "COMM") 1) fs = 12
  /\ edit_rounds (RemoveNth (lit "COMM") 7) fs = 7
  /\ edit_rounds (Remove (lit "PRIV")) fs = 3
  /\ edit_rounds (Put artist) fs = 9
  /\ edit_rounds (Append comment1) fs = 4.
Proof.
  split; [apply tag_with_has|]. split; [repeat (apply Forall_cons; [split; [eexists; split; reflexivity|vm_compute; split; congruence]|]); apply Forall_nil|].
  split; [vm_compute; reflexivity|]. split; [eexists; vm_compute; reflexivity|].
  do 4 (split; [vm_compute; reflexivity|]). vm_compute. reflexivity.
Qed.

(** Writing: a round per frame, then what follows the old tag is copied out, and
    the whole new file back. *)
Theorem C92_write : forall content t fs w t',
  announces_extended content = false -> tag_has t fs ->
  ID3v2_write_tag (Some content) (Some t) = Ok (Some w, t') ->
  ID3v2_write_tag_t (Some content) (Some t) = Ok ((Some w, t'), zlen fs + zlen (audio content) + zlen w).
Proof. exact write_timed. Qed.
Print Assumptions C92_write.

Theorem C92_delete : forall content, announces_extended content = false ->
  ID3v2_delete_tag_t (Some content)
  = Ok (Some (audio content), match tag_length content with Some _ => 2 * zlen (audio content) | None => 0 end).
Proof. exact delete_file_timed. Qed.
Print Assumptions C92_delete.

Example C92_applies_write :
  let old := tag_bytes x04 x00 x00 30 [artist] ++ [xff; xfb; x90] in
  announces_extended old = false /\ tag_length old = Some 40 /\ zlen (audio old) = 3
  /\ tag_has (tag_with samples 500) (map frame_of samples)
  /\ exists w t', ID3v2_write_tag_t (Some old) (Some (tag_with samples 500)) = Ok ((Some w, t'), 5 + 3 + 513)
     /\ zlen w = 513.
Proof.
  do 3 (split; [vm_compute; reflexivity|]). split; [apply tag_with_has|]. do 2 eexists. split; vm_compute; reflexivity.
Qed.

(** ID3v2_to_unicode is quadratic in the length of its argument. *)
Theorem C92_unicode : forall chars p,
  text_ok (Iso chars) = true -> 2 * zlen chars + 4 < 2 ^ 31 -> points_to p (text_image (Iso chars)) ->
  exists r, ID3v2_to_unicode_t p = Ok (r, zlen chars * zlen chars + 4 * zlen chars + 2).
Proof. exact unicode_count. Qed.
Print Assumptions C92_unicode.

Example C92_applies_unicode :
  text_ok (Iso (lit "Someone")) = true
  /\ exists r, ID3v2_to_unicode_t (Some (cells (text_image (Iso (lit "Someone"))))) = Ok (r, 79).
Proof. split; [reflexivity|]. eexists. vm_compute. reflexivity. Qed.
