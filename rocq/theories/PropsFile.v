(** Properties of tags in files: C31 to C37, C44. *)
From Verif Require Import File Calls Spec SpecEdit SpecFile FileFacts Samples.

(** ** C31 *)

(** Files whose tag announces an extended header are excluded: see
    C06_extended_file. *)
Theorem C31_write : forall content t fs maj mi fl n ext,
  announces_extended content = false ->
  tag_has t (map frame_of fs) -> Forall (fun f => frame_ok f = true) fs ->
  t_header t = mkTH (lit "ID3") maj mi fl n ext ->
  frames_size fs <= n -> n < 2 ^ 28 -> 2048 - 2 ^ 31 < t_padding t < 2 ^ 31 ->
  ID3v2_write_tag (Some content) (Some t)
  = Ok (Some (tag_bytes maj mi fl n fs ++ audio content), Some (padded t)).
Proof. exact write_file. Qed.
Print Assumptions C31_write.

(** Any tag that can be serialised to initialised bytes. *)
Theorem C31_any_tag : forall content t cs bytes,
  announces_extended content = false -> 2048 - 2 ^ 31 < t_padding t < 2 ^ 31 ->
  Tag_to_char_stream t = Ok cs -> cs_stream cs = cells bytes -> cs_size cs = zlen bytes ->
  ID3v2_write_tag (Some content) (Some t) = Ok (Some (bytes ++ audio content), Some (padded t)).
Proof. exact write_gen. Qed.
Print Assumptions C31_any_tag.

Example C31_applies :
  let old := tag_bytes x04 x00 x00 30 [artist] in
  announces_extended (old ++ [xff; xfb; x90]) = false /\ audio (old ++ [xff; xfb; x90]) = [xff; xfb; x90]
  /\ tag_has (tag_with samples 500) (map frame_of samples) /\ Forall (fun f => frame_ok f = true) samples
  /\ frames_size samples <= 500
  /\ exists t, ID3v2_write_tag (Some (old ++ [xff; xfb; x90])) (Some (tag_with samples 500))
     = Ok (Some (tag_bytes x03 x00 x00 500 samples ++ [xff; xfb; x90]), t).
Proof.
  split; [vm_compute; reflexivity|]. split; [vm_compute; reflexivity|]. split; [apply tag_with_has|].
  split; [repeat constructor|]. split; [vm_compute; congruence|]. eexists. vm_compute. reflexivity.
Qed.

(** ** C32 *)

(** v2.3 tags with any readable frames, v2.4 tags with those that survive (C30). *)
Theorem C32_write_read : forall content t fs maj mi fl n,
  announces_extended content = false ->
  known_version maj = true -> has_extended_header fl = false ->
  tag_has t (map frame_of fs) -> Forall (fun f => survives maj f = true) fs ->
  t_header t = mkTH (lit "ID3") maj mi fl n 0 -> frames_size fs <= n -> n < 2 ^ 28 ->
  0 <= t_padding t < 2 ^ 31 ->
  exists written t1 t2,
    ID3v2_write_tag (Some content) (Some t) = Ok (Some written, Some t1)
    /\ ID3v2_read_tag (Some written) = Ok (Some t2)
    /\ t_header t2 = t_header t /\ tag_has t2 (map frame_of fs) /\ t_padding t2 = n - frames_size fs
    /\ (exists t3, ID3v2_write_tag (Some written) (Some t1) = Ok (Some written, Some t3))
    /\ (exists t3, ID3v2_write_tag (Some written) (Some t2) = Ok (Some written, Some t3)).
Proof. exact write_then_read. Qed.
Print Assumptions C32_write_read.

Example C32_applies :
  announces_extended [] = false /\ known_version x03 = true /\ has_extended_header x00 = false
  /\ Forall (fun f => survives x03 f = true) samples /\ Forall (fun f => survives x04 f = true) samples
  /\ t_header (tag_with samples 106) = mkTH (lit "ID3") x03 x00 x00 106 0
  /\ frames_size samples <= 106 /\ 0 <= t_padding (tag_with samples 106) < 2 ^ 31.
Proof.
  split; [reflexivity|]. split; [reflexivity|]. split; [reflexivity|]. split; [repeat constructor|]. split; [repeat constructor|].
  split; [reflexivity|]. split; [vm_compute; congruence|]. vm_compute. split; congruence.
Qed.

(** ** C33 *)

Theorem C33_delete : forall content,
  announces_extended content = false -> ID3v2_delete_tag (Some content) = Ok (Some (audio content)).
Proof. exact delete_file. Qed.
Print Assumptions C33_delete.

Theorem C33_unchanged :
  ID3v2_delete_tag_states None = Ok [None]
  /\ forall content, announces_extended content = false -> tag_length content = None ->
     ID3v2_delete_tag_states (Some content) = Ok [Some content].
Proof. exact delete_unchanged. Qed.
Print Assumptions C33_unchanged.

Theorem C33_write_delete : forall content t fs maj mi fl n ext,
  announces_extended content = false ->
  known_version maj = true -> has_extended_header fl = false ->
  tag_has t (map frame_of fs) -> Forall (fun f => frame_ok f = true) fs ->
  t_header t = mkTH (lit "ID3") maj mi fl n ext ->
  frames_size fs <= n -> n < 2 ^ 28 -> 0 <= t_padding t < 2 ^ 31 ->
  exists written t', ID3v2_write_tag (Some content) (Some t) = Ok (Some written, t')
    /\ ID3v2_delete_tag (Some written) = Ok (Some (audio content)).
Proof. exact write_then_delete. Qed.
Print Assumptions C33_write_delete.

Theorem C33_read_after : forall content,
  announces_extended content = false -> tag_length (audio content) = None ->
  exists left, ID3v2_delete_tag (Some content) = Ok left /\ ID3v2_read_tag left = Ok None.
Proof. exact delete_then_read. Qed.
Print Assumptions C33_read_after.

Example C33_applies :
  let content := tag_bytes x04 x00 x00 30 [artist] ++ [xff; xfb; x90] in
  announces_extended content = false /\ tag_length (audio content) = None
  /\ tag_length [xff; xfb; x90] = None /\ tag_length content = Some 40.
Proof. repeat split. Qed.

(** ** C34 *)

Theorem C34_prefix : forall content n rest,
  tag_length content = Some n -> n <= zlen content ->
  ID3v2_read_tag (Some (firstn (Z.to_nat n) content ++ rest)) = ID3v2_read_tag (Some content).
Proof. exact read_prefix. Qed.
Print Assumptions C34_prefix.

Example C34_applies :
  let content := tag_bytes x04 x00 x00 30 [artist] ++ [xff; xfb; x90] in
  tag_length content = Some 40 /\ zlen content = 43.
Proof. split; reflexivity. Qed.

(** ** C35 *)

(** The states a write goes through: the old contents, then every prefix of
    the new ones, beginning with the empty file. *)
Theorem C35_write : forall content t cs bytes,
  announces_extended content = false -> 2048 - 2 ^ 31 < t_padding t < 2 ^ 31 ->
  Tag_to_char_stream t = Ok cs -> cs_stream cs = cells bytes -> cs_size cs = zlen bytes ->
  exists states t' final,
    ID3v2_write_tag_states (Some content) (Some t) = Ok (states, t')
    /\ ID3v2_write_tag (Some content) (Some t) = Ok (Some final, t')
    /\ states = rewritten content final
    /\ (forall s, In s states <-> s = Some content \/ exists k, s = Some (firstn k final))
    /\ In (Some []) states.
Proof. exact write_crash. Qed.
Print Assumptions C35_write.

Theorem C35_delete : forall content,
  announces_extended content = false -> tag_length content <> None ->
  exists states final,
    ID3v2_delete_tag_states (Some content) = Ok states
    /\ ID3v2_delete_tag (Some content) = Ok (Some final)
    /\ states = rewritten content final
    /\ (forall s, In s states <-> s = Some content \/ exists k, s = Some (firstn k final))
    /\ In (Some []) states.
Proof. exact delete_crash. Qed.
Print Assumptions C35_delete.

Example C35_applies :
  let content := tag_bytes x03 x00 x00 30 [artist] ++ [xff; xfb; x90] in
  announces_extended content = false /\ tag_length content <> None
  /\ ID3v2_delete_tag_states (Some content)
     = Ok [Some content; Some []; Some [xff]; Some [xff; xfb]; Some [xff; xfb; x90]].
Proof. split; [reflexivity|]. split; [discriminate|]. vm_compute. reflexivity. Qed.

(** ** C36 *)

Theorem C36_file : forall f t p q,
  2048 - 2 ^ 31 < p < 2 ^ 31 -> 2048 - 2 ^ 31 < q < 2 ^ 31 ->
  (let* (s, _) := ID3v2_write_tag_states f (Some (with_padding t p)) in Ok s)
  = (let* (s, _) := ID3v2_write_tag_states f (Some (with_padding t q)) in Ok s).
Proof. exact write_padding_free. Qed.
Print Assumptions C36_file.

Theorem C36_padding : forall f t s t',
  2048 - 2 ^ 31 < t_padding t < 2 ^ 31 ->
  ID3v2_write_tag_states f (Some t) = Ok (s, t') -> t' = Some (padded t).
Proof. exact write_padding_after. Qed.
Print Assumptions C36_padding.

(** Below that, computing the padding overflows. *)
Theorem C36_overflow : forall content t,
  announces_extended content = false -> - 2 ^ 31 <= t_padding t <= 2048 - 2 ^ 31 ->
  ID3v2_write_tag (Some content) (Some t) = Ub IntOverflow.
Proof. exact write_padding_overflow. Qed.
Print Assumptions C36_overflow.

Theorem C36_new : forall h p q, ID3v2_Tag_new h p = ID3v2_Tag_new h q.
Proof. exact tag_new_padding. Qed.
Print Assumptions C36_new.

Example C36_applies :
  exists s, ID3v2_write_tag_states (Some [xff]) (Some (tag_with samples 106)) = Ok (s, Some (with_padding (tag_with samples 106) 2048)).
Proof. eexists. vm_compute. reflexivity. Qed.

(** ** C37 *)

Theorem C37_null_tag : forall f, ID3v2_write_tag_states f None = Ok ([f], None).
Proof. exact write_null. Qed.
Print Assumptions C37_null_tag.

Theorem C37_missing_file : forall t,
  (forall r, ID3v2_write_tag None (Some t) <> Ok r)
  /\ forall cs bytes, 2048 - 2 ^ 31 < t_padding t < 2 ^ 31 ->
     Tag_to_char_stream t = Ok cs -> cs_stream cs = cells bytes -> cs_size cs = zlen bytes ->
     ID3v2_write_tag None (Some t) = Ub NullDeref.
Proof. exact write_no_file. Qed.
Print Assumptions C37_missing_file.

Example C37_applies : ID3v2_write_tag None (Some (tag_with samples 106)) = Ub NullDeref.
Proof. vm_compute. reflexivity. Qed.

(** ** C44 *)

(** The file ends where the next frame header should be, or inside it. *)
Theorem C44_cut_frames : forall maj mi fl fs n tail,
  known_version maj = true -> has_extended_header fl = false ->
  Forall (fun f => frame_ok f = true /\ readable f = true) fs ->
  frames_size fs + 10 < n -> n < 2 ^ 28 ->
  zlen tail < 8 -> starts_padding tail = false ->
  ID3v2_read_tag (Some (header_image maj mi fl n ++ images (size_field_of maj) fs ++ tail)) = Ub UninitRead.
Proof. exact read_cut. Qed.
Print Assumptions C44_cut_frames.

(** The file ends in the padding, after at least four bytes of it. *)
Theorem C44_cut_padding : forall maj mi fl fs n k,
  known_version maj = true -> has_extended_header fl = false ->
  Forall (fun f => frame_ok f = true /\ readable f = true) fs ->
  frames_size fs + k <= n -> n < 2 ^ 28 -> 4 <= k ->
  exists t, ID3v2_read_tag (Some (header_image maj mi fl n ++ images (size_field_of maj) fs ++ zeros k)) = Ok (Some t)
    /\ t_header t = mkTH (lit "ID3") maj mi fl n 0 /\ tag_has t (map frame_of fs)
    /\ t_padding t = n - frames_size fs.
Proof. exact read_cut_padding. Qed.
Print Assumptions C44_cut_padding.

Example C44_applies :
  Forall (fun f => frame_ok f = true /\ readable f = true) samples /\ frames_size samples + 10 < 500
  /\ starts_padding [x00; x00; x00] = false /\ starts_padding (lit "TIT2" ++ [x00; x00]) = false
  /\ ID3v2_read_tag (Some (header_image x03 x00 x00 500 ++ images be32 samples ++ lit "TIT2")) = Ub UninitRead.
Proof.
  split; [repeat constructor|]. split; [vm_compute; reflexivity|]. split; [reflexivity|]. split; [reflexivity|].
  vm_compute. reflexivity.
Qed.
