(** Properties of tags with an extended header: C38. *)
From Verif Require Import File Calls Spec SpecEdit SpecFile ExtFacts Samples.

(** Frames are looked for at offset [e] of the buffer, [e] being the size of
    the extended header, whatever is there. *)
Theorem C38_start : forall maj mi fl s4 e4 rest p,
  known_version maj = true -> has_extended_header fl = true ->
  length s4 = 4%nat -> length e4 = 4%nat ->
  let buf := ext_buffer maj mi fl s4 e4 rest in
  let e := synchsafe_value e4 in
  points_to p buf -> zlen buf < 2 ^ 31 ->
  0 < e < synchsafe_value s4 -> e <= zlen buf ->
  let at_e := at_pos (cells (firstn (Z.to_nat e) buf)) (cells (skipn (Z.to_nat e) buf)) in
  match Frame_parse at_e (schar maj) with
  | Ok (Some f, _) => forall t, ID3v2_read_tag_from_buffer p (zlen buf) = Ok (Some t) ->
                      exists fs, frames_in (t_frames t) = f :: fs
  | Ok (None, _) => exists t, ID3v2_read_tag_from_buffer p (zlen buf) = Ok (Some t) /\ frames_in (t_frames t) = []
  | Ub u => ID3v2_read_tag_from_buffer p (zlen buf) = Ub u
  | _ => False
  end.
Proof. exact ext_start. Qed.
Print Assumptions C38_start.

(** The smallest extended header of v2.3 and v2.4: the first "frame" is made of
    the tag's size field and of the extended header. *)
Theorem C38_minimal : forall maj mi fl n f2 b6 rest p,
  known_version maj = true -> has_extended_header fl = true ->
  length f2 = 2%nat -> length b6 = 6%nat -> 6 < n < 65 * 2 ^ 21 ->
  let buf := ext_buffer maj mi fl (synchsafe32 n) [x00; x00; x00; x06] (f2 ++ b6 ++ rest) in
  points_to p buf -> zlen buf < 2 ^ 31 ->
  forall t, ID3v2_read_tag_from_buffer p (zlen buf) = Ok (Some t) ->
  exists fs, frames_in (t_frames t) = frame_of (FOther (synchsafe32 n) f2 b6) :: fs.
Proof. exact ext_minimal. Qed.
Print Assumptions C38_minimal.

(** A v2.3 extended header with a checksum: the flags are taken for the first
    byte of a frame size, which is negative. *)
Theorem C38_checksum : forall mi fl n g pad crc rest p,
  has_extended_header fl = true -> length pad = 4%nat -> length crc = 4%nat -> 10 < n < 2 ^ 28 ->
  let buf := ext_buffer x03 mi fl (synchsafe32 n) [x00; x00; x00; x0a] ([x80; g] ++ pad ++ crc ++ rest) in
  points_to p buf -> zlen buf < 2 ^ 31 ->
  ID3v2_read_tag_from_buffer p (zlen buf) = Ub BadSize.
Proof. exact ext_checksum. Qed.
Print Assumptions C38_checksum.

(** Only a size of zero works: the frames then follow the size field. *)
Theorem C38_zero : forall maj mi fl fs pad trailing p,
  known_version maj = true -> has_extended_header fl = true ->
  Forall (fun f => frame_ok f = true /\ readable f = true) fs ->
  0 <= pad -> 4 + frames_size fs + pad < 2 ^ 28 ->
  let n := 4 + frames_size fs + pad in
  let buf := ext_buffer maj mi fl (synchsafe32 n) [x00; x00; x00; x00]
               (images (size_field_of maj) fs ++ zeros pad ++ trailing) in
  points_to p buf -> zlen buf < 2 ^ 31 ->
  exists t, ID3v2_read_tag_from_buffer p (zlen buf) = Ok (Some t)
    /\ t_header t = mkTH (lit "ID3") maj mi fl n 0 /\ tag_has t (map frame_of fs)
    /\ t_padding t = pad + zlen trailing.
Proof. exact ext_zero. Qed.
Print Assumptions C38_zero.

(** A tag with the flag is written without extended header; when it is read
    back its frames are gone. *)
Theorem C38_written : forall t f fs maj mi fl n ext c id,
  known_version maj = true -> has_extended_header fl = true ->
  tag_has t (map frame_of (f :: fs)) -> Forall (fun f => frame_ok f = true) (f :: fs) ->
  t_header t = mkTH (lit "ID3") maj mi fl n ext ->
  frames_size (f :: fs) <= n -> n < 2 ^ 28 ->
  frame_id f = c :: id -> n <= bv c * 2 ^ 21 ->
  exists cs t', Tag_to_char_stream t = Ok cs
    /\ ID3v2_read_tag_from_buffer (Some (cs_stream cs)) (cs_size cs) = Ok (Some t')
    /\ tag_has t' [].
Proof. exact ext_written. Qed.
Print Assumptions C38_written.

Example C38_applies :
  let rest := images be32 samples ++ zeros 50 in
  let buf := ext_buffer x03 x00 x40 (synchsafe32 166) [x00; x00; x00; x06] ([x00; x00] ++ [x00; x00; x00; x32] ++ rest) in
  (exists t, ID3v2_read_tag_from_buffer (Some (cells buf)) (zlen buf) = Ok (Some t)
     /\ frames_in (t_frames t) <> map frame_of samples)
  /\ has_extended_header x40 = true /\ 6 < 166 < 65 * 2 ^ 21
  /\ 166 <= bv (hd x00 (frame_id title)) * 2 ^ 21.
Proof.
  split; [|split; [reflexivity|]; split; [split; reflexivity|]; vm_compute; congruence].
  eexists. split; [vm_compute; reflexivity|]. vm_compute. congruence.
Qed.
