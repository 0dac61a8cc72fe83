(** Properties of reading whole tags: C12, C13. *)
From Verif Require Import File Calls Spec SpecEdit TagFacts Samples.

(** ** C12 *)

Theorem C12_parse : forall major minor flags fs pad trailing p,
  known_version major = true -> has_extended_header flags = false ->
  Forall (fun f => frame_ok f = true /\ readable f = true) fs ->
  0 <= pad -> frames_size fs + pad < 2 ^ 28 ->
  let size := frames_size fs + pad in
  let bytes := header_image major minor flags size ++ images (size_field_of major) fs
               ++ zeros pad ++ trailing in
  zlen bytes < 2 ^ 31 -> points_to p bytes ->
  exists tag, ID3v2_read_tag_from_buffer p (zlen bytes) = Ok (Some tag)
    /\ t_header tag = mkTH (lit "ID3") major minor flags size 0
    /\ tag_has tag (map frame_of fs)
    /\ t_padding tag = pad + zlen trailing.
Proof. exact read_tag_ok. Qed.
Print Assumptions C12_parse.

Example C12_applies :
  known_version x04 = true /\ has_extended_header x00 = false
  /\ Forall (fun f => frame_ok f = true /\ readable f = true) samples
  /\ frames_size samples + 100 < 2 ^ 28
  /\ zlen (header_image x04 x00 x00 (frames_size samples + 100) ++ images (size_field_of x04) samples
           ++ zeros 100 ++ lit "audio") < 2 ^ 31.
Proof. repeat split; try reflexivity. repeat constructor. Qed.

(** ** C13 *)

(** The model's loop has a fuel argument; that it never runs out, on any
    memory and any length (also one that is not that of the buffer), means
    that the loop of the code ends. *)
Theorem C13_terminates : forall p n, n < 2 ^ 31 ->
  (exists r, ID3v2_read_tag_from_buffer p n = Ok r) \/ (exists u, ID3v2_read_tag_from_buffer p n = Ub u).
Proof. exact read_tag_ends. Qed.
Print Assumptions C13_terminates.

(** Each frame that is accepted moves the read position forward by at least
    the eight bytes of its id and size. *)
Theorem C13_progress : forall pre rest ver f cs,
  fits pre rest -> Frame_parse (at_pos pre rest) ver = Ok (Some f, cs) ->
  exists taken rest', rest = taken ++ rest' /\ 8 <= zlen taken /\ cs = at_pos (pre ++ taken) rest'.
Proof. exact frame_progress. Qed.
Print Assumptions C13_progress.

Example C13_applies :
  let bytes := header_image x03 x00 x00 100 ++ images be32 [artist] ++ lit "PRIV" ++ be32 1000 in
  exists u, ID3v2_read_tag_from_buffer (Some (cells bytes)) (zlen bytes) = Ub u.
Proof. eexists. vm_compute. reflexivity. Qed.
