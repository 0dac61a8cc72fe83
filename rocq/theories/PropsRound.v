(** Properties of writing a tag and reading it back: C29, C30. *)
From Verif Require Import File Calls Spec SpecEdit RoundFacts Samples.

(** ** C29 *)

Theorem C29_round_trip : forall t fs mi fl n,
  has_extended_header fl = false ->
  tag_has t (map frame_of fs) -> Forall (fun f => frame_ok f = true /\ readable f = true) fs ->
  t_header t = mkTH (lit "ID3") x03 mi fl n 0 -> frames_size fs <= n -> n < 2 ^ 28 ->
  exists cs t', Tag_to_char_stream t = Ok cs
    /\ ID3v2_read_tag_from_buffer (Some (cs_stream cs)) (cs_size cs) = Ok (Some t')
    /\ t_header t' = t_header t /\ tag_has t' (map frame_of fs) /\ t_padding t' = n - frames_size fs.
Proof. exact round_trip_v3. Qed.
Print Assumptions C29_round_trip.

Example C29_applies :
  let t := tag_with samples 500 in
  has_extended_header x00 = false /\ tag_has t (map frame_of samples)
  /\ Forall (fun f => frame_ok f = true /\ readable f = true) samples
  /\ t_header t = mkTH (lit "ID3") x03 x00 x00 500 0 /\ frames_size samples <= 500.
Proof.
  split; [reflexivity|]. split; [apply tag_with_has|]. split; [repeat constructor|]. split; [reflexivity|discriminate].
Qed.

(** ** C30 *)

(** The frame header is written with [be32] in every version, and read by the
    rule of v2.4 when the tag says so. *)
Theorem C30_size : forall n, 0 <= n < 2 ^ 31 -> (declared_size 4 (be32 n) = n <-> n < 256).
Proof. exact declared_be32_v4. Qed.
Print Assumptions C30_size.

(** Small frames, and comments of any size (C42), are read back. *)
Theorem C30_round_trip : forall t fs mi fl n,
  has_extended_header fl = false ->
  tag_has t (map frame_of fs) ->
  Forall (fun f => frame_ok f = true /\ readable f = true /\ (body_size f < 256 \/ is_comment f = true)) fs ->
  t_header t = mkTH (lit "ID3") x04 mi fl n 0 -> frames_size fs <= n -> n < 2 ^ 28 ->
  exists cs t', Tag_to_char_stream t = Ok cs
    /\ ID3v2_read_tag_from_buffer (Some (cs_stream cs)) (cs_size cs) = Ok (Some t')
    /\ t_header t' = t_header t /\ tag_has t' (map frame_of fs) /\ t_padding t' = n - frames_size fs.
Proof. exact round_trip_v4. Qed.
Print Assumptions C30_round_trip.

(** Any other frame is not, and with it the tag. *)
Theorem C30_large_frame : forall f pre rest cs,
  frame_ok f = true -> 256 <= body_size f -> is_comment f = false ->
  fits pre (cells (frame_image be32 f) ++ rest) ->
  Frame_parse (at_pos pre (cells (frame_image be32 f) ++ rest)) 4 <> Ok (Some (frame_of f), cs).
Proof. exact large_not_read_back. Qed.
Print Assumptions C30_large_frame.

Theorem C30_large_tag : forall t fs1 f fs2 mi fl n,
  let fs := fs1 ++ f :: fs2 in
  has_extended_header fl = false -> tag_has t (map frame_of fs) ->
  Forall (fun f => frame_ok f = true) fs ->
  Forall (fun f => readable f = true /\ (body_size f < 256 \/ is_comment f = true)) fs1 ->
  256 <= body_size f -> is_comment f = false ->
  t_header t = mkTH (lit "ID3") x04 mi fl n 0 -> frames_size fs <= n -> n < 2 ^ 28 ->
  exists cs, Tag_to_char_stream t = Ok cs
    /\ forall t', ID3v2_read_tag_from_buffer (Some (cs_stream cs)) (cs_size cs) = Ok (Some t') ->
       ~ tag_has t' (map frame_of fs).
Proof. exact round_trip_v4_fails. Qed.
Print Assumptions C30_large_tag.

(** What happens instead: a text frame is read past its end ... *)
Theorem C30_text : forall id fl t pre rest,
  frame_ok (FText id fl t) = true -> 256 <= body_size (FText id fl t) ->
  fits pre (cells (frame_image be32 (FText id fl t)) ++ rest) ->
  Frame_parse (at_pos pre (cells (frame_image be32 (FText id fl t)) ++ rest)) 4 = Ub OobRead.
Proof. exact text_v4_large. Qed.
Print Assumptions C30_text.

(** ... a frame without known structure is cut short, and reading goes on in
    the middle of its body ... *)
Theorem C30_other : forall id fl body pre rest,
  let f := FOther id fl body in
  frame_ok f = true -> 256 <= body_size f ->
  fits pre (cells (frame_image be32 f) ++ rest) ->
  let m := declared_size 4 (be32 (body_size f)) in
  let kept := firstn (Z.to_nat m) body in
  0 < m < body_size f
  /\ Frame_parse (at_pos pre (cells (frame_image be32 f) ++ rest)) 4
     = Ok (Some (frame_of (FOther id fl kept)),
           at_pos (pre ++ cells (id ++ be32 (body_size f) ++ fl ++ kept)) (cells (skipn (Z.to_nat m) body) ++ rest)).
Proof. exact other_v4_large. Qed.
Print Assumptions C30_other.

(** ... and a picture is cut short, or its size computed as negative. *)
Theorem C30_picture : forall fl mime ty d pic pre rest,
  let f := FPicture fl mime ty d pic in
  frame_ok f = true -> 256 <= body_size f ->
  fits pre (cells (frame_image be32 f) ++ rest) ->
  let m := declared_size 4 (be32 (body_size f)) in
  let fixed := 2 + zlen (text_image mime) + zlen (text_image d) in
  let kept := firstn (Z.to_nat (m - fixed)) pic in
  (m <= fixed -> Frame_parse (at_pos pre (cells (frame_image be32 f) ++ rest)) 4 = Ub BadSize)
  /\ (fixed < m -> zlen kept < zlen pic
      /\ exists cs, Frame_parse (at_pos pre (cells (frame_image be32 f) ++ rest)) 4
                    = Ok (Some (frame_of (FPicture fl mime ty d kept)), cs)).
Proof. exact picture_v4_large. Qed.
Print Assumptions C30_picture.

Example C30_applies :
  let body := repeat x07 300 in
  let f := FOther (lit "PRIV") [x00; x00] body in
  let p := FPicture [x00; x00] (Iso (lit "image/png")) x03 (Iso []) body in
  let t := FText (lit "TIT2") [x00; x00] (Iso body) in
  frame_ok f = true /\ frame_ok p = true /\ frame_ok t = true /\ 256 <= body_size f
  /\ declared_size 4 (be32 (body_size f)) = 172
  /\ 2 + zlen (text_image (Iso (lit "image/png"))) + zlen (text_image (Iso [])) = 13
  /\ Forall (fun f => readable f = true /\ (body_size f < 256 \/ is_comment f = true)) samples.
Proof.
  repeat (split; [vm_compute; congruence|]). repeat constructor.
Qed.
