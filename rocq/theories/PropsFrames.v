(** Properties of single frames: C08-C11, C14-C17, C42, C43. *)
From Verif Require Import File Spec KindFacts.

(** ** C08 *)

Theorem C08_text : forall id flags t pid pflags ptext pre rest ver,
  frame_ok (FText id flags t) = true ->
  points_to pid id -> points_to pflags flags -> points_to ptext (text_image t) ->
  ver <> 4 ->
  let f := frame_of (FText id flags t) in
  let image := id ++ be32 (1 + zlen (text_image t)) ++ flags ++ [text_encoding t] ++ text_image t in
  fits pre (cells image ++ rest) ->
  TextFrame_new pid pflags ptext = Ok f
  /\ Frame_to_char_stream (Some f) = Ok (Some (mkCS (zlen image) (zlen image) (cells image)))
  /\ Frame_parse (at_pos pre (cells image ++ rest)) ver = Ok (Some f, at_pos (pre ++ cells image) rest).
Proof. exact text_round_trip. Qed.
Print Assumptions C08_text.

Example C08_applies :
  let t := Utf16 false [(x41, x00); (x00, x01)] in
  frame_ok (FText (lit "TIT2") [x00; x00] t) = true
  /\ points_to ID3v2_TITLE_FRAME_ID (lit "TIT2")
  /\ frame_image be32 (FText (lit "TIT2") [x00; x00] t)
     = lit "TIT2" ++ [x00; x00; x00; x09; x00; x00; x01; xff; xfe; x41; x00; x00; x01; x00; x00].
Proof. split; [reflexivity|split; [exists [Some x00]; reflexivity|reflexivity]]. Qed.

(** ** C09 *)

Theorem C09_comment : forall flags lang d c pflags plang pd pc pre rest ver,
  frame_ok (FComment flags lang d c) = true ->
  points_to pflags flags -> points_to plang lang ->
  points_to pd (text_image d) -> points_to pc (text_image c) ->
  ver <> 4 ->
  let f := frame_of (FComment flags lang d c) in
  let image := lit "COMM" ++ be32 (4 + zlen (text_image d) + zlen (text_image c)) ++ flags
               ++ [text_encoding c] ++ lang ++ text_image d ++ text_image c in
  fits pre (cells image ++ rest) ->
  CommentFrame_new pflags plang pd pc = Ok f
  /\ Frame_to_char_stream (Some f) = Ok (Some (mkCS (zlen image) (zlen image) (cells image)))
  /\ Frame_parse (at_pos pre (cells image ++ rest)) ver = Ok (Some f, at_pos (pre ++ cells image) rest).
Proof. exact comment_round_trip. Qed.
Print Assumptions C09_comment.

Example C09_applies :
  frame_ok (FComment [x00; x00] (lit "eng") (Iso []) (Utf16 true [(x00, x41)])) = true
  /\ points_to (clit "eng") (lit "eng").
Proof. split; [reflexivity|exists [Some x00]; reflexivity]. Qed.

(** ** C10 *)

Theorem C10_picture : forall flags m ty d pic pflags pm pd pp pre rest ver,
  frame_ok (FPicture flags m ty d pic) = true -> pic <> [] ->
  points_to pflags flags -> points_to pm (text_image m) ->
  points_to pd (text_image d) -> points_to pp pic ->
  ver <> 4 ->
  let f := frame_of (FPicture flags m ty d pic) in
  let image := lit "APIC" ++ be32 (2 + zlen (text_image m) + zlen (text_image d) + zlen pic) ++ flags
               ++ [text_encoding d] ++ text_image m ++ [ty] ++ text_image d ++ pic in
  fits pre (cells image ++ rest) ->
  ApicFrame_new pflags pd ty pm (zlen pic) pp = Ok f
  /\ Frame_to_char_stream (Some f) = Ok (Some (mkCS (zlen image) (zlen image) (cells image)))
  /\ Frame_parse (at_pos pre (cells image ++ rest)) ver = Ok (Some f, at_pos (pre ++ cells image) rest).
Proof. exact picture_round_trip. Qed.
Print Assumptions C10_picture.

Example C10_applies :
  frame_ok (FPicture [x00; x00] (Iso (lit "image/png")) x03 (Utf16 false []) [x00; x00; xff]) = true
  /\ points_to (clit "image/png") (text_image (Iso (lit "image/png"))).
Proof. split; [reflexivity|exists []; reflexivity]. Qed.

(** ** C11 *)

Theorem C11_unknown : forall id flags body pre rest ver,
  frame_ok (FOther id flags body) = true -> ver <> 4 ->
  let image := id ++ be32 (zlen body) ++ flags ++ body in
  let f := mkFrame (mkFH (cells id) (zlen body) (cells flags)) (DRaw (cells body)) in
  fits pre (cells image ++ rest) ->
  Frame_parse (at_pos pre (cells image ++ rest)) ver = Ok (Some f, at_pos (pre ++ cells image) rest)
  /\ Frame_to_char_stream (Some f) = Ok (Some (mkCS (zlen image) (zlen image) (cells image))).
Proof. exact other_round_trip. Qed.
Print Assumptions C11_unknown.

Example C11_applies :
  frame_ok (FOther (lit "PRIV") [x40; x00] [x00; x01; x02]) = true
  /\ frame_ok (FOther (lit "PRIV") [x40; x00] []) = true.
Proof. split; reflexivity. Qed.

(** ** C14 *)

(** Whatever the frame and the bytes after it, well-formed or not, the outcome
    (frame and distance read, or the kind of undefined behaviour) is the same
    for every encoding byte. *)
Theorem C14_ignored : forall pre id size flags e1 e2 rest ver,
  length id = 4%nat -> zlen size = 4 -> zlen flags = 2 ->
  id_starts id "T" || id_starts id "C" || id_starts id "A" = true ->
  zlen pre + 11 + zlen rest < 2 ^ 31 ->
  seen (Frame_parse (at_pos pre (cells id ++ size ++ flags ++ e1 :: rest)) ver)
  = seen (Frame_parse (at_pos pre (cells id ++ size ++ flags ++ e2 :: rest)) ver).
Proof. exact encoding_ignored_bytes. Qed.
Print Assumptions C14_ignored.

(** What is reported and written back is 1 exactly for strings with a byte
    order mark ([text_encoding], inside [frame_of] and [frame_encoding]). *)
Theorem C14_relabelled : forall f enc pre rest,
  frame_ok f = true -> readable f = true ->
  let bytes e := frame_id f ++ be32 (body_size f) ++ frame_flags f ++ body_with e f in
  fits pre (cells (bytes enc) ++ rest) ->
  Frame_parse (at_pos pre (cells (bytes enc) ++ rest)) 3
    = Ok (Some (frame_of f), at_pos (pre ++ cells (bytes enc)) rest)
  /\ Frame_to_char_stream (Some (frame_of f))
    = Ok (Some (mkCS (body_size f + 10) (body_size f + 10) (cells (bytes (frame_encoding f))))).
Proof. exact frame_relabelled. Qed.
Print Assumptions C14_relabelled.

(** A UTF-8 title (encoding 3) comes back as ISO-8859-1 (encoding 0). *)
Example C14_applies :
  let f := FText (lit "TIT2") [x00; x00] (Iso [xc3; xa9]) in
  frame_ok f = true /\ readable f = true /\ frame_encoding f = x00
  /\ seen (Frame_parse (at_pos [] (cells (lit "TIT2" ++ [x00; x00; x00; x04; x00; x00; x03; xc3; xa9; x00]))) 3)
     = Ok (Some (frame_of f), 14).
Proof. repeat split. Qed.

(** ** C15 *)

Theorem C15_dropped : forall pre id size flags enc t junk rest ver,
  length id = 4%nat -> length size = 4%nat -> length flags = 2%nat ->
  id_starts id "T" = true -> text_ok t = true ->
  declared_size ver size = 1 + zlen (text_image t ++ junk) ->
  let read := id ++ size ++ flags ++ [enc] ++ text_image t ++ junk in
  let written := id ++ be32 (1 + zlen (text_image t)) ++ flags ++ [text_encoding t] ++ text_image t in
  fits pre (cells read ++ rest) ->
  Frame_parse (at_pos pre (cells read ++ rest)) ver
    = Ok (Some (frame_of (FText id flags t)), at_pos (pre ++ cells read) rest)
  /\ Frame_to_char_stream (Some (frame_of (FText id flags t)))
    = Ok (Some (mkCS (zlen written) (zlen written) (cells written)))
  /\ zlen written = zlen read - zlen junk.
Proof. exact text_junk_dropped. Qed.
Print Assumptions C15_dropped.

Example C15_applies :
  let id := lit "TXXX" in let size := [x00; x00; x00; x06] in
  length id = 4%nat /\ id_starts id "T" = true
  /\ declared_size 3 size = 1 + zlen (text_image (Iso (lit "k")) ++ lit "val").
Proof. repeat split. Qed.

(** ** C16 *)

(** A text frame that is completely there: accepted if its body starts with a
    terminated string, otherwise undefined; every body is one or the other. *)
Theorem C16_text : forall pre id size flags enc body rest ver,
  length id = 4%nat -> length size = 4%nat -> length flags = 2%nat ->
  id_starts id "T" = true -> body <> [] ->
  declared_size ver size = 1 + zlen body ->
  let bytes := cells (id ++ size ++ flags ++ [enc] ++ body) in
  fits pre (bytes ++ rest) ->
  (exists t junk, text_ok t = true /\ body = text_image t ++ junk
     /\ Frame_parse (at_pos pre (bytes ++ rest)) ver
        = Ok (Some (frame_of (FText id flags t)), at_pos (pre ++ bytes) rest))
  \/ (unterminated body /\ Frame_parse (at_pos pre (bytes ++ rest)) ver = Ub OobRead).
Proof. exact text_frame_total. Qed.
Print Assumptions C16_text.

(** Text frames of size 0 or 1 (or negative). *)
Theorem C16_text_too_small : forall pre id size flags rest ver,
  length id = 4%nat -> length size = 4%nat -> length flags = 2%nat ->
  id_starts id "T" = true -> declared_size ver size <= 1 ->
  fits pre (cells (id ++ size ++ flags) ++ rest) ->
  exists u, Frame_parse (at_pos pre (cells (id ++ size ++ flags) ++ rest)) ver = Ub u.
Proof. exact text_too_small. Qed.
Print Assumptions C16_text_too_small.

(** Pictures of size 0: the declared size covers no picture byte. *)
Theorem C16_picture_empty : forall pre id size flags enc m ty d rest ver,
  length id = 4%nat -> length size = 4%nat -> length flags = 2%nat ->
  id_starts id "A" = true -> text_ok m = true -> text_ok d = true ->
  let body := [enc] ++ text_image m ++ [ty] ++ text_image d in
  declared_size ver size <= zlen body ->
  - 2 ^ 31 + zlen body <= declared_size ver size ->
  fits pre (cells (id ++ size ++ flags ++ body) ++ rest) ->
  Frame_parse (at_pos pre (cells (id ++ size ++ flags ++ body) ++ rest)) ver = Ub BadSize.
Proof. exact picture_empty. Qed.
Print Assumptions C16_picture_empty.

(** Comments and pictures whose strings are not terminated before the end of
    the whole buffer. *)
Theorem C16_comment : forall pre id size flags enc lang tail ver,
  length id = 4%nat -> length size = 4%nat -> length flags = 2%nat -> length lang = 3%nat ->
  id_starts id "C" = true ->
  unterminated tail \/ (exists t r, text_ok t = true /\ tail = text_image t ++ r /\ unterminated r) ->
  fits pre (cells (id ++ size ++ flags ++ [enc] ++ lang ++ tail)) ->
  Frame_parse (at_pos pre (cells (id ++ size ++ flags ++ [enc] ++ lang ++ tail))) ver = Ub OobRead.
Proof. exact comment_unterminated. Qed.
Print Assumptions C16_comment.

Theorem C16_picture : forall pre id size flags enc tail ver,
  length id = 4%nat -> length size = 4%nat -> length flags = 2%nat ->
  id_starts id "A" = true ->
  unterminated tail \/ (exists t ty r, text_ok t = true /\ tail = text_image t ++ ty :: r /\ unterminated r) ->
  fits pre (cells (id ++ size ++ flags ++ [enc] ++ tail)) ->
  Frame_parse (at_pos pre (cells (id ++ size ++ flags ++ [enc] ++ tail))) ver = Ub OobRead.
Proof. exact picture_unterminated. Qed.
Print Assumptions C16_picture.

(** Frames cut off inside the frame header: within the first 8 bytes for every
    id that is not zero padding, within 10 bytes for the known kinds. *)
Theorem C16_truncated : forall pre l ver,
  fits pre (cells l) -> (length l < 8)%nat -> firstn 4 l <> [x00; x00; x00; x00] ->
  exists u, Frame_parse (at_pos pre (cells l)) ver = Ub u.
Proof. exact frame_truncated. Qed.
Print Assumptions C16_truncated.

Theorem C16_truncated_known : forall pre c r ver,
  fits pre (Some c :: r) -> zlen (Some c :: r) < 10 ->
  c = "T"%byte \/ c = "C"%byte \/ c = "A"%byte ->
  exists u, Frame_parse (at_pos pre (Some c :: r)) ver = Ub u.
Proof. exact known_truncated. Qed.
Print Assumptions C16_truncated_known.

Example C16_applies :
  unterminated (lit "Artist") /\ unterminated ([xff; xfe] ++ [x41; x00; x00])
  /\ declared_size 3 [x00; x00; x00; x07] = 1 + zlen (lit "Artist")
  /\ seen (Frame_parse (at_pos [] (cells (lit "TPE1" ++ [x00; x00; x00; x07; x00; x00; x00] ++ lit "Artist"))) 3)
     = Ub OobRead.
Proof.
  split; [left; split; reflexivity|]. split; [right; exists false, [(x41, x00)], [x00]; repeat split|].
  - cbn. auto.
  - repeat split.
Qed.

(** ** C17 *)

Theorem C17_kind : forall pre id rest ver f cs,
  fits pre (cells id ++ rest) -> length id = 4%nat ->
  Frame_parse (at_pos pre (cells id ++ rest)) ver = Ok (Some f, cs) ->
  (id_starts id "C" = true -> fh_id (f_hdr f) = cells (lit "COMM") /\ exists d, f_data f = DComment d)
  /\ (id_starts id "A" = true -> fh_id (f_hdr f) = cells (lit "APIC") /\ exists d, f_data f = DApic d)
  /\ (id_starts id "T" = true -> fh_id (f_hdr f) = cells id /\ exists d, f_data f = DText d)
  /\ (id_starts id "C" || id_starts id "A" || id_starts id "T" = false ->
      fh_id (f_hdr f) = cells id /\ exists m, f_data f = DRaw m).
Proof. exact frame_kind_spelled. Qed.
Print Assumptions C17_kind.

(** A CTOC frame is accepted and becomes a COMM frame. *)
Example C17_applies :
  exists f cs,
    Frame_parse (at_pos [] (cells (lit "CTOC" ++ [x00; x00; x00; x0b; x00; x00] ++ lit "toc1" ++ [x00; x03] ++ lit "ch1" ++ [x00]))) 3
    = Ok (Some f, cs) /\ fh_id (f_hdr f) = cells (lit "COMM").
Proof. eexists _, _. split; [vm_compute; reflexivity|vm_compute; reflexivity]. Qed.

(** ** C42 *)

Theorem C42_size_ignored : forall pre id size flags enc lang d c rest ver,
  length id = 4%nat -> length size = 4%nat -> length flags = 2%nat -> length lang = 3%nat ->
  id_starts id "C" = true -> text_ok d = true -> text_ok c = true ->
  let read := id ++ size ++ flags ++ [enc] ++ lang ++ text_image d ++ text_image c in
  fits pre (cells read ++ rest) ->
  Frame_parse (at_pos pre (cells read ++ rest)) ver
  = Ok (Some (frame_of (FComment flags lang d c)), at_pos (pre ++ cells read) rest).
Proof. exact comment_any_size. Qed.
Print Assumptions C42_size_ignored.

(** A comment without terminator swallows the frame after it. *)
Example C42_applies :
  text_ok (Iso []) = true /\ text_ok (Iso (lit "hiTALB")) = true
  /\ lit "COMM" ++ [x00; x00; x00; x07; x00; x00; x00] ++ lit "eng" ++ [x00] ++ lit "hi" ++ lit "TALB" ++ [x00; x00; x00; x03]
     = lit "COMM" ++ [x00; x00; x00; x07] ++ [x00; x00] ++ [x00] ++ lit "eng"
       ++ text_image (Iso []) ++ text_image (Iso (lit "hiTALB")) ++ [x00; x00; x03].
Proof. repeat split. Qed.

(** ** C43 *)

Theorem C43_truncated_unknown : forall pre id size l ver,
  length id = 4%nat -> length size = 4%nat ->
  id_starts id "T" = false -> id_starts id "C" = false -> id_starts id "A" = false ->
  forallb is_zero id = false -> 0 <= declared_size ver size ->
  fits pre (cells (id ++ size ++ l)) ->
  let n := declared_size ver size in
  let flags := firstn 2 l in
  let body := firstn (Z.to_nat n) (skipn 2 l) in
  Frame_parse (at_pos pre (cells (id ++ size ++ l))) ver
  = Ok (Some (mkFrame (mkFH (cells id) n (cells flags ++ repeat None (2 - length flags)))
                      (DRaw (cells body ++ repeat None (Z.to_nat n - length body)))),
        at_pos (pre ++ cells (id ++ size ++ flags ++ body)) (cells (skipn (Z.to_nat n) (skipn 2 l)))).
Proof. exact other_truncated. Qed.
Print Assumptions C43_truncated_unknown.

Example C43_applies :
  let id := lit "PRIV" in
  id_starts id "T" = false /\ forallb is_zero id = false /\ declared_size 3 [x00; x00; x00; x04] = 4
  /\ seen (Frame_parse (at_pos [] (cells (id ++ [x00; x00; x00; x04; x00; x00; x61]))) 3)
     = Ok (Some (mkFrame (mkFH (cells id) 4 (cells [x00; x00])) (DRaw [Some x61; None; None; None])), 11).
Proof. repeat split. Qed.
