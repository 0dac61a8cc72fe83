(** Properties of the files as programs that follow the standard see them:
    C69 (files the library writes), C70 (files the library reads and writes
    again). *)
From Verif Require Import File Calls Spec SpecEdit SpecFile SpecSession SpecStandard SpecRewritten StandardFacts StandardFileFacts StandardKeepFacts StandardOpenFacts Samples.
From Coq Require Import Lia.

(** ** C69 *)

(** v2.3: whatever tag is written to whatever file. *)
Theorem C69_write_v3 : forall content t fs mi fl n ext,
  announces_extended content = false -> tag_has t (map frame_of fs) -> Forall (fun f => sayable f = true) fs ->
  t_header t = mkTH (lit "ID3") x03 mi fl n ext -> simple_flags fl = true ->
  frames_size fs <= n -> n < 2 ^ 28 -> 2048 - 2 ^ 31 < t_padding t < 2 ^ 31 ->
  exists file t', ID3v2_write_tag (Some content) (Some t) = Ok (Some file, t') /\ standard_read file = Some (map meant fs).
Proof. exact write3. Qed.
Print Assumptions C69_write_v3.

(** v2.4: as meant exactly if no frame has 128 bytes or more. *)
Theorem C69_write_v4 : forall content t fs mi fl n ext,
  announces_extended content = false -> tag_has t (map frame_of fs) -> Forall (fun f => sayable f = true) fs ->
  t_header t = mkTH (lit "ID3") x04 mi fl n ext -> simple_flags fl = true ->
  frames_size fs <= n -> n < 2 ^ 28 -> 2048 - 2 ^ 31 < t_padding t < 2 ^ 31 ->
  exists file t', ID3v2_write_tag (Some content) (Some t) = Ok (Some file, t')
    /\ (standard_read file = Some (map meant fs) <-> Forall (fun f => body_size f < 128) fs).
Proof. exact write4. Qed.
Print Assumptions C69_write_v4.

(** The same after any edits. *)
Theorem C69_edit_v3 : forall minor flags fs pad sound cs es,
  simple_flags flags = true -> Forall (fun f => frame_ok f = true /\ readable f = true) fs -> 0 <= pad -> frames_size fs + pad < 2 ^ 28 ->
  Forall2 means cs es -> all_proper es fs = true ->
  0 <= room_left es fs pad -> frames_size (edited es fs) + room_left es fs pad < 2 ^ 28 ->
  Forall (fun f => sayable f = true) (edited es fs) ->
  exists file, run_session cs (Some (tagged_file x03 minor flags fs pad sound)) = Ok (Some file)
    /\ standard_read file = Some (map meant (edited es fs)).
Proof. exact edit_session3. Qed.
Print Assumptions C69_edit_v3.

Theorem C69_edit_v4 : forall minor flags fs pad sound cs es,
  simple_flags flags = true -> Forall (fun f => frame_ok f = true /\ readable f = true) fs -> 0 <= pad -> frames_size fs + pad < 2 ^ 28 ->
  Forall2 means cs es -> all_proper es fs = true ->
  0 <= room_left es fs pad -> frames_size (edited es fs) + room_left es fs pad < 2 ^ 28 ->
  Forall (fun f => sayable f = true) (edited es fs) ->
  exists file, run_session cs (Some (tagged_file x04 minor flags fs pad sound)) = Ok (Some file)
    /\ (standard_read file = Some (map meant (edited es fs)) <-> Forall (fun f => body_size f < 128) (edited es fs)).
Proof. exact edit_session4. Qed.
Print Assumptions C69_edit_v4.

(** The comment of [ID3v2_Tag_set_comment] is lost on such a reader unless it is
    UTF-16: the empty UTF-16 description, labelled as ISO-8859-1, is taken for
    the description "ÿþ" and an empty comment. *)
Theorem C69_set_comment : forall major minor flags fs pad sound la co l t,
  simple_flags flags = true -> Forall (fun f => sayable f = true /\ readable f = true) fs -> 0 <= pad -> frames_size fs + pad < 2 ^ 28 ->
  points_to la l -> points_to co (text_image t) ->
  let f := FComment [x00; x00] l (Utf16 false []) t in
  frame_ok f = true ->
  let fs' := edited [Put f] fs in
  let room := room_left [Put f] fs pad in
  0 <= room -> frames_size fs' + room < 2 ^ 28 ->
  major = x03 \/ major = x04 /\ Forall (fun f => body_size f < 128) fs' ->
  let seen := match t with Iso _ => IComment l [255; 254] [] | Utf16 be us => IComment l [] (map (unit_of be) us) end in
  exists file, run_session [SetComment la co] (Some (tagged_file major minor flags fs pad sound)) = Ok (Some file)
    /\ standard_read file = Some (put (fun y => same_id (item_id y) (lit "COMM")) seen (map meant fs)).
Proof. exact set_comment_session. Qed.
Print Assumptions C69_set_comment.

(** A UTF-16 description and an ISO-8859-1 comment: the description is seen with
    the bytes of its byte order mark as characters. *)
Theorem C69_utf16_description : forall major minor flags fs pad sound k fl l be us c,
  simple_flags flags = true -> Forall (fun f => sayable f = true /\ readable f = true) fs -> 0 <= pad -> frames_size fs + pad < 2 ^ 28 ->
  let f := FComment fl l (Utf16 be us) (Iso c) in
  means k (Put f) -> frame_ok f = true -> plain_flags fl = true ->
  let fs' := edited [Put f] fs in
  let room := room_left [Put f] fs pad in
  0 <= room -> frames_size fs' + room < 2 ^ 28 ->
  major = x03 \/ major = x04 /\ Forall (fun f => body_size f < 128) fs' ->
  exists file s t, run_session [k] (Some (tagged_file major minor flags fs pad sound)) = Ok (Some file)
    /\ standard_read file = Some (put (fun y => same_id (item_id y) (lit "COMM")) (IComment l (map bv (bom_bytes be ++ s)) t) (map meant fs)).
Proof. exact utf_iso_session. Qed.
Print Assumptions C69_utf16_description.

(** An ISO-8859-1 description and a UTF-16 comment: the frame is not one by the
    standard, there is no byte order mark where one has to be. *)
Theorem C69_utf16_comment : forall major minor flags fs pad sound k fl l d be us,
  simple_flags flags = true -> Forall (fun f => sayable f = true /\ readable f = true) fs -> 0 <= pad -> frames_size fs + pad < 2 ^ 28 ->
  let f := FComment fl l (Iso d) (Utf16 be us) in
  means k (Put f) -> frame_ok f = true -> plain_flags fl = true ->
  let fs' := edited [Put f] fs in
  let room := room_left [Put f] fs pad in
  0 <= room -> frames_size fs' + room < 2 ^ 28 ->
  major = x03 \/ major = x04 /\ Forall (fun f => body_size f < 128) fs' ->
  exists file, run_session [k] (Some (tagged_file major minor flags fs pad sound)) = Ok (Some file) /\ standard_read file = None.
Proof. exact iso_utf_session. Qed.
Print Assumptions C69_utf16_comment.

Definition greeting : fspec := FComment [x00; x00] (lit "eng") (Iso (lit "d")) (Iso (lit "nice")).
Definition readable_samples : list fspec := [title; greeting; private; cover].
Definition nice : cptr := Some (cells (text_image (Iso (lit "nice")))).
Definition long_title (n : nat) : fspec := FText (lit "TIT2") [x00; x00] (Iso (repeat "a"%byte n)).

Example C69_applies :
  Forall (fun f => sayable f = true /\ readable f = true) readable_samples
  /\ map meant readable_samples
     = [IText (lit "TIT2") [[65; 256]]; IComment (lit "eng") [100] [110; 105; 99; 101];
        IOther (lit "PRIV") [x00; x00] [x00; x01; x02]; IPicture (map bv (lit "image/png")) x03 [] [x00; x00; xff]]
  /\ (let* f := run_session [SetArtist (Some (cells (text_image (Iso (lit "Me")))))] (Some (tagged_file x03 x00 x00 readable_samples 20 [xff])) in
      Ok (option_map standard_read f))
     = Ok (Some (Some (map meant readable_samples ++ [IText (lit "TPE1") [[77; 101]]])))
  /\ (let* f := run_session [SetComment (clit "eng") nice] (Some (tagged_file x03 x00 x00 readable_samples 20 [xff])) in
      Ok (option_map standard_read f))
     = Ok (Some (Some [meant title; IComment (lit "eng") [255; 254] []; meant private; meant cover]))
  /\ sayable comment1 = false /\ sayable comment2 = false
  /\ (let* f := run_session [] (Some (tagged_file x03 x00 x00 samples 20 [xff])) in Ok (option_map standard_read f)) = Ok (Some None)
  /\ (let* f := run_session [] (Some (tagged_file x04 x00 x00 [long_title 125] 20 [xff])) in Ok (option_map standard_read f))
     = Ok (Some (Some [meant (long_title 125)]))
  /\ (let* f := run_session [] (Some (tagged_file x04 x00 x00 [long_title 126] 20 [xff])) in Ok (option_map standard_read f)) = Ok (Some None).
Proof. split; [repeat constructor|]. repeat (split; [vm_compute; reflexivity|]). vm_compute; reflexivity. Qed.

(** ** C70 *)

(** Any file by the standard whose frames the library reads to their ends: the
    frames are written with another label and without what follows the first
    text. *)
Theorem C70_seen : forall major minor flags ss pad sound,
  known_version major = true -> simple_flags flags = true -> Forall (fun s => accepted s = true) ss -> 0 <= pad -> sf_size ss + pad < 2 ^ 28 ->
  exists file, run_session [] (Some (standard_file major minor flags ss pad sound)) = Ok (Some file)
    /\ standard_read (standard_file major minor flags ss pad sound) = items_seen major ss
    /\ (major = x03 \/ major = x04 /\ Forall (fun s => body_size (sf_frame s) < 128) ss ->
        standard_read file = items_seen major (map relabelled ss)).
Proof. exact seen_foreign. Qed.
Print Assumptions C70_seen.

(** Which files stay as they are, byte by byte. *)
Theorem C70_unchanged : forall major minor flags ss pad sound,
  known_version major = true -> simple_flags flags = true -> Forall (fun s => accepted s = true) ss -> 0 <= pad -> sf_size ss + pad < 2 ^ 28 ->
  let content := standard_file major minor flags ss pad sound in
  (run_session [] (Some content) = Ok (Some content)
   <-> Forall (fun s => sf_body s = frame_body (sf_frame s) /\ (major = x03 \/ major = x04 /\ body_size (sf_frame s) < 128)) ss).
Proof. exact unchanged_iff. Qed.
Print Assumptions C70_unchanged.

(** v2.4: a frame of 128 bytes or more makes the tag read otherwise, or not at
    all. *)
Theorem C70_large : forall minor flags fs pad sound,
  simple_flags flags = true -> Forall (fun f => sayable f = true /\ readable f = true) fs -> 0 <= pad -> frames_size fs + pad < 2 ^ 28 ->
  let content := tagged_file x04 minor flags fs pad sound in
  exists file, run_session [] (Some content) = Ok (Some file) /\ standard_read content = Some (map meant fs)
    /\ (standard_read file = standard_read content <-> Forall (fun f => body_size f < 128) fs).
Proof. exact large_foreign. Qed.
Print Assumptions C70_large.

(** v2.4: UTF-8 becomes ISO-8859-1; the text is the same exactly if it is
    ASCII. *)
Theorem C70_utf8 : forall id fl u w,
  let s := mkSF x03 (FText id fl (Iso u)) [] in
  accepted s = true -> body_size (sf_frame s) < 128 -> plain_flags fl = true -> bytes_eqb id (lit "TXXX") = false -> utf8 u = Some w ->
  becomes x04 s (IText id [w]) (IText id [map bv u]) /\ (w = map bv u <-> forallb (fun b => bv b <? 128) u = true).
Proof. exact utf8_becomes. Qed.
Print Assumptions C70_utf8.

(** v2.4: UTF-16 without byte order mark, all its characters below 256: nothing
    is left. *)
Theorem C70_utf16be : forall id fl b l,
  let s := mkSF x02 (FText id fl (Iso [])) (b :: flat_map (fun b => [x00; b]) l ++ [x00; x00]) in
  accepted s = true -> plain_flags fl = true -> bytes_eqb id (lit "TXXX") = false -> forallb (fun b => negb (is_zero b)) (b :: l) = true ->
  sf_body s = x02 :: flat_map (fun b => [x00; b]) (b :: l) ++ [x00; x00]
  /\ becomes x04 s (IText id [map bv (b :: l)]) (IText id [[]]).
Proof. exact be_becomes. Qed.
Print Assumptions C70_utf16be.

(** v2.4: of several texts the first is left. *)
Theorem C70_values : forall id fl t more,
  let s := mkSF (text_encoding t) (FText id fl t) more in
  accepted s = true -> body_size (sf_frame s) < 128 -> plain_flags fl = true -> bytes_eqb id (lit "TXXX") = false -> more <> [] ->
  forall x, item_of x04 id fl (sf_body s) = Some x ->
  (exists v vs, x = IText id (wtext_of t :: v :: vs)) /\ becomes x04 s x (IText id [wtext_of t]).
Proof. exact values_becomes. Qed.
Print Assumptions C70_values.

(** Both versions: of a user-defined text the description is left, without the
    value. *)
Theorem C70_user : forall major fl t v,
  let s := mkSF (text_encoding t) (FText (lit "TXXX") fl t) (text_image v) in
  accepted s = true -> stored_well major (sf_frame s) = true -> plain_flags fl = true -> text_ok v = true -> is_iso t = is_iso v ->
  becomes major s (IUser (wtext_of t) (wtext_of v)) (IUser (wtext_of t) []).
Proof. exact user_becomes. Qed.
Print Assumptions C70_user.

(** A text need not end in a terminator by the standard.  Such a file is read
    by the standard as any other; the library's reading of it is undefined. *)
Theorem C70_unterminated : forall major minor flags ss1 ss2 id fl enc u pad sound,
  known_version major = true -> simple_flags flags = true -> Forall (fun s => accepted s = true) (ss1 ++ ss2) ->
  length id = 4%nat -> forallb id_char id = true -> id_starts id "T" = true -> length fl = 2%nat -> u <> [] -> unterminated u ->
  let ss := ss1 ++ mkSF x00 (FOther id fl (enc :: u)) [] :: ss2 in
  0 <= pad -> sf_size ss + pad < 2 ^ 28 ->
  let content := standard_file major minor flags ss pad sound in
  standard_read content = items_seen major ss /\ exists e, ID3v2_read_tag (Some content) = Ub e.
Proof. exact open_file. Qed.
Print Assumptions C70_unterminated.

(** In particular any text in ISO-8859-1. *)
Theorem C70_unterminated_latin1 : forall major minor flags ss1 ss2 id fl u pad sound xs ys,
  known_version major = true -> simple_flags flags = true -> Forall (fun s => accepted s = true) (ss1 ++ ss2) ->
  length id = 4%nat -> forallb id_char id = true -> id_starts id "T" = true -> bytes_eqb id (lit "TXXX") = false ->
  length fl = 2%nat -> plain_flags fl = true ->
  u <> [] -> forallb (fun b => negb (is_zero b)) u = true -> starts_with_bom u = false ->
  let ss := ss1 ++ mkSF x00 (FOther id fl (x00 :: u)) [] :: ss2 in
  0 <= pad -> sf_size ss + pad < 2 ^ 28 ->
  items_seen major ss1 = Some xs -> items_seen major ss2 = Some ys ->
  let content := standard_file major minor flags ss pad sound in
  standard_read content = Some (xs ++ IText id [map bv u] :: ys) /\ exists e, ID3v2_read_tag (Some content) = Ub e.
Proof. exact open_latin1. Qed.
Print Assumptions C70_unterminated_latin1.

(** A v2.4 tag of another program: a title in UTF-8, an artist in UTF-16BE, two
    genres, a user-defined text. *)
Definition foreign : list sframe :=
  [ mkSF x03 (FText (lit "TIT2") [x00; x00] (Iso [x4e; xc3; xb8])) [];
    mkSF x02 (FText (lit "TPE1") [x00; x00] (Iso [])) [x4d; x00; x65; x00; x00];
    mkSF x00 (FText (lit "TCON") [x00; x00] (Iso (lit "Pop"))) (lit "Rock");
    mkSF x00 (FText (lit "TXXX") [x00; x00] (Iso (lit "mood"))) (text_image (Iso (lit "sad"))) ].

Example C70_applies :
  Forall (fun s => accepted s = true) foreign
  /\ forallb (fun f => sayable f && readable f && stored_well x04 f) readable_samples = true
  /\ forallb (fun s => stored_well x04 (sf_frame s)) foreign = true
  /\ standard_read (standard_file x04 x00 x00 foreign 30 [xff])
     = Some [IText (lit "TIT2") [[78; 248]]; IText (lit "TPE1") [[77; 101]];
             IText (lit "TCON") [map bv (lit "Pop"); map bv (lit "Rock")]; IUser (map bv (lit "mood")) (map bv (lit "sad"))]
  /\ (let* f := run_session [] (Some (standard_file x04 x00 x00 foreign 30 [xff])) in Ok (option_map standard_read f))
     = Ok (Some (Some [IText (lit "TIT2") [[78; 195; 184]]; IText (lit "TPE1") [[]];
                       IText (lit "TCON") [map bv (lit "Pop")]; IUser (map bv (lit "mood")) []]))
  /\ run_session [] (Some (tagged_file x03 x00 x00 [long_title 300; title] 30 [xff])) = Ok (Some (tagged_file x03 x00 x00 [long_title 300; title] 30 [xff]))
  /\ utf8 [x4e; xc3; xb8] = Some [78; 248].
Proof. split; [repeat constructor|]. repeat (split; [vm_compute; reflexivity|]). vm_compute; reflexivity. Qed.

(** The album "Hi", first in ISO-8859-1, then in UTF-16, without terminator. *)
Definition open_album (enc : byte) (u : list byte) : list sframe :=
  foreign ++ mkSF x00 (FOther (lit "TALB") [x00; x00] (enc :: u)) [] :: foreign.

Example C70_unterminated_applies :
  unterminated (lit "Hi") /\ unterminated [xff; xfe; x48; x00; x69; x00]
  /\ forallb (fun b => negb (is_zero b)) (lit "Hi") = true /\ starts_with_bom (lit "Hi") = false
  /\ sf_size (open_album x01 [xff; xfe; x48; x00; x69; x00]) + 30 < 2 ^ 28
  /\ (forall xs, items_seen x04 foreign = Some xs ->
        standard_read (standard_file x04 x00 x00 (open_album x00 (lit "Hi")) 30 [xff]) = Some (xs ++ IText (lit "TALB") [[72; 105]] :: xs)
        /\ standard_read (standard_file x04 x00 x00 (open_album x01 [xff; xfe; x48; x00; x69; x00]) 30 [xff])
           = Some (xs ++ IText (lit "TALB") [[72; 105]] :: xs))
  /\ items_seen x04 foreign <> None
  /\ ID3v2_read_tag (Some (standard_file x04 x00 x00 (open_album x00 (lit "Hi")) 30 [xff])) = Ub OobRead
  /\ ID3v2_read_tag (Some (standard_file x04 x00 x00 (open_album x01 [xff; xfe; x48; x00; x69; x00]) 30 [xff])) = Ub OobRead.
Proof.
  split; [left; split; reflexivity|]. split; [right; exists false, [(x48, x00); (x69, x00)], []; repeat split; cbn; lia|].
  split; [reflexivity|]. split; [reflexivity|]. split; [vm_compute; reflexivity|].
  split; [intros xs; vm_compute; intros E; injection E as <-; split; reflexivity|].
  split; [vm_compute; discriminate|]. split; vm_compute; reflexivity.
Qed.
