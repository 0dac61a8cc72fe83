(** Properties of tags that are unsynchronised: C82. *)
From Verif Require Import File Calls Spec SpecEdit SpecFile SpecRead SpecSession SpecUnsync SpecStandard Samples UnsyncFacts.

(** C82: the scheme *)

Theorem C82_scheme :
  (forall l, resynced (unsynced l) = l)
  /\ (forall l pre b post, unsynced l = pre ++ [xff; b] ++ post -> bv b < 224)
  /\ (forall l, no_ff l = true -> unsynced l = l).
Proof. exact (conj resynced_unsynced (conj unsynced_quiet unsynced_same)). Qed.
Print Assumptions C82_scheme.

Example C82_scheme_applies :
  unsynced [xff; xfe; x41; xff; x00; xff; x12; xff] = [xff; x00; xfe; x41; xff; x00; x00; xff; x12; xff; x00]
  /\ no_ff (lit "TIT2") = true.
Proof. split; reflexivity. Qed.

(** C82: version 2.4 *)

Theorem C82_v24 : forall minor flags fs pad sound,
  Forall (fun f => frame_ok f = true /\ readable f = true /\ usual f = true) fs -> has_extended_header flags = false ->
  0 <= pad -> let n := zlen (flat_map unsynced_image fs) + pad in n < 2 ^ 28 ->
  let content := unsynced_tag minor flags fs pad sound in
  (exists t, ID3v2_read_tag (Some content) = Ok (Some t) /\ t_header t = mkTH (lit "ID3") x04 minor flags n 0
     /\ tag_has t (map frame_of (map mistaken fs)) /\ t_padding t = pad)
  /\ run_session [] (Some content) = Ok (Some (tag_bytes x04 minor flags n (map mistaken fs) ++ sound)).
Proof. exact unsynced_v24. Qed.
Print Assumptions C82_v24.

(** An ISO-8859-1 artist, two UTF-16 texts, a JPEG and a private frame. *)
Definition ours : list fspec :=
  [artist;
   FText (lit "TIT2") [x00; x03] (Utf16 false [(x41, x00); (x42, x00)]);
   FText (lit "TALB") [x00; x03] (Utf16 true [(x00, x41); (x00, x42)]);
   FPicture [x00; x03] (Iso (lit "image/jpeg")) x03 (Iso []) [xff; xd8; xff; xe0; x00; x10; xff; x00; xff; xd9];
   FOther (lit "PRIV") [x00; x03] [xff]].

Example C82_v24_applies :
  Forall (fun f => frame_ok f = true /\ readable f = true /\ usual f = true) ours
  /\ has_extended_header x80 = false /\ zlen (flat_map unsynced_image ours) + 20 < 2 ^ 28
  /\ map mistaken ours =
     [artist;
      FText (lit "TIT2") [x00; x03] (Iso [xff]);
      FText (lit "TALB") [x00; x03] (Utf16 true []);
      FPicture [x00; x03] (Iso (lit "image/jpeg")) x03 (Iso [])
        [xff; xd8; xff; x00; xe0; x00; x10; xff; x00; x00; xff; xd9];
      FOther (lit "PRIV") [x00; x03] [xff; x00]].
Proof. split; [repeat constructor|]. split; [reflexivity|]. split; [vm_compute; reflexivity|reflexivity]. Qed.

(** C82: version 2.3 *)

Theorem C82_v23_only : forall minor flags id fl units pad sound,
  let f := FText id fl (Utf16 false units) in
  frame_ok f = true -> no_ff (id ++ be32 (body_size f) ++ fl ++ flat_units units) = true -> has_extended_header flags = false ->
  0 <= pad -> let n := 16 + 2 * zlen units + pad in n < 2 ^ 28 ->
  exists t, ID3v2_read_tag (Some (unsynced_file minor flags (frame_image be32 f ++ zeros pad) sound)) = Ok (Some t)
    /\ t_header t = mkTH (lit "ID3") x03 minor flags n 0
    /\ tag_has t [frame_of (FText id fl (Iso [xff]))] /\ t_padding t = pad + 1.
Proof. exact unsynced_v23_only. Qed.
Print Assumptions C82_v23_only.

Theorem C82_v23_next : forall minor flags id fl units i1 i2 i3 i4 more pad sound,
  let f := FText id fl (Utf16 false units) in
  frame_ok f = true -> no_ff (id ++ be32 (body_size f) ++ fl ++ flat_units units) = true -> has_extended_header flags = false ->
  forallb id_char [i1; i2; i3; i4] = true -> (6 <= length more)%nat ->
  let body := frame_image be32 f ++ ([i1; i2; i3; i4] ++ more) ++ zeros pad in
  zlen (unsynced body) < 2 ^ 28 ->
  let content := unsynced_file minor flags body sound in
  (exists t g, ID3v2_read_tag (Some content) = Ok (Some t)
     /\ tag_has t [frame_of (FText id fl (Iso [xff])); g]
     /\ fh_id (f_hdr g) = cells [x00; i1; i2; i3] /\ 3 * 2 ^ 28 <= fh_size (f_hdr g)
     /\ forall arg other, points_to arg other -> length other = 4%nat -> forallb (fun c => negb (is_zero c)) other = true ->
          other <> id -> ID3v2_Tag_get_frame (Some t) arg = Ok None)
  /\ exists u, run_session [] (Some content) = Ub u.
Proof. exact unsynced_v23_next. Qed.
Print Assumptions C82_v23_next.

(** A title in UTF-16 and an artist behind it. *)
Definition our_title : fspec := FText (lit "TIT2") [x00; x00] (Utf16 false [(x41, x00); (x42, x00)]).
Definition our_body : list byte := frame_image be32 our_title ++ frame_image be32 artist ++ zeros 20.

Example C82_v23_applies :
  frame_ok our_title = true
  /\ no_ff (lit "TIT2" ++ be32 (body_size our_title) ++ [x00; x00] ++ flat_units [(x41, x00); (x42, x00)]) = true
  /\ has_extended_header x80 = false /\ zlen (unsynced our_body) < 2 ^ 28
  /\ (exists more, frame_image be32 artist = lit "TPE1" ++ more /\ (6 <= length more)%nat)
  /\ forallb id_char (lit "TPE1") = true.
Proof.
  split; [reflexivity|]. split; [reflexivity|]. split; [reflexivity|]. split; [vm_compute; reflexivity|].
  split; [exists (skipn 4 (frame_image be32 artist)); split; [reflexivity|vm_compute; repeat constructor]|].
  reflexivity.
Qed.
