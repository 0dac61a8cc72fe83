(** Properties C01 - C07 and C47: strings, numbers, tag headers. *)
From Verif Require Import File Spec HeaderFacts.

(** ** C01 *)

Theorem C01_strlen : forall t p,
  text_ok t = true -> zlen (text_image t) < 2 ^ 31 -> points_to p (text_image t) ->
  ID3v2_strlen p = Ok (zlen (text_bytes t)) /\ ID3v2_strlent p = Ok (zlen (text_image t)).
Proof. exact strlen_points. Qed.
Print Assumptions C01_strlen.

(** "Aé" in UTF-16, followed by junk and indeterminate memory. *)
Example C01_strlen_applies :
  let t := Utf16 true [(x00, x41); (x00, xe9)] in
  let p := Some (cells (text_image t) ++ [Some x41; None]) in
  text_ok t = true /\ zlen (text_image t) < 2 ^ 31 /\ points_to p (text_image t)
  /\ ID3v2_strlen p = Ok 6 /\ ID3v2_strlent p = Ok 8.
Proof. repeat split; try reflexivity. now exists [Some x41; None]. Qed.

Theorem C01_unterminated_iso : forall l,
  forallb (fun c => negb (is_zero c)) l = true -> starts_with_bom l = false ->
  ID3v2_strlen (Some (cells l)) = Ub OobRead /\ ID3v2_strlent (Some (cells l)) = Ub OobRead.
Proof. exact strlen_unterminated_iso. Qed.
Print Assumptions C01_unterminated_iso.

Example C01_unterminated_iso_applies :
  forallb (fun c => negb (is_zero c)) (lit "abc") = true /\ starts_with_bom (lit "abc") = false.
Proof. split; reflexivity. Qed.

Theorem C01_unterminated_utf16 : forall be us odd,
  forallb (fun u => negb (is_zero (fst u) && is_zero (snd u))) us = true -> (length odd < 2)%nat ->
  ID3v2_strlen (Some (cells (text_bytes (Utf16 be us) ++ odd))) = Ub OobRead
  /\ ID3v2_strlent (Some (cells (text_bytes (Utf16 be us) ++ odd))) = Ub OobRead.
Proof. exact strlen_unterminated_utf16. Qed.
Print Assumptions C01_unterminated_utf16.

(** An odd trailing zero byte is not a terminator. *)
Example C01_unterminated_utf16_applies :
  forallb (fun u => negb (is_zero (fst u) && is_zero (snd u))) [(x41, x00); (x00, x42)] = true
  /\ (length [x00] < 2)%nat.
Proof. split; [reflexivity|auto]. Qed.

Theorem C01_null : ID3v2_strlen None = Ub NullDeref /\ ID3v2_strlent None = Ub NullDeref.
Proof. exact (conj eq_refl eq_refl). Qed.
Print Assumptions C01_null.

(** ** C02 *)

Theorem C02_widens : forall chars p,
  text_ok (Iso chars) = true -> 2 * zlen chars + 4 < 2 ^ 31 -> points_to p (text_image (Iso chars)) ->
  ID3v2_to_unicode p = Ok (Fresh (cells (text_image (Utf16 false (map (fun c => (c, x00)) chars))))).
Proof. exact to_unicode_iso. Qed.
Print Assumptions C02_widens.

Theorem C02_length : forall chars p m,
  text_ok (Iso chars) = true -> 2 * zlen chars + 4 < 2 ^ 31 -> points_to p (text_image (Iso chars)) ->
  ID3v2_to_unicode p = Ok (Fresh m) -> ID3v2_strlen (Some m) = Ok (2 + 2 * zlen chars).
Proof. exact to_unicode_strlen. Qed.
Print Assumptions C02_length.

(** Longer strings: the size does not fit the int it is put in. *)
Theorem C02_too_long : forall chars p,
  text_ok (Iso chars) = true -> 2 ^ 31 <= 2 * zlen chars + 4 -> points_to p (text_image (Iso chars)) ->
  ID3v2_to_unicode p = Ub BadSize.
Proof. exact to_unicode_long. Qed.
Print Assumptions C02_too_long.

Lemma many_As n : forallb (fun c => negb (is_zero c)) (repeat "A"%byte n) = true /\ starts_with_bom (repeat "A"%byte n) = false.
Proof. split; [induction n; auto|]. destruct n as [|[|n]]; reflexivity. Qed.

Example C02_too_long_applies :
  let chars := repeat "A"%byte (Z.to_nat (2 ^ 30 - 2)) in
  text_ok (Iso chars) = true /\ 2 ^ 31 <= 2 * zlen chars + 4.
Proof.
  cbv zeta. split; [cbn [text_ok]; destruct (many_As (Z.to_nat (2 ^ 30 - 2))) as (-> & ->); reflexivity|].
  unfold zlen. rewrite repeat_length, Z2Nat.id by discriminate. discriminate.
Qed.

Example C02_applies :
  let p := clit "Hi" in
  text_ok (Iso (lit "Hi")) = true /\ points_to p (text_image (Iso (lit "Hi")))
  /\ ID3v2_to_unicode p = Ok (Fresh (cells [xff; xfe; x48; x00; x69; x00; x00; x00])).
Proof. split; [reflexivity|split; [exists []; reflexivity|reflexivity]]. Qed.

Theorem C02_same : forall l p,
  starts_with_bom l = true -> points_to p l -> ID3v2_to_unicode p = Ok SamePointer.
Proof. exact to_unicode_bom. Qed.
Print Assumptions C02_same.

Example C02_same_applies : starts_with_bom [xfe; xff; x00; x41] = true.
Proof. reflexivity. Qed.

(** ** C03 *)

Theorem C03_round_trip : forall v, exists e,
  syncint_encode v = Ok e /\ syncint_decode e = v mod 2 ^ 29.
Proof. exact sync_round_trip. Qed.
Print Assumptions C03_round_trip.

Theorem C03_small : forall v, 0 <= v < 2 ^ 28 -> exists e,
  syncint_encode v = Ok e /\ syncint_decode e = v /\ itob e = cells (synchsafe32 v)
  /\ Forall (fun b => bv b < 128) (synchsafe32 v).
Proof. exact sync_small. Qed.
Print Assumptions C03_small.

Theorem C03_three_rounds : forall v,
  (exists e, syncint_encode_loop 3 v 0x7F 0 = Ok e /\ syncint_encode v = Ok e)
  /\ syncint_encode_loop 2 v 0x7F 0 = NoFuel.
Proof. exact sync_three_rounds. Qed.
Print Assumptions C03_three_rounds.

Example C03_applies :
  0 <= 257 < 2 ^ 28 /\ syncint_encode 257 = Ok 0x201 /\ synchsafe32 257 = [x00; x00; x02; x01].
Proof. split; [split; reflexivity || discriminate|split; reflexivity]. Qed.

(** ** C47 *)

(** By the letter of ISO C, the mask of the third round does not fit an int,
    so that no call has a defined result. *)
Theorem C47_mask_overflows : forall v, syncint_encode_iso v = Ub IntOverflow.
Proof. exact sync_iso. Qed.
Print Assumptions C47_mask_overflows.

(** Two rounds are fine, and so is what wrapping arithmetic makes of it. *)
Example C47_applies : syncint_encode_iso_loop 2 257 0x7F 0 = NoFuel /\ syncint_encode 257 = Ok 0x201.
Proof. split; reflexivity. Qed.

(** ** C04 *)

Theorem C04_round_trip : forall n, - 2 ^ 31 <= n < 2 ^ 31 ->
  itob n = cells (be32 n) /\ exists u, btoi (itob n) 4 = Ok u /\ to_i32 u = n.
Proof. exact be_round_trip. Qed.
Print Assumptions C04_round_trip.

Theorem C04_decode : forall l tail n,
  n = zlen l -> btoi (cells l ++ tail) n = Ok (be_value l mod 2 ^ 32).
Proof. exact btoi_spec. Qed.
Print Assumptions C04_decode.

Example C04_applies :
  itob (-2) = cells [xff; xff; xff; xfe] /\ be_value [x01; x00; x02] = 65538
  /\ be32 65538 = [x00; x01; x00; x02].
Proof. repeat split. Qed.

(** ** C05 *)

Theorem C05_recognised : forall a b c maj mn fl s3 s2 s1 s0 p,
  points_to p [a; b; c; maj; mn; fl; s3; s2; s1; s0] ->
  has_extended_header fl = false ->
  ID3v2_read_tag_header_from_buffer p =
  Ok (if is_id3 a b c && known_version maj
      then Some (mkTH [a; b; c] maj mn fl (synchsafe_value [s3; s2; s1; s0]) 0)
      else None).
Proof. exact header_plain. Qed.
Print Assumptions C05_recognised.

(** Unknown identifiers and versions are refused whatever the flags say. *)
Theorem C05_refused : forall a b c maj mn fl s3 s2 s1 s0 p,
  points_to p [a; b; c; maj; mn; fl; s3; s2; s1; s0] ->
  is_id3 a b c && known_version maj = false ->
  ID3v2_read_tag_header_from_buffer p = Ok None.
Proof. exact header_refused. Qed.
Print Assumptions C05_refused.

Example C05_applies :
  let l := header_image x04 x00 x80 257 in
  is_id3 "I" "D" "3" = true /\ known_version x04 = true /\ has_extended_header x80 = false
  /\ ID3v2_read_tag_header_from_buffer (Some (cells l)) = Ok (Some (mkTH (lit "ID3") x04 x00 x80 257 0))
  /\ ID3v2_read_tag_header_from_buffer (Some (cells (header_image x02 x00 x40 257))) = Ok None.
Proof. repeat split. Qed.

(** ** C06 *)

Theorem C06_extended : forall maj mn fl s3 s2 s1 s0 p,
  known_version maj = true -> has_extended_header fl = true ->
  points_to p (lit "ID3" ++ [maj; mn; fl; s3; s2; s1; s0]) ->
  ID3v2_read_tag_header_from_buffer p = Ub UninitRead.
Proof. exact header_extended. Qed.
Print Assumptions C06_extended.

Theorem C06_extended_file : forall maj mn fl s3 s2 s1 s0 rest tag,
  known_version maj = true -> has_extended_header fl = true ->
  let content := Some (lit "ID3" ++ [maj; mn; fl; s3; s2; s1; s0] ++ rest) in
  ID3v2_read_tag_header content = Ub UninitRead
  /\ ID3v2_read_tag content = Ub UninitRead
  /\ ID3v2_write_tag content (Some tag) = Ub UninitRead
  /\ ID3v2_delete_tag content = Ub UninitRead.
Proof. exact header_extended_file. Qed.
Print Assumptions C06_extended_file.

Example C06_applies : known_version x03 = true /\ has_extended_header x40 = true.
Proof. split; reflexivity. Qed.

(** ** C07 *)

Theorem C07_file : forall l rest p,
  length l = 10%nat -> points_to p l ->
  ID3v2_read_tag_header (Some (l ++ rest)) = ID3v2_read_tag_header_from_buffer p.
Proof. exact header_file. Qed.
Print Assumptions C07_file.

Theorem C07_no_header :
  ID3v2_read_tag_header None = Ok None
  /\ forall content, (length content < 10)%nat -> ID3v2_read_tag_header (Some content) = Ok None.
Proof. exact (conj eq_refl header_short). Qed.
Print Assumptions C07_no_header.

Example C07_applies :
  let l := header_image x03 x00 x00 2000 in
  length l = 10%nat /\ points_to (Some (cells l)) l
  /\ ID3v2_read_tag_header (Some (l ++ lit "audio")) = Ok (Some (mkTH (lit "ID3") x03 x00 x00 2000 0)).
Proof. split; [reflexivity|split; [exists []; reflexivity|reflexivity]]. Qed.
