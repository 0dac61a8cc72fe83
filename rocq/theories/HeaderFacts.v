(** Facts about tag headers (tag_header.c and the header functions of
    id3v2lib.c), and the string and number lemmas the properties quote. *)
From Verif Require Import File Spec.
From Verif Require Export FrameFacts.

(** ** Strings *)

Lemma strlen_points t p :
  text_ok t = true -> zlen (text_image t) < 2 ^ 31 -> points_to p (text_image t) ->
  ID3v2_strlen p = Ok (zlen (text_bytes t)) /\ ID3v2_strlent p = Ok (zlen (text_image t)).
Proof. intros H L (tail & ->). split; [now apply strlen_text | now apply strlent_text]. Qed.

Lemma bom_short l : (length l < 2)%nat -> starts_with_bom l = false ->
  string_has_bom (Some (cells l)) = Ok false \/ string_has_bom (Some (cells l)) = Ub OobRead.
Proof.
  destruct l as [|a [|b l]]; cbn [length]; intros L _; try lia.
  - now right.
  - unfold string_has_bom. cbn [cells map memcmp_eq].
    destruct (beq xff a); [now right|]. cbn [bind]. destruct (beq xfe a); [now right|now left].
Qed.

Lemma strlen_unterminated_iso l :
  forallb (fun c => negb (is_zero c)) l = true -> starts_with_bom l = false ->
  ID3v2_strlen (Some (cells l)) = Ub OobRead /\ ID3v2_strlent (Some (cells l)) = Ub OobRead.
Proof.
  intros Nz Nb. assert (S : ID3v2_strlen (Some (cells l)) = Ub OobRead).
  { unfold ID3v2_strlen. destruct (Nat.lt_ge_cases (length l) 2) as [L|L].
    - destruct (bom_short l L Nb) as [-> | ->]; cbn [bind negb]; auto.
      now rewrite c_strlen_unterminated.
    - rewrite <- (app_nil_r (cells l)) at 1. rewrite has_bom_cells by lia. rewrite Nb. cbn [bind negb].
      now rewrite c_strlen_unterminated. }
  split; [exact S|]. unfold ID3v2_strlent. rewrite S.
  destruct (Nat.lt_ge_cases (length l) 2) as [L|L].
  - destruct (bom_short l L Nb) as [-> | ->]; reflexivity.
  - rewrite <- (app_nil_r (cells l)). rewrite has_bom_cells by lia. reflexivity.
Qed.

Lemma wstrlen_unterminated us odd :
  forallb (fun u => negb (is_zero (fst u) && is_zero (snd u))) us = true -> (length odd < 2)%nat ->
  wstrlen (cells (flat_map (fun u => [fst u; snd u]) us ++ odd)) = Ub OobRead.
Proof.
  intros H L. induction us as [|[a b] us IH].
  - destruct odd as [|x [|y odd]]; cbn [length] in L; try lia; reflexivity.
  - cbn [flat_map fst snd app]. rewrite !cells_cons, wstrlen_cons.
    cbn [forallb] in H. apply andb_true_iff in H. destruct H as [H1 H2]. cbn [fst snd] in H1.
    apply negb_true_iff in H1. rewrite H1. rewrite IH by auto. reflexivity.
Qed.

Lemma bom_ok be : forall l, string_has_bom (Some (cells (bom_bytes be ++ l))) = Ok true.
Proof.
  intros l. rewrite <- (app_nil_r (cells _)). rewrite has_bom_cells.
  - now rewrite bom_starts.
  - rewrite app_length. destruct be; cbn [bom_bytes length]; lia.
Qed.

Lemma strlen_unterminated_utf16 be us odd :
  forallb (fun u => negb (is_zero (fst u) && is_zero (snd u))) us = true -> (length odd < 2)%nat ->
  ID3v2_strlen (Some (cells (text_bytes (Utf16 be us) ++ odd))) = Ub OobRead
  /\ ID3v2_strlent (Some (cells (text_bytes (Utf16 be us) ++ odd))) = Ub OobRead.
Proof.
  intros H L. cbn [text_bytes]. rewrite <- app_assoc.
  assert (S : ID3v2_strlen (Some (cells (bom_bytes be ++ flat_map (fun u => [fst u; snd u]) us ++ odd))) = Ub OobRead).
  { unfold ID3v2_strlen. rewrite bom_ok. cbn [bind negb].
    rewrite cells_app.
    replace (wstrlen (cells (bom_bytes be) ++ cells (flat_map (fun u => [fst u; snd u]) us ++ odd)))
      with (@Ub Z OobRead); [reflexivity|].
    destruct be; cbn [bom_bytes cells map app];
      fold (cells (flat_map (fun u : byte * byte => [fst u; snd u]) us ++ odd));
      rewrite wstrlen_cons, wstrlen_unterminated by auto; reflexivity. }
  split; [exact S|]. unfold ID3v2_strlent. rewrite bom_ok, S. reflexivity.
Qed.

Lemma widen_cells chars tail :
  widen (length chars) (cells chars ++ tail)
  = cells (flat_map (fun u => [fst u; snd u]) (map (fun c => (c, x00)) chars)).
Proof.
  induction chars as [|c cs IH]; [reflexivity|].
  cbn [length cells map app widen flat_map fst snd]. fold (cells cs). rewrite IH. reflexivity.
Qed.

Lemma to_unicode_iso chars p :
  text_ok (Iso chars) = true -> 2 * zlen chars + 4 < 2 ^ 31 -> points_to p (text_image (Iso chars)) ->
  ID3v2_to_unicode p = Ok (Fresh (cells (text_image (Utf16 false (map (fun c => (c, x00)) chars))))).
Proof.
  intros H L (tail & ->). unfold ID3v2_to_unicode. rewrite has_bom_text by auto. cbn [bind is_unicode].
  unfold text_image at 1. cbn [text_bytes text_end]. rewrite cells_app, <- app_assoc.
  cbn [cells map app]. fold (cells chars).
  pose proof H as H'. cbn [text_ok] in H'. apply andb_true_iff in H'. destruct H' as [H1 _].
  rewrite c_strlen_chars by auto. cbn [bind]. ifF.
  unfold text_image. cbn [text_bytes text_end bom_bytes].
  rewrite to_nat_zlen. change (text_image (Iso chars)) with (chars ++ [x00]).
  rewrite cells_app, <- app_assoc, widen_cells. rewrite !cells_app, <- !app_assoc. reflexivity.
Qed.

Lemma to_unicode_long chars p :
  text_ok (Iso chars) = true -> 2 ^ 31 <= 2 * zlen chars + 4 -> points_to p (text_image (Iso chars)) ->
  ID3v2_to_unicode p = Ub BadSize.
Proof.
  intros H L (tail & ->). unfold ID3v2_to_unicode. rewrite has_bom_text by auto. cbn [bind is_unicode].
  unfold text_image at 1. cbn [text_bytes text_end]. rewrite cells_app, <- app_assoc.
  cbn [cells map app]. fold (cells chars).
  pose proof H as H'. cbn [text_ok] in H'. apply andb_true_iff in H'. destruct H' as [H1 _].
  rewrite c_strlen_chars by auto. cbn [bind]. now ifT.
Qed.

Lemma widened_ok chars :
  forallb (fun c => negb (is_zero c)) chars = true ->
  text_ok (Utf16 false (map (fun c => (c, x00)) chars)) = true.
Proof.
  cbn [text_ok]. induction chars as [|c cs IH]; cbn [map forallb fst snd]; auto.
  intros H. apply andb_true_iff in H. destruct H as [H1 H2].
  change (is_zero x00) with true. rewrite andb_true_r, H1. now apply IH.
Qed.

Lemma widened_length chars :
  zlen (text_bytes (Utf16 false (map (fun c => (c, x00)) chars))) = 2 + 2 * zlen chars.
Proof. cbn [text_bytes]. rewrite zlen_app, zlen_units, zlen_map. reflexivity. Qed.

Lemma to_unicode_strlen chars p m :
  text_ok (Iso chars) = true -> 2 * zlen chars + 4 < 2 ^ 31 -> points_to p (text_image (Iso chars)) ->
  ID3v2_to_unicode p = Ok (Fresh m) -> ID3v2_strlen (Some m) = Ok (2 + 2 * zlen chars).
Proof.
  intros H L P E. rewrite (to_unicode_iso chars) in E by auto.
  assert (Em : m = cells (text_image (Utf16 false (map (fun c => (c, x00)) chars)))) by congruence.
  rewrite Em.
  rewrite strlen_text'.
  - now rewrite widened_length.
  - apply widened_ok. cbn [text_ok] in H. apply andb_true_iff in H. tauto.
  - unfold text_image. rewrite zlen_app, widened_length. cbn [text_end]. change (zlen [x00; x00]) with 2. lia.
Qed.

Lemma to_unicode_bom l p :
  starts_with_bom l = true -> points_to p l -> ID3v2_to_unicode p = Ok SamePointer.
Proof.
  intros B (tail & ->). unfold ID3v2_to_unicode.
  destruct l as [|a [|b l]]; try discriminate B.
  rewrite has_bom_cells by (cbn [length]; lia). now rewrite B.
Qed.

(** ** Numbers *)

Lemma sync_round_trip v : exists e,
  syncint_encode v = Ok e /\ syncint_decode e = v mod 2 ^ 29.
Proof.
  exists (sync_closed v). split; [apply syncint_encode_closed|].
  rewrite syncint_decode_bytes. apply synchsafe_value_sync.
Qed.

Lemma sync_small v : 0 <= v < 2 ^ 28 -> exists e,
  syncint_encode v = Ok e /\ syncint_decode e = v /\ itob e = cells (synchsafe32 v)
  /\ Forall (fun b => bv b < 128) (synchsafe32 v).
Proof.
  intros H. exists (sync_closed v). split; [apply syncint_encode_closed|].
  rewrite syncint_decode_bytes, synchsafe_value_sync, itob_spec, be32_sync_small by auto.
  split; [|split; [reflexivity|]].
  - apply Z.mod_small. change (2 ^ 28) with 268435456 in H. change (2 ^ 29) with 536870912. lia.
  - repeat constructor; rewrite bv_zb; lia.
Qed.

Lemma sync_three_rounds v :
  (exists e, syncint_encode_loop 3 v 0x7F 0 = Ok e /\ syncint_encode v = Ok e)
  /\ syncint_encode_loop 2 v 0x7F 0 = NoFuel.
Proof. split; [eexists; split; reflexivity | reflexivity]. Qed.

Lemma ishl_cases a n : ishl a n = Ub IntOverflow \/ exists b, ishl a n = Ok b.
Proof. unfold ishl, chk_int. destruct (a <? 0); [now left|]. destruct (_ && _); [right; eauto|now left]. Qed.

Lemma iso_round f v mask out : (Z.lxor mask 0x7FFFFFFF =? 0) = false ->
  syncint_encode_iso_loop (S f) v mask out = Ub IntOverflow
  \/ exists w, syncint_encode_iso_loop (S f) v mask out
       = let* m := iadd mask 1 in let* m := ishl m 8 in let* mask := isub m 1 in syncint_encode_iso_loop f w mask w.
Proof.
  intros N. cbn [syncint_encode_iso_loop]. rewrite N.
  destruct (ishl_cases (Z.land v (Z.lnot mask)) 1) as [->|(a & ->)]; [now left|]. right. eexists. reflexivity.
Qed.

Lemma sync_iso v : syncint_encode_iso v = Ub IntOverflow.
Proof.
  unfold syncint_encode_iso.
  destruct (iso_round 7 v 127 0 eq_refl) as [->|(w & ->)]; [reflexivity|].
  change (iadd 127 1) with (Ok 128). cbn [bind]. change (ishl 128 8) with (Ok 32768). cbn [bind].
  change (isub 32768 1) with (Ok 32767). cbn [bind].
  destruct (iso_round 6 w 32767 w eq_refl) as [->|(x & ->)]; [reflexivity|].
  change (iadd 32767 1) with (Ok 32768). cbn [bind]. change (ishl 32768 8) with (Ok 8388608). cbn [bind].
  change (isub 8388608 1) with (Ok 8388607). cbn [bind].
  destruct (iso_round 5 x 8388607 x eq_refl) as [->|(y & ->)]; [reflexivity|].
  change (iadd 8388607 1) with (Ok 8388608). cbn [bind]. now change (ishl 8388608 8) with (@Ub Z IntOverflow).
Qed.

Lemma be_round_trip n : - 2 ^ 31 <= n < 2 ^ 31 ->
  itob n = cells (be32 n) /\ exists u, btoi (itob n) 4 = Ok u /\ to_i32 u = n.
Proof.
  intros H. rewrite itob_spec. split; [reflexivity|]. eexists. split.
  - rewrite <- (app_nil_r (cells _)). apply btoi_spec. reflexivity.
  - rewrite be_value_be32. unfold to_i32, to_u32.
    change (2 ^ 31) with 2147483648 in *. change (2 ^ 32) with 4294967296. lia.
Qed.

(** ** Tag headers *)

Lemma id3_lit a b c : is_id3 a b c = true -> [a; b; c] = lit "ID3".
Proof.
  unfold is_id3. change Byte.eqb with beq. rewrite !andb_true_iff, !beq_true. now intros [[-> ->] ->].
Qed.

Lemma memcmp_id3 a b c m :
  memcmp_eq (lit "ID3") (Some a :: Some b :: Some c :: m) = Ok (is_id3 a b c).
Proof.
  unfold is_id3. change Byte.eqb with beq. cbn [lit list_byte_of_string memcmp_eq].
  change (memcmp_eq (lit "ID3") (Some a :: Some b :: Some c :: m)) with
    (if beq "I" a then if beq "D" b then if beq "3" c then Ok true else Ok false else Ok false else Ok false).
  destruct (beq_spec "I" a) as [<-|N1].
  2:{ replace (beq a "I") with false by (symmetry; apply beq_false; congruence). reflexivity. }
  destruct (beq_spec "D" b) as [<-|N2].
  2:{ replace (beq b "D") with false by (symmetry; apply beq_false; congruence). now rewrite andb_false_r. }
  destruct (beq_spec "3" c) as [<-|N3].
  2:{ replace (beq c "3") with false by (symmetry; apply beq_false; congruence). now rewrite andb_false_r. }
  now rewrite !beq_refl.
Qed.

Lemma version_test maj :
  negb (schar maj =? 3) && negb (schar maj =? 4) = negb (known_version maj).
Proof. destruct maj; reflexivity. Qed.

Lemma ext_test fl :
  (Z.land (schar fl) (Z.shiftl 1 6) =? Z.shiftl 1 6) = has_extended_header fl.
Proof. destruct fl; reflexivity. Qed.

Section HeaderParse.
  Variables (a b c maj mn fl s3 s2 s1 s0 : byte) (rest : mem).
  Let h10 : list byte := [a; b; c; maj; mn; fl; s3; s2; s1; s0].
  Hypothesis F : fits [] (cells h10 ++ rest).

  Lemma header_no_id3 :
    is_id3 a b c = false ->
    TagHeader_parse (at_pos [] (cells h10 ++ rest)) = Ok (None, at_pos [] (cells h10 ++ rest)).
  Proof.
    intros N. unfold TagHeader_parse. cbn [at_pos cs_stream app].
    unfold h10. cbn [cells map app]. rewrite memcmp_id3, N. reflexivity.
  Qed.

  Lemma header_start :
    is_id3 a b c = true ->
    TagHeader_parse (at_pos [] (cells h10 ++ rest)) =
    if negb (known_version maj) then Ok (None, at_pos (cells [a; b; c; maj; mn]) (cells [fl; s3; s2; s1; s0] ++ rest))
    else
      let cs := at_pos (cells h10) rest in
      if has_extended_header fl then
        let* (raw_eh, cs) := read_into cs ID3v2_EXTENDED_HEADER_SIZE_LENGTH in
        let* e := btoi raw_eh ID3v2_EXTENDED_HEADER_SIZE_LENGTH in
        let ext := to_i32 (syncint_decode (to_i32 e)) in
        Ok (Some (TagHeader_new (schar maj) (schar mn) (schar fl) (synchsafe_value [s3; s2; s1; s0]) ext), cs)
      else Ok (Some (mkTH (lit "ID3") maj mn fl (synchsafe_value [s3; s2; s1; s0]) 0), cs).
  Proof.
    intros I. unfold TagHeader_parse. cbn [at_pos cs_stream app].
    unfold h10 at 1. cbn [cells map app]. rewrite memcmp_id3, I. go. cbn [negb].
    change (cells h10 ++ rest) with (cells [a; b; c] ++ cells [maj; mn; fl; s3; s2; s1; s0] ++ rest).
    change ID3v2_TAG_HEADER_IDENTIFIER_LENGTH with 3.
    rewrite read_into_at; [|exact F|reflexivity]. go.
    change (cells [maj; mn; fl; s3; s2; s1; s0] ++ rest) with (Some maj :: (cells [mn; fl; s3; s2; s1; s0] ++ rest)).
    rewrite getc_at. go.
    change (cells [mn; fl; s3; s2; s1; s0] ++ rest) with (Some mn :: (cells [fl; s3; s2; s1; s0] ++ rest)).
    rewrite getc_at. go. rewrite version_test. destruct (known_version maj); cbn [negb]; [|reflexivity].
    change (cells [fl; s3; s2; s1; s0] ++ rest) with (Some fl :: (cells [s3; s2; s1; s0] ++ rest)).
    rewrite getc_at. go.
    rewrite read_into_at; [|eapply fits_le; [|exact F]; unfold h10; zl; lia|reflexivity]. go.
    rewrite btoi_spec' by reflexivity. go.
    rewrite decode_be_value by reflexivity. rewrite ext_test.
    pose proof (synchsafe_value_range [s3; s2; s1; s0]) as R.
    rewrite to_i32_id by (change (2 ^ 29) with 536870912 in R; change (2 ^ 31) with 2147483648; lia).
    change ((((([] ++ cells [a; b; c]) ++ [Some maj]) ++ [Some mn]) ++ [Some fl]) ++ cells [s3; s2; s1; s0]) with (cells h10).
    cbv zeta. destruct (has_extended_header fl); [reflexivity|].
    unfold TagHeader_new. rewrite !zb_schar.
    rewrite to_u32_id by (change (2 ^ 29) with 536870912 in R; change (2 ^ 32) with 4294967296; lia).
    reflexivity.
  Qed.
End HeaderParse.

Lemma header_from_buffer a b c maj mn fl s3 s2 s1 s0 p :
  points_to p [a; b; c; maj; mn; fl; s3; s2; s1; s0] ->
  ID3v2_read_tag_header_from_buffer p =
  if is_id3 a b c && known_version maj then
    if has_extended_header fl then Ub UninitRead
    else Ok (Some (mkTH (lit "ID3") maj mn fl (synchsafe_value [s3; s2; s1; s0]) 0))
  else Ok None.
Proof.
  intros (tail & ->). unfold ID3v2_read_tag_header_from_buffer.
  change ID3v2_TAG_HEADER_LENGTH with 10. rewrite from_buffer_at by reflexivity. go.
  rewrite <- (app_nil_r (cells _)).
  destruct (is_id3 a b c) eqn:I; cbn [andb].
  - rewrite header_start by (auto; reflexivity). destruct (known_version maj); cbn [negb]; [|reflexivity].
    cbv zeta. destruct (has_extended_header fl); [|reflexivity].
    unfold read_into, CharStream_read. cbn [at_pos cs_size cs_cursor].
    change (zlen (@nil cell)) with 0.
    change (zlen (cells _)) with 10. rewrite isub_ok by (change (2 ^ 31) with 2147483648; lia). go.
    replace (clamp_int ID3v2_EXTENDED_HEADER_SIZE_LENGTH 0 (10 + 0 - 10)) with 0 by reflexivity.
    reflexivity.
  - rewrite header_no_id3 by auto. reflexivity.
Qed.

Lemma length10 {A} (l : list A) : length l = 10%nat ->
  exists a b c d e f g h i j, l = [a; b; c; d; e; f; g; h; i; j].
Proof.
  destruct l as [|a [|b [|c [|d [|e [|f [|g [|h [|i [|j [|? ?]]]]]]]]]]]; intros L; try discriminate L.
  now exists a, b, c, d, e, f, g, h, i, j.
Qed.

Lemma header_file l rest p : length l = 10%nat -> points_to p l ->
  ID3v2_read_tag_header (Some (l ++ rest)) = ID3v2_read_tag_header_from_buffer p.
Proof.
  intros L (tail & ->). unfold ID3v2_read_tag_header.
  change (Z.to_nat ID3v2_TAG_HEADER_LENGTH) with 10%nat.
  rewrite firstn_app_exact by auto.
  replace (zlen l <? ID3v2_TAG_HEADER_LENGTH) with false
    by (unfold zlen; rewrite L; reflexivity).
  destruct (length10 l L) as (a & b & c & d & e & f & g & h & i & j & ->).
  rewrite !(header_from_buffer a b c d e f g h i j).
  - reflexivity.
  - now exists tail.
  - exists []. now rewrite app_nil_r.
Qed.

Lemma header_short content : (length content < 10)%nat ->
  ID3v2_read_tag_header (Some content) = Ok None.
Proof.
  intros L. unfold ID3v2_read_tag_header. change (Z.to_nat ID3v2_TAG_HEADER_LENGTH) with 10%nat.
  rewrite firstn_all2 by lia. change ID3v2_TAG_HEADER_LENGTH with 10.
  replace (zlen content <? 10) with true; [reflexivity|]. unfold zlen. lia.
Qed.

Lemma header_plain a b c maj mn fl s3 s2 s1 s0 p :
  points_to p [a; b; c; maj; mn; fl; s3; s2; s1; s0] ->
  has_extended_header fl = false ->
  ID3v2_read_tag_header_from_buffer p =
  Ok (if is_id3 a b c && known_version maj
      then Some (mkTH [a; b; c] maj mn fl (synchsafe_value [s3; s2; s1; s0]) 0)
      else None).
Proof.
  intros P E. rewrite (header_from_buffer a b c maj mn fl s3 s2 s1 s0 p P), E.
  destruct (is_id3 a b c) eqn:I; cbn [andb]; [|reflexivity].
  rewrite (id3_lit a b c) by auto. destruct (known_version maj); reflexivity.
Qed.

Lemma header_refused a b c maj mn fl s3 s2 s1 s0 p :
  points_to p [a; b; c; maj; mn; fl; s3; s2; s1; s0] ->
  is_id3 a b c && known_version maj = false ->
  ID3v2_read_tag_header_from_buffer p = Ok None.
Proof. intros P E. now rewrite (header_from_buffer a b c maj mn fl s3 s2 s1 s0 p P), E. Qed.

Lemma header_extended maj mn fl s3 s2 s1 s0 p :
  known_version maj = true -> has_extended_header fl = true ->
  points_to p (lit "ID3" ++ [maj; mn; fl; s3; s2; s1; s0]) ->
  ID3v2_read_tag_header_from_buffer p = Ub UninitRead.
Proof.
  intros K E P. rewrite (header_from_buffer "I" "D" "3" maj mn fl s3 s2 s1 s0 p P), E, K. reflexivity.
Qed.

Lemma header_extended_file maj mn fl s3 s2 s1 s0 rest tag :
  known_version maj = true -> has_extended_header fl = true ->
  let content := Some (lit "ID3" ++ [maj; mn; fl; s3; s2; s1; s0] ++ rest) in
  ID3v2_read_tag_header content = Ub UninitRead
  /\ ID3v2_read_tag content = Ub UninitRead
  /\ ID3v2_write_tag content (Some tag) = Ub UninitRead
  /\ ID3v2_delete_tag content = Ub UninitRead.
Proof.
  intros K E content.
  assert (H : ID3v2_read_tag_header content = Ub UninitRead).
  { unfold content. rewrite app_assoc.
    rewrite (header_file _ rest (Some (cells (lit "ID3" ++ [maj; mn; fl; s3; s2; s1; s0])))).
    - apply (header_extended maj mn fl s3 s2 s1 s0); auto. exists []. now rewrite app_nil_r.
    - reflexivity.
    - exists []. now rewrite app_nil_r. }
  split; [exact H|].
  unfold ID3v2_read_tag, ID3v2_write_tag, ID3v2_write_tag_states, ID3v2_delete_tag, ID3v2_delete_tag_states.
  rewrite H. repeat split.
Qed.
