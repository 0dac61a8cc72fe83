(** Facts about reading arbitrary bytes: what is accepted is exactly what
    SpecRead.v describes. *)
From Verif Require Import File Calls Spec SpecEdit SpecFile SpecRead.
From Verif Require Export ExtFacts.

(** ** What is ahead *)

Lemma ahead_app a b k : ahead (a ++ b) k = cells a ++ ahead b k.
Proof. unfold ahead. now rewrite cells_app, app_assoc. Qed.

Lemma ahead_cons a b k : ahead (a :: b) k = Some a :: ahead b k.
Proof. reflexivity. Qed.

Lemma ahead_nil k : ahead [] k = repeat None k.
Proof. reflexivity. Qed.

Lemma ahead_O l : ahead l 0 = cells l.
Proof. unfold ahead. apply app_nil_r. Qed.

Lemma length_ahead l k : length (ahead l k) = (length l + k)%nat.
Proof. unfold ahead. now rewrite app_length, length_cells, repeat_length. Qed.

Lemma zlen_ahead l k : zlen (ahead l k) = zlen l + Z.of_nat k.
Proof. unfold zlen. rewrite length_ahead. lia. Qed.

Lemma firstn_unknown {A} n (a : A) k : firstn n (repeat a k) = repeat a (Nat.min k n).
Proof. revert k. induction n as [|n IH]; intros [|k]; cbn [firstn repeat Nat.min]; try reflexivity. now rewrite IH. Qed.

Lemma skipn_unknown {A} n (a : A) k : skipn n (repeat a k) = repeat a (k - n).
Proof. revert k. induction n as [|n IH]; intros [|k]; cbn [skipn repeat Nat.sub]; try reflexivity. apply IH. Qed.

Lemma take_ahead n l k : take n (ahead l k) = ahead (firstn (Z.to_nat n) l) (Nat.min k (Z.to_nat n - length l)).
Proof.
  unfold ahead, take. rewrite firstn_app, firstn_unknown, length_cells. unfold cells. now rewrite firstn_map.
Qed.

Lemma drop_ahead n l k : drop n (ahead l k) = ahead (skipn (Z.to_nat n) l) (k - (Z.to_nat n - length l)).
Proof.
  unfold ahead, drop. rewrite skipn_app, skipn_unknown, length_cells. unfold cells. now rewrite skipn_map.
Qed.

(** ** Strings that are cut off *)

Lemma c_strlen_cut l k n :
  forallb (fun c => negb (is_zero c)) l = true -> c_strlen (cells l ++ repeat None k) <> Ok n.
Proof.
  revert n. induction l as [|c l IH]; intros n H E.
  - destruct k; discriminate E.
  - cbn [forallb] in H. apply andb_true_iff in H. destruct H as [H1 H2].
    cbn [cells map app c_strlen] in E. rewrite is_zero_beq in H1.
    destruct (beq c x00); [discriminate H1|]. fold (cells l) in E. binv E. now apply (IH _ H2) in E0.
Qed.

Lemma wstrlen_cut us odd k n :
  forallb (fun u => negb (is_zero (fst u) && is_zero (snd u))) us = true -> (length odd < 2)%nat ->
  wstrlen (cells (flat_map (fun u => [fst u; snd u]) us ++ odd) ++ repeat None k) <> Ok n.
Proof.
  intros H L. revert n. induction us as [|[a b] us IH]; intros n E.
  - destruct odd as [|x [|y odd]]; cbn [length] in L; try lia; cbn [flat_map app cells map] in E.
    + destruct k as [|[|k]]; discriminate E.
    + destruct k as [|k]; [discriminate E|]. cbn [repeat wstrlen] in E.
      destruct (beq x x00); [discriminate E|]. binv E. destruct k as [|[|k]]; discriminate E0.
  - cbn [flat_map fst snd app] in E. rewrite !cells_cons in E. cbn [app] in E. rewrite wstrlen_cons in E.
    cbn [forallb] in H. apply andb_true_iff in H. destruct H as [H1 H2]. cbn [fst snd] in H1.
    apply negb_true_iff in H1. rewrite H1 in E. binv E. now apply (IH H2) in E0.
Qed.

Lemma strlen_cut l k n : unterminated l -> ID3v2_strlen (Some (cells l ++ repeat None k)) <> Ok n.
Proof.
  intros [[Nz Nb]|(be & us & odd & -> & H & L)] E; unfold ID3v2_strlen in E; binv E.
  - destruct l as [|a [|b l]].
    + destruct k; discriminate E0.
    + unfold string_has_bom in E0. cbn [cells map app memcmp_eq] in E0.
      destruct (beq xff a); [destruct k; discriminate E0|]. cbn [bind] in E0.
      destruct (beq xfe a); [destruct k; discriminate E0|]. injection E0 as <-.
      cbn [negb] in E. binv E. now apply (c_strlen_cut [a] k) in E0.
    + rewrite has_bom_cells in E0 by (cbn [length]; lia). rewrite Nb in E0. injection E0 as <-.
      cbn [negb] in E. binv E. now apply c_strlen_cut in E0.
  - cbn [text_bytes] in *. rewrite has_bom_cells in E0.
    2:{ rewrite !app_length. destruct be; cbn [bom_bytes length]; lia. }
    replace (starts_with_bom _) with true in E0.
    2:{ destruct be; reflexivity. }
    injection E0 as <-. cbn [negb] in E. binv E.
    rewrite <- app_assoc, cells_app, <- app_assoc in E0.
    destruct be; cbn [bom_bytes cells map app] in E0;
      fold (cells (flat_map (fun u : byte * byte => [fst u; snd u]) us ++ odd)) in E0;
      rewrite wstrlen_cons in E0; cbn [is_zero] in E0; binv E0; now apply (wstrlen_cut us odd) in E1.
Qed.

(** A string that can be measured is terminated. *)
Lemma strlen_inv l k n : ID3v2_strlen (Some (cells l ++ repeat None k)) = Ok n ->
  exists t junk, text_ok t = true /\ l = text_image t ++ junk.
Proof. intros E. destruct (terminated_or l) as [H|H]; [exact H|now apply strlen_cut in E]. Qed.

Lemma strlent_inv l k n : ID3v2_strlent (Some (ahead l k)) = Ok n ->
  exists t junk, text_ok t = true /\ l = text_image t ++ junk.
Proof. intros E. unfold ID3v2_strlent in E. binv E. binv E. now apply (strlen_inv l k v0). Qed.

Lemma text_new_inv i f l k g : TextFrame_new i f (Some (cells l ++ repeat None k)) = Ok g ->
  exists t junk, text_ok t = true /\ l = text_image t ++ junk.
Proof.
  intros E. unfold TextFrame_new in E. binv E. unfold TextFrameData_new in E0. binv E0. binv E0.
  now apply strlen_inv in E2.
Qed.

(** ** The three kinds in computed form *)

Section Forms.
  Variables (pre : mem) (ver : Z) (id sz fl : list byte).
  Hypothesis Li : length id = 4%nat.
  Hypothesis Ls : length sz = 4%nat.
  Hypothesis Lf : length fl = 2%nat.
  Let hdr : mem := cells id ++ cells sz ++ cells fl.

  Lemma forms_header body : forallb is_zero id = false -> fits pre (hdr ++ body) ->
    FrameHeader_parse (at_pos pre (hdr ++ body)) ver
    = Ok (Some (mkFH (cells id) (declared_size ver sz) (cells fl)), at_pos (pre ++ hdr) body).
  Proof. intros Nz F. unfold hdr in *. rewrite <- !app_assoc in *. now rewrite FrameHeader_parse_ok. Qed.

  Lemma declared_range : - 2 ^ 31 <= declared_size ver sz < 2 ^ 31.
  Proof.
    unfold declared_size. destruct (ver =? 4).
    - pose proof (synchsafe_value_range sz). change (2 ^ 29) with 536870912 in *. change (2 ^ 31) with 2147483648. lia.
    - unfold to_i32. change (2 ^ 31) with 2147483648. change (2 ^ 32) with 4294967296. lia.
  Qed.

  (** A text frame whose declared size covers the encoding byte and more. *)
  Lemma text_form enc r n : id_starts id "T" = true -> fits pre (hdr ++ Some enc :: r) ->
    declared_size ver sz = 1 + n -> 0 < n ->
    Frame_parse (at_pos pre (hdr ++ Some enc :: r)) ver
    = let* f := TextFrame_new (Some (cells id)) (Some (cells fl))
                  (Some (take n r ++ repeat None (Z.to_nat n - length r))) in
      Ok (Some f, at_pos (pre ++ hdr ++ Some enc :: take n r) (drop n r)).
  Proof.
    intros HT F Hs N.
    assert (Nz : forallb is_zero id = false) by (apply (starts_nonzero _ "T"); auto; discriminate).
    unfold hdr in F |- *. rewrite Frame_parse_dispatch by auto. rewrite HT. fold hdr in F |- *.
    unfold TextFrame_parse. rewrite forms_header by auto. go.
    change (Some enc :: r) with ([Some enc] ++ r). change (Some enc :: r) with ([Some enc] ++ r) in F.
    rewrite seek_fwd_at; [|fit|reflexivity]. go. cbn [deref fh_size fh_id fh_flags]. go.
    pose proof declared_range. change ID3v2_FRAME_ENCODING_LENGTH with 1. rewrite Hs in *.
    rewrite isub_ok by lia. go. replace (1 + n - 1) with n by lia. unfold vla. ifF. go.
    rewrite read_into_gen; [|fit|lia]. go.
    destruct (TextFrame_new _ _ _); try reflexivity. go. do 3 f_equal.
    rewrite <- !app_assoc. reflexivity.
  Qed.

  Lemma comment_inv enc b k res : id_starts id "C" = true -> fits pre (hdr ++ ahead (enc :: b) k) ->
    Frame_parse (at_pos pre (hdr ++ ahead (enc :: b) k)) ver = Ok res ->
    exists lang d c rest, b = lang ++ text_image d ++ text_image c ++ rest
      /\ length lang = 3%nat /\ text_ok d = true /\ text_ok c = true.
  Proof.
    intros HC F E.
    assert (Nz : forallb is_zero id = false) by (apply (starts_nonzero _ "C"); auto; discriminate).
    unfold hdr in F, E. rewrite Frame_parse_dispatch in E by auto. fold hdr in F, E.
    rewrite (starts_excl id "C" "T") in E by (auto; discriminate). rewrite HC in E.
    binv E. clear E. destruct v as [f cs]. unfold CommentFrame_parse in E0.
    rewrite forms_header in E0 by auto. cbn [bind] in E0.
    rewrite ahead_cons in E0, F. change (Some enc :: ahead b k) with ([Some enc] ++ ahead b k) in E0, F.
    rewrite seek_fwd_at in E0; [|fit|reflexivity]. cbn [bind] in E0.
    change ID3v2_COMMENT_FRAME_LANGUAGE_LENGTH with 3 in E0.
    rewrite read_into_gen in E0; [|fit|lia]. cbn [bind] in E0.
    rewrite drop_ahead in E0. change (Z.to_nat 3) with 3%nat in E0.
    rewrite get_cur_at in E0. binv E0. pose proof E as S0. apply strlent_inv in E. destruct E as (d & b1 & Hd & E).
    assert (Bb : zlen b + Z.of_nat k < 2 ^ 31 /\ zlen pre + zlen hdr + 1 + zlen b + Z.of_nat k < 2 ^ 31).
    { unfold fits in F. rewrite !zlen_app, zlen_ahead in F. pose proof (zlen_nonneg pre). pose proof (zlen_nonneg hdr).
      change (zlen [Some enc]) with 1 in F. lia. }
    assert (L3 : (3 <= length b)%nat).
    { destruct (Nat.le_gt_cases 3 (length b)) as [|C]; [assumption|exfalso].
      rewrite skipn_all2 in E by lia. pose proof (text_image_pos d). symmetry in E. apply app_eq_nil in E.
      destruct E as [E _]. rewrite E in H. change (zlen (@nil byte)) with 0 in H. lia. }
    replace (k - (3 - length b))%nat with k in * by lia.
    assert (Z1 : zlen b = 3 + zlen (skipn 3 b)) by (unfold zlen; rewrite skipn_length; lia).
    rewrite E in Z1. rewrite zlen_app in Z1. pose proof (zlen_nonneg b1).
    binv E0.
    assert (V : v = zlen (text_image d)).
    { revert S0. rewrite E, ahead_app, strlent_text by (auto; lia). congruence. }
    subst v. rewrite E, ahead_app in E0.
    rewrite read_into_at in E0; [| |now rewrite zlen_cells].
    2:{ assert (Z3 : zlen (firstn 3 b) = 3) by (unfold zlen; rewrite firstn_length; lia).
        unfold fits. rewrite take_ahead, !zlen_app, !zlen_ahead, zlen_cells.
        change (zlen [Some enc]) with 1. change (Z.to_nat 3) with 3%nat. rewrite Z3. lia. }
    cbn [bind] in E0. rewrite get_cur_at in E0. binv E0. apply strlent_inv in E2.
    destruct E2 as (c & rest & Hc & ->).
    exists (firstn 3 b), d, c, rest. split; [|split; [|auto]].
    - rewrite <- E. symmetry. apply firstn_skipn.
    - rewrite firstn_length. lia.
  Qed.

  Lemma picture_new_any m ty d n (data : mem) :
    text_ok m = true -> text_ok d = true -> 0 <= n -> zlen data = n ->
    2 + zlen (text_image m) + zlen (text_image d) + n < 2 ^ 31 ->
    ApicFrame_new (Some (cells fl)) (Some (cells (text_image d))) ty (Some (cells (text_image m))) n (Some data)
    = Ok (mkFrame (mkFH (cells (lit "APIC")) (2 + zlen (text_image m) + zlen (text_image d) + n) (cells fl))
                  (DApic (mkAD (text_encoding d) (cells (text_image m)) ty (cells (text_image d)) data n))).
  Proof.
    intros Hm Hd N Ld B. pose proof (text_image_pos d). pose proof (text_image_pos m).
    unfold ApicFrame_new, ApicFrameData_new.
    rewrite <- (app_nil_r (cells (text_image d))), <- (app_nil_r (cells (text_image m))), <- (app_nil_r data), <- (app_nil_r (cells fl)).
    rewrite has_bom_text by auto. go. rewrite encoding_text.
    rewrite !strlent_text by (auto; lia). go.
    rewrite !memcpy_from_app by (rewrite ?zlen_cells; auto). go. cbn [ad_picture_size].
    change ID3v2_FRAME_ENCODING_LENGTH with 1. change ID3v2_APIC_FRAME_PICTURE_TYPE_LENGTH with 1.
    rewrite iadd_ok by lia. go. rewrite iadd_ok by lia. go. rewrite iadd_ok by lia. go.
    rewrite iadd_ok by lia. go.
    change ID3v2_ALBUM_COVER_FRAME_ID with (Some (cells (lit "APIC") ++ [Some x00])).
    rewrite FrameHeader_new_ok by auto. go. rewrite !app_nil_r. do 3 f_equal. lia.
  Qed.

  Lemma picture_form enc m ty d r n : id_starts id "A" = true -> text_ok m = true -> text_ok d = true ->
    fits pre (hdr ++ cells ([enc] ++ text_image m ++ [ty] ++ text_image d) ++ r) ->
    declared_size ver sz = 2 + zlen (text_image m) + zlen (text_image d) + n -> 0 < n ->
    Frame_parse (at_pos pre (hdr ++ cells ([enc] ++ text_image m ++ [ty] ++ text_image d) ++ r)) ver
    = Ok (Some (mkFrame (mkFH (cells (lit "APIC")) (declared_size ver sz) (cells fl))
                  (DApic (mkAD (text_encoding d) (cells (text_image m)) ty (cells (text_image d))
                               (take n r ++ repeat None (Z.to_nat n - length r)) n))),
          at_pos (pre ++ hdr ++ cells ([enc] ++ text_image m ++ [ty] ++ text_image d) ++ take n r) (drop n r)).
  Proof.
    intros HA Hm Hd F Hs N.
    assert (Nz : forallb is_zero id = false) by (apply (starts_nonzero _ "A"); auto; discriminate).
    unfold hdr in F |- *. rewrite Frame_parse_dispatch by auto. fold hdr in F |- *.
    rewrite (starts_excl id "A" "T"), (starts_excl id "A" "C") by (auto; discriminate). rewrite HA.
    unfold ApicFrame_parse. rewrite forms_header by auto. go.
    pose proof declared_range as Rg.
    pose proof (text_image_pos d). pose proof (text_image_pos m).
    rewrite !cells_app, <- !app_assoc. rewrite !cells_app, <- !app_assoc in F.
    rewrite seek_fwd_at; [|fit|reflexivity]. go.
    rewrite get_cur_at, strlent_text by (auto; lia). go.
    unfold vla at 1. ifF. go.
    rewrite read_into_at; [|fit|now rewrite zlen_cells]. go.
    change (cells [ty] ++ cells (text_image d) ++ r)
      with (Some ty :: (cells (text_image d) ++ r)).
    rewrite getc_at. go. rewrite zb_schar.
    rewrite get_cur_at, strlent_text by (auto; lia). go.
    unfold vla at 1. ifF. go.
    rewrite read_into_at; [|fit|now rewrite zlen_cells]. go.
    cbn [deref fh_flags fh_size]. go. rewrite Hs in *.
    change ID3v2_FRAME_ENCODING_LENGTH with 1. change ID3v2_APIC_FRAME_PICTURE_TYPE_LENGTH with 1.
    rewrite isub_ok by lia. go. rewrite isub_ok by lia. go. rewrite isub_ok by lia. go.
    rewrite isub_ok by lia. go.
    match goal with |- context [vla ?k] => replace k with n by lia end.
    unfold vla. ifF. go.
    rewrite read_into_gen; [|fit|lia]. go.
    rewrite picture_new_any; auto; try lia.
    - go. do 3 f_equal. now rewrite <- !app_assoc.
    - unfold take, zlen. rewrite app_length, firstn_length, repeat_length. lia.
  Qed.

  Lemma picture_inv enc b k res : id_starts id "A" = true -> fits pre (hdr ++ ahead (enc :: b) k) ->
    Frame_parse (at_pos pre (hdr ++ ahead (enc :: b) k)) ver = Ok res ->
    exists m ty d r, b = text_image m ++ [ty] ++ text_image d ++ r
      /\ text_ok m = true /\ text_ok d = true
      /\ 0 < declared_size ver sz - 2 - zlen (text_image m) - zlen (text_image d).
  Proof.
    intros HA F E.
    assert (Nz : forallb is_zero id = false) by (apply (starts_nonzero _ "A"); auto; discriminate).
    unfold hdr in F, E. rewrite Frame_parse_dispatch in E by auto. fold hdr in F, E.
    rewrite (starts_excl id "A" "T"), (starts_excl id "A" "C") in E by (auto; discriminate). rewrite HA in E.
    binv E. clear E. destruct v as [f cs]. unfold ApicFrame_parse in E0.
    rewrite forms_header in E0 by auto. cbn [bind] in E0.
    assert (Bb : zlen b + Z.of_nat k < 2 ^ 31).
    { unfold fits in F. rewrite !zlen_app, zlen_ahead, zlen_cons in F. pose proof (zlen_nonneg pre). pose proof (zlen_nonneg hdr). lia. }
    rewrite ahead_cons in E0, F. change (Some enc :: ahead b k) with ([Some enc] ++ ahead b k) in E0, F.
    rewrite seek_fwd_at in E0; [|fit|reflexivity]. cbn [bind] in E0.
    rewrite get_cur_at in E0. binv E0. pose proof E as S0. apply strlent_inv in E. destruct E as (m & b1 & Hm & ->).
    rewrite zlen_app in Bb. pose proof (zlen_nonneg b1). pose proof (text_image_pos m).
    assert (v = zlen (text_image m)) as ->.
    { revert S0. rewrite ahead_app, strlent_text by (auto; lia). congruence. }
    clear S0. binv E0. rewrite ahead_app in E0, F.
    rewrite read_into_at in E0; [|fit|now rewrite zlen_cells]. cbn [bind] in E0.
    rewrite getc_gen in E0. destruct b1 as [|ty b1].
    { rewrite ahead_nil in E0. destruct k; [|discriminate E0]. cbn [repeat bind] in E0. rewrite get_cur_at in E0. binv E0. discriminate E1. }
    rewrite ahead_cons in E0, F. cbn [bind] in E0. rewrite zlen_cons in Bb.
    change (Some ty :: ahead b1 k) with ([Some ty] ++ ahead b1 k) in F.
    rewrite get_cur_at in E0. binv E0. pose proof E1 as S0. apply strlent_inv in E1. destruct E1 as (d & r & Hd & ->).
    rewrite zlen_app in Bb. pose proof (zlen_nonneg r). pose proof (text_image_pos d).
    assert (v0 = zlen (text_image d)) as ->.
    { revert S0. rewrite ahead_app, strlent_text by (auto; lia). congruence. }
    clear S0. binv E0. rewrite ahead_app in E0, F.
    rewrite read_into_at in E0; [|fit|now rewrite zlen_cells]. cbn [bind deref fh_size fh_flags] in E0.
    exists m, ty, d, r. split; [reflexivity|]. split; [auto|]. split; [auto|].
    binv E0. binv E0. binv E0. binv E0. binv E0. apply vla_pos in E6.
    unfold isub in *. apply chk_int_inv in E2, E3, E4, E5.
    change ID3v2_FRAME_ENCODING_LENGTH with 1 in *. change ID3v2_APIC_FRAME_PICTURE_TYPE_LENGTH with 1 in *. lia.
  Qed.
End Forms.

(** ** Single frames *)

Lemma cut_read body gap rest k n : cut_off gap rest -> n = zlen body + Z.of_nat gap ->
  take n (ahead (body ++ rest) k) = ahead body (Nat.min gap k)
  /\ drop n (ahead (body ++ rest) k) = ahead rest (k - gap)
  /\ take n (ahead (body ++ rest) k) ++ repeat None (Z.to_nat n - length (ahead (body ++ rest) k)) = cells body ++ repeat None gap.
Proof.
  intros C ->. rewrite take_ahead, drop_ahead, length_ahead, app_length.
  unfold zlen. replace (Z.to_nat (Z.of_nat (length body) + Z.of_nat gap)) with (length body + gap)%nat by lia.
  destruct C as [-> | ->].
  - rewrite Nat.add_0_r, firstn_app_exact, skipn_app_exact by reflexivity.
    replace (Nat.min k _) with 0%nat by lia. replace (_ - (length body + _ + k))%nat with 0%nat by lia.
    replace (k - _)%nat with (k - 0)%nat by lia. cbn [Nat.min repeat]. rewrite ahead_O, app_nil_r. auto.
  - rewrite app_nil_r. cbn [length]. rewrite firstn_all2, skipn_all2 by lia.
    replace (Nat.min k _) with (Nat.min gap k) by lia. split; [reflexivity|]. split; [f_equal; lia|].
    unfold ahead. rewrite <- app_assoc, <- repeat_app. do 2 f_equal. lia.
Qed.

(** Rewrite up to conversion. *)
Ltac rwr E :=
  match type of E with ?l = ?r =>
    match goal with |- context [take ?a ?b ++ ?c] => change (take a b ++ c) with l; rewrite E end
  end.

Lemma other_short pre id sz l k ver :
  length id = 4%nat -> length sz = 4%nat ->
  id_starts id "T" = false -> id_starts id "C" = false -> id_starts id "A" = false ->
  forallb is_zero id = false -> (length l < 2)%nat -> fits pre (cells (id ++ sz) ++ ahead l k) ->
  let n := declared_size ver sz in
  Frame_parse (at_pos pre (cells (id ++ sz) ++ ahead l k)) ver
  = if n <? 0 then Ub BadSize
    else Ok (Some (mkFrame (mkFH (cells id) n (cells l ++ repeat None (2 - length l))) (DRaw (repeat None (Z.to_nat n)))),
             at_pos (pre ++ cells (id ++ sz ++ l) ++ repeat None (Nat.min (2 - length l + Z.to_nat n) k))
                    (repeat None (k - (2 - length l + Z.to_nat n)))).
Proof.
  intros Li Ls H1 H2 H3 Nz L F n.
  assert (Z4 : zlen id = 4 /\ zlen sz = 4) by (unfold zlen; rewrite Li, Ls; auto).
  unfold Frame_parse, FrameHeader_parse. rewrite !cells_app, <- !app_assoc in *.
  rewrite read_into_at; [|auto|rewrite zlen_cells; now rewrite (proj1 Z4)]. go.
  assert (M : memcmp_eq [x00; x00; x00; x00] (cells id) = Ok false).
  { rewrite <- (app_nil_r (cells id)). apply memcmp_eq_neq; [now rewrite Li|].
    intros <-. discriminate Nz. }
  rewrite M. go.
  rewrite slice_at; [|fit|rewrite zlen_cells; now rewrite (proj2 Z4)]. go.
  change ID3v2_FRAME_HEADER_SIZE_LENGTH with 4. rewrite btoi_spec by (now rewrite (proj2 Z4)). go.
  change ID3v2_FRAME_HEADER_FLAGS_LENGTH with 2. rewrite read_into_gen; [|fit|lia]. go.
  destruct (cut_read l (2 - length l) [] k 2) as (C1 & C2 & C3); [now right|unfold zlen; lia|].
  rewrite app_nil_r in C1, C2, C3. rwr C3. rewrite C2, C1.
  unfold FrameHeader_new. rewrite memcpy_from_all by (rewrite zlen_cells; now rewrite (proj1 Z4)). go.
  rewrite memcpy_from_all.
  2:{ unfold zlen. rewrite app_length, length_cells, repeat_length. change ID3v2_FRAME_HEADER_FLAGS_LENGTH with 2. lia. }
  go. unfold FrameHeader_isTextFrame, FrameHeader_isCommentFrame, FrameHeader_isApicFrame.
  rewrite !(id0_is_cells _ id) by (auto; now apply (len_nonnil _ 3)). go. rewrite H1, H2, H3.
  set (sz' := if ver =? 4 then _ else _).
  assert (Sz : sz' = n).
  { unfold sz', n, declared_size. destruct (ver =? 4).
    - change (be_value sz mod 2 ^ 32) with (to_u32 (be_value sz)). rewrite decode_be_value by auto.
      pose proof (synchsafe_value_range sz). apply to_i32_id. lia.
    - f_equal. pose proof (be_value_range4 sz Ls). apply Z.mod_small. lia. }
  cbn [fh_size]. rewrite Sz. destruct (n <? 0) eqn:Nn; [reflexivity|].
  rewrite read_into_gen; [| |lia].
  2:{ unfold fits in *. rewrite !zlen_app, !zlen_ahead in *. change (zlen (@nil byte)) with 0. lia. }
  go. destruct (cut_read [] (Z.to_nat n) [] (k - (2 - length l)) n) as (D1 & D2 & D3); [now right|change (zlen (@nil byte)) with 0; lia|].
  cbn [app cells map] in D1, D2, D3. rewrite D3, D2, D1.
  match goal with |- Ok (_, at_pos ?a ?b) = Ok (_, at_pos ?c ?d) => replace a with c; [replace b with d; [reflexivity|]|] end.
  - unfold ahead. cbn [cells map app]. f_equal. lia.
  - unfold ahead. cbn [cells map app]. rewrite <- ?app_assoc. do 4 f_equal. rewrite <- repeat_app. f_equal. lia.
Qed.

Lemma frame_read_complete ver used gap rest r pre k :
  frame_read ver used gap rest r -> fits pre (ahead (used ++ rest) k) ->
  Frame_parse (at_pos pre (ahead (used ++ rest) k)) ver
  = Ok (r, at_pos (pre ++ ahead used (Nat.min gap k)) (ahead rest (k - gap))).
Proof.
  intros H F. inversion H; subst; clear H.
  - rewrite Nat.sub_0_r. cbn [Nat.min app] in *. unfold Frame_parse.
    change (ahead (x00 :: x00 :: x00 :: x00 :: rest0) k) with (cells [x00; x00; x00; x00] ++ ahead rest0 k) in *.
    rewrite FrameHeader_parse_padding by auto. go. now rewrite ahead_O, app_nil_r.
  - destruct (cut_read (text_image t ++ junk) gap rest k (zlen (text_image t ++ junk) + Z.of_nat gap) ltac:(auto) eq_refl) as (C1 & C2 & C3).
    pose proof (text_image_pos t). pose proof (zlen_nonneg junk). pose proof (zlen_nonneg rest). pose proof (zlen_nonneg pre).
    assert (Zi : zlen id = 4) by (unfold zlen; now rewrite H0).
    assert (Zs : zlen size = 4) by (unfold zlen; now rewrite H1).
    assert (Zf : zlen flags = 2) by (unfold zlen; now rewrite H2).
    assert (Eq : ahead ((id ++ size ++ flags ++ [enc] ++ text_image t ++ junk) ++ rest) k
      = (cells id ++ cells size ++ cells flags) ++ Some enc :: ahead ((text_image t ++ junk) ++ rest) k).
    { rewrite <- ?app_assoc. rewrite !ahead_app. rewrite <- ?app_assoc. reflexivity. }
    rewrite Eq in *.
    rewrite (text_form pre ver id size flags H0 H1 H2 enc _ (zlen (text_image t ++ junk) + Z.of_nat gap));
      auto; [|lia|rewrite zlen_app; lia].
    rwr C3. rewrite C2, C1. rewrite cells_app, <- app_assoc.
    rewrite <- (app_nil_r (cells id)) at 1. rewrite <- (app_nil_r (cells flags)) at 1.
    rewrite TextFrame_new_ok.
    + go. do 2 f_equal. rewrite !ahead_app. rewrite <- ?app_assoc. reflexivity.
    + unfold frame_ok. cbn [frame_id frame_flags]. rewrite body_size_text.
      unfold len_is. rewrite H0, H2, H3, H4. cbn [Nat.eqb andb].
      unfold fits in F. rewrite !zlen_app, !zlen_cells, zlen_cons, zlen_ahead, !zlen_app in F.
      replace (1 + zlen (text_image t) + 10 <? 2 ^ 31) with true by lia. reflexivity.
  - assert (Eq : ahead ((id ++ size ++ flags ++ [enc] ++ lang ++ text_image d ++ text_image c) ++ rest) k
      = (cells id ++ cells size ++ cells flags) ++ cells ([enc] ++ lang ++ text_image d ++ text_image c) ++ ahead rest k).
    { rewrite !ahead_app, !cells_app. rewrite <- ?app_assoc. reflexivity. }
    rewrite Eq in *. rewrite parse_comment by auto. rewrite Nat.sub_0_r. cbn [Nat.min].
    do 2 f_equal. rewrite ahead_O, !cells_app. rewrite <- ?app_assoc. reflexivity.
  - destruct (cut_read pic gap rest k n ltac:(auto) eq_refl) as (C1 & C2 & C3).
    assert (Eq : ahead ((id ++ size ++ flags ++ [enc] ++ text_image m ++ [ty] ++ text_image d ++ pic) ++ rest) k
      = (cells id ++ cells size ++ cells flags) ++ cells ([enc] ++ text_image m ++ [ty] ++ text_image d) ++ ahead (pic ++ rest) k).
    { rewrite <- ?app_assoc. rewrite !ahead_app, !cells_app. rewrite <- ?app_assoc. reflexivity. }
    rewrite Eq in *.
    rewrite (picture_form pre ver id size flags H0 H1 H2 enc m ty d _ n) by auto.
    rwr C3. rewrite C2, C1. do 2 f_equal. rewrite !ahead_app, !cells_app. rewrite <- ?app_assoc. reflexivity.
  - assert (Eq : ahead ((id ++ size ++ flags ++ body) ++ rest) k = (cells id ++ cells size ++ cells flags) ++ ahead (body ++ rest) k).
    { rewrite <- ?app_assoc. rewrite !ahead_app. rewrite <- ?app_assoc. reflexivity. }
    rewrite Eq in *. pose proof (zlen_nonneg body).
    rewrite Frame_parse_dispatch by auto. rewrite H3, H4, H5.
    replace (declared_size ver size <? 0) with false by lia.
    destruct (cut_read body gap rest k (declared_size ver size) ltac:(auto) ltac:(auto)) as (C1 & C2 & C3).
    rewrite read_into_gen; [| |lia].
    2:{ unfold fits in *. rewrite !zlen_app in *. lia. }
    go. rwr C3. rewrite C2, C1. do 2 f_equal. rewrite !ahead_app. rewrite <- ?app_assoc. reflexivity.
  - assert (Eq : ahead ((id ++ size ++ flags) ++ []) k = cells (id ++ size) ++ ahead flags k).
    { rewrite app_nil_r, !ahead_app, cells_app. now rewrite <- ?app_assoc. }
    rewrite Eq in *. rewrite other_short by auto. replace (declared_size ver size <? 0) with false by lia.
    replace (Z.to_nat (declared_size ver size)) with gap0 by lia. unfold ahead. cbn [cells map app]. reflexivity.
Qed.

Lemma split_at {A} n (l : list A) : (n <= length l)%nat -> exists a b, l = a ++ b /\ length a = n.
Proof.
  intros H. exists (firstn n l), (skipn n l). split; [symmetry; apply firstn_skipn|]. rewrite firstn_length. lia.
Qed.

(** Taking [n] bytes of what is there. *)
Lemma cut_split n (l : list byte) : 0 <= n ->
  exists body rest missing, l = body ++ rest /\ n = zlen body + Z.of_nat missing /\ cut_off missing rest.
Proof.
  intros H. exists (firstn (Z.to_nat n) l), (skipn (Z.to_nat n) l), (Z.to_nat n - length l)%nat.
  split; [symmetry; apply firstn_skipn|]. split.
  - unfold zlen. rewrite firstn_length. lia.
  - destruct (Nat.le_gt_cases (Z.to_nat n) (length l)); [left; lia|right; apply skipn_all2; lia].
Qed.

Lemma first_letter id c : length id = 4%nat -> id_starts id c = true -> exists r, id = c :: r.
Proof.
  intros L H. destruct id as [|x r]; [discriminate L|]. cbn [id_starts] in H. change Byte.eqb with beq in H.
  apply beq_true in H. subst x. now exists r.
Qed.

(** ** Frames that are known no further than their header *)

Lemma btoi_known (m : mem) n : btoi m 4 = Ok n -> zlen m = 4 -> exists s, m = cells s.
Proof.
  intros E L. unfold zlen in L. destruct m as [|a [|b [|c [|d [|? ?]]]]]; cbn [length] in L; try lia.
  unfold btoi in E. change (Z.to_nat 4) with 4%nat in E. cbn [btoi_loop] in E.
  destruct a as [a|]; [|discriminate E]. destruct b as [b|]; [|discriminate E].
  destruct c as [c|]; [|discriminate E]. destruct d as [d|]; [|discriminate E].
  now exists [a; b; c; d].
Qed.

Lemma ahead_known l k (a : mem) s c : ahead l k = a ++ cells s ++ c -> s <> [] -> (length a + length s <= length l)%nat.
Proof.
  intros E N. destruct (Nat.le_gt_cases (length a + length s) (length l)) as [|C]; [assumption|exfalso].
  destruct (exists_last N) as (s' & x & ->).
  assert (Q : nth_error (ahead l k) (length a + length s') = Some (Some x)).
  { rewrite E, nth_error_app2 by lia. replace (length a + length s' - length a)%nat with (length s') by lia.
    rewrite cells_app, <- app_assoc, nth_error_app2 by (rewrite length_cells; lia).
    now rewrite length_cells, Nat.sub_diag. }
  rewrite app_length in C. cbn [length] in C. unfold ahead in Q.
  rewrite nth_error_app2 in Q by (rewrite length_cells; lia).
  apply nth_error_In, repeat_spec in Q. discriminate Q.
Qed.

Lemma header_cut pre l k ver res :
  fits pre (ahead l k) -> (length l < 8)%nat -> firstn 4 l <> [x00; x00; x00; x00] ->
  FrameHeader_parse (at_pos pre (ahead l k)) ver <> Ok res.
Proof.
  intros F L N E. destruct res as [[h|] cs].
  - apply header_parse_some in E; auto. destruct E as (i & s & c & n & Er & Li & Ls & B & _).
    destruct (btoi_known s n B Ls) as (s' & ->). apply ahead_known in Er.
    + rewrite zlen_cells in Ls. unfold zlen in *. lia.
    + intros ->. discriminate Ls.
  - apply header_parse_none in E; auto. destruct E as (_ & t & Er).
    pose proof Er as Er'. apply (ahead_known l k [] [x00; x00; x00; x00]) in Er'; [|discriminate]. cbn [length] in Er'.
    apply N. destruct l as [|a [|b [|c [|d l]]]]; cbn [length] in Er'; try lia.
    unfold ahead in Er. cbn [cells map app] in Er. injection Er as -> -> -> -> _. reflexivity.
Qed.

Lemma seek_one p r cs : fits p r ->
  CharStream_seek (at_pos p r) ID3v2_FRAME_ENCODING_LENGTH SEEK_CUR = Ok cs ->
  exists p', cs = at_pos p' (drop 1 r) /\ fits p' (drop 1 r).
Proof.
  intros F E. destruct r as [|x r].
  - apply seek_end_inv in E. subst cs. exists p. rewrite drop_nil. auto.
  - change (x :: r) with ([x] ++ r) in *. rewrite seek_fwd_at in E; [|auto|reflexivity]. injection E as <-.
    exists (p ++ [x]). rewrite drop_app_exact by reflexivity. split; [reflexivity|now apply fits_app].
Qed.

Lemma strlent_unknown k n : ID3v2_strlent (Some (repeat None k)) <> Ok n.
Proof.
  intros E. apply (strlent_inv [] k) in E. destruct E as (t & junk & _ & E). pose proof (text_image_pos t) as P.
  symmetry in E. apply app_eq_nil in E. destruct E as [E _]. rewrite E in P. change (zlen (@nil byte)) with 0 in P. lia.
Qed.

Section Blank.
  Variables (p r : mem) (ver : Z) (j : nat).
  Hypothesis F : fits p r.
  Hypothesis B : drop 11 r = repeat None j.

  Lemma header_then_one h cs cs' : FrameHeader_parse (at_pos p r) ver = Ok (Some h, cs) ->
    CharStream_seek cs ID3v2_FRAME_ENCODING_LENGTH SEEK_CUR = Ok cs' ->
    exists p', cs' = at_pos p' (repeat None j) /\ fits p' (repeat None j).
  Proof.
    intros E E'. apply header_parse_some in E; auto. destruct E as (i & s & c & n & Er & Li & Ls & _ & _ & -> & _).
    apply seek_one in E'.
    2:{ unfold fits in *. rewrite Er in F. rewrite <- (take_drop 2 c) in F. rewrite !zlen_app in *. lia. }
    assert (D : drop 1 (drop 2 c) = repeat None j).
    { rewrite <- B, Er. unfold drop. unfold zlen in *. change (Z.to_nat 1) with 1%nat. change (Z.to_nat 2) with 2%nat.
      change (Z.to_nat 11) with (3 + (4 + 4))%nat.
      assert (Q : skipn (3 + (4 + 4)) (i ++ s ++ c) = skipn 3 c).
      { rewrite !skipn_app, skipn_all2 by lia. rewrite skipn_all2 by lia. cbn [app]. f_equal. lia. }
      rewrite Q. destruct c as [|? [|? [|? ?]]]; reflexivity. }
    rewrite D in E'. exact E'.
  Qed.

  Lemma text_blank res : TextFrame_parse (at_pos p r) ver <> Ok res.
  Proof.
    intros E. unfold TextFrame_parse in E. binv E. destruct v as [[h|] cs].
    - binv E. destruct (header_then_one h cs v E0 E1) as (p' & -> & F').
      cbn [deref bind] in E. binv E. binv E. apply vla_pos in E3. binv E. destruct v1 as [t cs1].
      rewrite read_into_gen in E4 by (auto; lia). injection E4 as <- _. binv E.
      unfold take in E4. rewrite firstn_unknown, <- repeat_app in E4.
      apply (text_new_inv _ _ [] _) in E4. destruct E4 as (t & junk & _ & Q). pose proof (text_image_pos t) as P.
      symmetry in Q. apply app_eq_nil in Q. destruct Q as [Q _]. rewrite Q in P. change (zlen (@nil byte)) with 0 in P. lia.
    - binv E. discriminate E.
  Qed.

  Lemma comment_blank res : CommentFrame_parse (at_pos p r) ver <> Ok res.
  Proof.
    intros E. unfold CommentFrame_parse in E. binv E. destruct v as [[h|] cs].
    - binv E. destruct (header_then_one h cs v E0 E1) as (p' & -> & F').
      change ID3v2_COMMENT_FRAME_LANGUAGE_LENGTH with 3 in E. rewrite read_into_gen in E by (auto; lia). cbn [bind] in E.
      rewrite get_cur_at in E. binv E. unfold drop in E2. rewrite skipn_unknown in E2. now apply strlent_unknown in E2.
    - binv E. binv E. destruct v0. binv E. binv E. binv E. destruct v2. binv E. binv E. binv E. destruct v4.
      discriminate E.
  Qed.

  Lemma apic_blank res : ApicFrame_parse (at_pos p r) ver <> Ok res.
  Proof.
    intros E. unfold ApicFrame_parse in E. binv E. destruct v as [[h|] cs].
    - binv E. destruct (header_then_one h cs v E0 E1) as (p' & -> & F').
      rewrite get_cur_at in E. binv E. now apply strlent_unknown in E2.
    - binv E. binv E. binv E. binv E. destruct v2. binv E. destruct v2. binv E. binv E. binv E. destruct v4. discriminate E.
  Qed.
End Blank.

Lemma drop_long (m : mem) n : zlen m <= n -> drop n m = repeat None 0.
Proof. intros H. unfold drop. cbn [repeat]. apply zlen_0. change (skipn (Z.to_nat n) m) with (drop n m). pose proof (zlen_nonneg m). rewrite zlen_drop; lia. Qed.

(** A frame of one of the three kinds, of which at most the header is known. *)
Lemma known_blank pre (c : byte) l k ver res :
  fits pre (ahead (c :: l) k) -> (length l < 10)%nat ->
  c = "T"%byte \/ c = "C"%byte \/ c = "A"%byte ->
  Frame_parse (at_pos pre (ahead (c :: l) k)) ver <> Ok res.
Proof.
  intros F L K E. unfold Frame_parse in E. binv E. destruct v as [[h|] cs1].
  2:{ apply header_parse_none in E0; auto. destruct E0 as [_ (t & E1)]. rewrite ahead_cons in E1. injection E1 as -> _.
      destruct K as [K|[K|K]]; discriminate K. }
  apply header_parse_some in E0; auto.
  destruct E0 as (i & s & d & n & Er & Li & Ls & _ & Hh & -> & _).
  destruct (rewind pre i s d) as (p' & r' & R & F' & Cs); auto.
  { now rewrite <- Er. }
  assert (Lr : exists j, drop 11 r' = repeat None j).
  { destruct Cs as [C|[_ ->]].
    - exists 0%nat. apply drop_long. lia.
    - rewrite <- Er, drop_ahead. change (Z.to_nat 11) with 11%nat. rewrite skipn_all2 by (cbn [length]; lia). eexists. reflexivity. }
  destruct Lr as (j & Lr). rewrite ahead_cons in Er.
  subst h. unfold FrameHeader_isTextFrame, FrameHeader_isCommentFrame, FrameHeader_isApicFrame, id0_is in E.
  cbn [fh_id bind] in E. rewrite R in E. destruct i as [|i0 i]; [discriminate Li|]. injection Er as <- Er. cbn [bind] in E.
  destruct K as [-> | [-> | ->]]; cbn [beq Byte.eqb] in E.
  - change (beq "T" "T") with true in E. cbv iota in E. binv E. now apply (text_blank p' r' ver j) in E0.
  - change (beq "C" "T") with false in E. change (beq "C" "C") with true in E. cbv iota in E. binv E.
    now apply (comment_blank p' r' ver j) in E0.
  - change (beq "A" "T") with false in E. change (beq "A" "C") with false in E. change (beq "A" "A") with true in E. cbv iota in E. binv E.
    now apply (apic_blank p' r' ver j) in E0.
Qed.

Lemma frame_read_found ver l k pre res :
  fits pre (ahead l k) -> Frame_parse (at_pos pre (ahead l k)) ver = Ok res ->
  exists used gap rest r, l = used ++ rest /\ frame_read ver used gap rest r.
Proof.
  intros F E.
  destruct (list_eq_dec Byte.byte_eq_dec (firstn 4 l) [x00; x00; x00; x00]) as [Z|Nz].
  { exists [], 0%nat, l, None. split; [reflexivity|]. rewrite <- (firstn_skipn 4 l), Z. constructor. }
  destruct (Nat.lt_ge_cases (length l) 8) as [L|L].
  { exfalso. unfold Frame_parse in E. binv E. now apply header_cut in E0. }
  destruct (split_at 4 l ltac:(lia)) as (id & l1 & -> & Li). rewrite app_length in L.
  destruct (split_at 4 l1 ltac:(lia)) as (size & l2 & -> & Ls). rewrite app_length in L.
  rewrite firstn_app_exact in Nz by auto.
  assert (Nz' : forallb is_zero id = false).
  { destruct (forallb is_zero id) eqn:A; [|reflexivity]. now apply is_zero_all in A. }
  destruct (id_starts id "T" || id_starts id "C" || id_starts id "A") eqn:K.
  - destruct (Nat.lt_ge_cases (length l2) 3) as [L2|L2].
    { exfalso. assert (C : exists c r, id = c :: r /\ (c = "T" \/ c = "C" \/ c = "A")%byte).
      { apply orb_true_iff in K. destruct K as [K|K]; [apply orb_true_iff in K; destruct K as [K|K]|];
          apply first_letter in K; auto; destruct K as (r & ->); eauto 6. }
      destruct C as (c & r & -> & C). cbn [app] in F, E.
      eapply known_blank; [exact F| |exact C|exact E]. cbn [length] in Li. rewrite !app_length. lia. }
    destruct (split_at 2 l2 ltac:(lia)) as (flags & l3 & -> & Lf). rewrite app_length in L2.
    assert (Eq : ahead (id ++ size ++ flags ++ l3) k = (cells id ++ cells size ++ cells flags) ++ ahead l3 k).
    { rewrite !ahead_app. now rewrite <- ?app_assoc. }
    rewrite Eq in *.
    destruct l3 as [|enc l3]; [cbn [length] in L2; lia|].
    destruct (id_starts id "T") eqn:HT; [|destruct (id_starts id "C") eqn:HC; [|destruct (id_starts id "A") eqn:HA; [|discriminate K]]].
    + destruct (Z.le_gt_cases (declared_size ver size) 1) as [D|D].
      { destruct (text_too_small pre id size flags (ahead (enc :: l3) k) ver Li Ls Lf HT D) as (u & U).
        - rewrite !cells_app. exact F.
        - rewrite !cells_app in U. congruence. }
      rewrite ahead_cons in F, E.
      rewrite (text_form pre ver id size flags Li Ls Lf enc _ (declared_size ver size - 1)) in E by (auto; lia).
      destruct (cut_split (declared_size ver size - 1) l3 ltac:(lia)) as (body & rest & missing & -> & En & Ct).
      destruct (cut_read body missing rest k _ Ct En) as (C1 & C2 & C3).
      binv E.
      match type of E0 with context [Some (take ?a ?b ++ ?c)] =>
        replace (take a b ++ c) with (cells body ++ repeat None missing) in E0 by (symmetry; exact C3) end.
      apply text_new_inv in E0. destruct E0 as (t & junk & Ht & ->).
      exists (id ++ size ++ flags ++ [enc] ++ text_image t ++ junk), missing, rest, (Some (frame_of (FText id flags t))).
      split; [now rewrite <- ?app_assoc|]. apply (ReadText ver id size flags enc t junk missing rest); auto. lia.
    + apply comment_inv in E; auto. destruct E as (lang & d & c & rest & -> & Ll & Hd & Hc).
      exists (id ++ size ++ flags ++ [enc] ++ lang ++ text_image d ++ text_image c), 0%nat, rest, (Some (frame_of (FComment flags lang d c))).
      split; [now rewrite <- ?app_assoc|]. now constructor.
    + apply picture_inv in E; auto. destruct E as (m & ty & d & r & -> & Hm & Hd & N).
      destruct (cut_split (declared_size ver size - 2 - zlen (text_image m) - zlen (text_image d)) r ltac:(lia))
        as (pic & rest & missing & -> & En & Ct).
      do 4 eexists. split; [|apply (ReadPicture ver id size flags enc m ty d pic missing rest); auto; lia].
      now rewrite <- ?app_assoc.
  - apply orb_false_iff in K. destruct K as [K HA]. apply orb_false_iff in K. destruct K as [HT HC].
    destruct (Nat.lt_ge_cases (length l2) 2) as [L2|L2].
    + assert (Eq : ahead (id ++ size ++ l2) k = cells (id ++ size) ++ ahead l2 k).
      { rewrite !ahead_app, cells_app. now rewrite <- ?app_assoc. }
      rewrite Eq in *. rewrite other_short in E by auto. destruct (declared_size ver size <? 0) eqn:D; [discriminate E|].
      do 4 eexists. split; [|apply (ReadStub ver id size l2 (Z.to_nat (declared_size ver size))); auto; lia].
      now rewrite app_nil_r.
    + destruct (split_at 2 l2 L2) as (flags & l3 & -> & Lf).
      assert (Eq : ahead (id ++ size ++ flags ++ l3) k = (cells id ++ cells size ++ cells flags) ++ ahead l3 k).
      { rewrite !ahead_app. now rewrite <- ?app_assoc. }
      rewrite Eq in *. rewrite Frame_parse_dispatch in E by auto. rewrite HT, HC, HA in E.
      destruct (declared_size ver size <? 0) eqn:D; [discriminate E|].
      destruct (cut_split (declared_size ver size) l3 ltac:(lia)) as (body & rest & missing & -> & En & Ct).
      do 4 eexists. split; [|apply (ReadOther ver id size flags body missing rest); auto].
      now rewrite <- ?app_assoc.
Qed.

Lemma frame_read_iff ver l k pre r cs :
  fits pre (ahead l k) ->
  (Frame_parse (at_pos pre (ahead l k)) ver = Ok (r, cs)
   <-> exists used gap rest, l = used ++ rest
         /\ cs = at_pos (pre ++ ahead used (Nat.min gap k)) (ahead rest (k - gap)) /\ frame_read ver used gap rest r).
Proof.
  intros F. split.
  - intros E. destruct (frame_read_found ver l k pre (r, cs) F E) as (used & gap & rest & r' & -> & H).
    exists used, gap, rest. rewrite (frame_read_complete ver used gap rest r' pre k H F) in E. injection E as <- <-. auto.
  - intros (used & gap & rest & -> & -> & H). now apply frame_read_complete.
Qed.

(** ** All frames *)

Lemma frame_read_length ver used gap rest f : frame_read ver used gap rest (Some f) -> (8 <= length used)%nat.
Proof. intros H. inversion H; subst; rewrite !app_length; lia. Qed.

Lemma frame_read_nonempty ver used gap rest r : frame_read ver used gap rest r -> used ++ rest <> [].
Proof.
  intros H E. apply (f_equal (@length byte)) in E. rewrite app_length in E. cbn [length] in E.
  destruct r as [f|]; [apply frame_read_length in H; lia|].
  inversion H; subst. cbn [length app] in E. lia.
Qed.

Lemma loop_cursor pre (r : mem) limit : fits pre r ->
  (to_u32 (cs_cursor (at_pos pre r)) <? limit) = (zlen pre <? limit).
Proof.
  intros F. rewrite cursor_at. unfold fits in F. pose proof (zlen_nonneg pre). pose proof (zlen_nonneg r).
  change (2 ^ 31) with 2147483648 in F. rewrite to_u32_id by (change (2 ^ 32) with 4294967296; lia). reflexivity.
Qed.

Lemma frames_read_complete ver limit k pos l fs fin :
  frames_read ver limit k pos l fs fin -> forall pre fuel ps fresh,
  pos = zlen pre -> fits pre (ahead l k) -> (length l < fuel)%nat ->
  exists pre' rest, zlen (pre ++ ahead l k) = zlen (pre' ++ rest) /\ fin = zlen pre' /\
    parse_loop fuel limit ver (at_pos pre (ahead l k)) (list_of ps) fresh
    = Ok (list_of (ps ++ combine (seq fresh (length fs)) fs), (fresh + length fs)%nat, at_pos pre' rest).
Proof.
  induction 1 as [k pos l H|k pos l H Hf|k pos used gap rest f fs fin H Hf _ IH]; intros pre fuel ps fresh -> F L;
    (destruct fuel as [|fuel]; [lia|]); cbn [parse_loop]; rewrite loop_cursor by auto.
  - exists pre, (ahead l k). split; [reflexivity|split; [reflexivity|]]. ifF.
    cbn [length seq combine]. now rewrite app_nil_r, Nat.add_0_r.
  - exists pre, (ahead l k). split; [reflexivity|split; [reflexivity|]]. ifT.
    pose proof (frame_read_complete ver [] 0 l None pre k Hf F) as E. cbn [app] in E. rewrite E. go.
    cbn [length seq combine Nat.min]. now rewrite ahead_O, !app_nil_r, Nat.add_0_r, Nat.sub_0_r.
  - ifT. rewrite (frame_read_complete ver used gap rest (Some f) pre k Hf F). go. rewrite add_frame_list. go.
    pose proof (frame_read_length _ _ _ _ _ Hf). rewrite app_length in L.
    assert (Zl : zlen pre + zlen used + Z.of_nat (Nat.min gap k) = zlen (pre ++ ahead used (Nat.min gap k))).
    { rewrite zlen_app, zlen_ahead. lia. }
    assert (Zt : zlen (pre ++ ahead (used ++ rest) k) = zlen ((pre ++ ahead used (Nat.min gap k)) ++ ahead rest (k - gap))).
    { rewrite !zlen_app, !zlen_ahead, zlen_app. lia. }
    destruct (IH (pre ++ ahead used (Nat.min gap k)) fuel (ps ++ [(fresh, f)]) (S fresh)) as (pre' & rest' & E1 & E2 & E3).
    + exact Zl.
    + unfold fits in *. rewrite <- zlen_app in *. rewrite <- Zt. exact F.
    + lia.
    + exists pre', rest'. split; [now rewrite Zt|split; [exact E2|]].
      etransitivity; [exact E3|]. cbn [length seq combine]. rewrite <- app_assoc. cbn [app]. do 3 f_equal. lia.
Qed.

Lemma frames_read_found ver limit fuel : forall pre l k ps fresh res,
  fits pre (ahead l k) ->
  parse_loop fuel limit ver (at_pos pre (ahead l k)) (list_of ps) fresh = Ok res ->
  exists fs fin, frames_read ver limit k (zlen pre) l fs fin.
Proof.
  induction fuel as [|fuel IH]; intros pre l k ps fresh res F E; cbn [parse_loop] in E; rewrite loop_cursor in E by auto;
    destruct (zlen pre <? limit) eqn:C; try discriminate E;
    try (exists [], (zlen pre); constructor; lia).
  binv E. destruct v as [r cs]. apply frame_read_iff in E0; auto.
  destruct E0 as (used & gap & rest & -> & -> & H). destruct r as [f|].
  - rewrite add_frame_list in E. cbn [bind] in E.
    destruct (IH (pre ++ ahead used (Nat.min gap k)) rest (k - gap)%nat (ps ++ [(fresh, f)]) (S fresh) res) as (fs & fin & R).
    + unfold fits in *. rewrite zlen_app, !zlen_ahead in *. rewrite zlen_app in F. lia.
    + exact E.
    + exists (f :: fs), fin. rewrite zlen_app, zlen_ahead, Z.add_assoc in R. apply (ReadFrame _ _ _ _ _ gap); auto; lia.
  - exists [], (zlen pre). apply ReadStop; [lia|]. inversion H; subst. constructor.
Qed.

(** ** Tags *)

Lemma memcmp_prefix a l k :
  (exists t, l = a ++ t /\ memcmp_eq a (ahead l k) = Ok true)
  \/ ((forall t u, l ++ t <> a ++ u) /\ memcmp_eq a (ahead l k) = Ok false)
  \/ ((exists t, t <> [] /\ a = l ++ t) /\ exists u, memcmp_eq a (ahead l k) = Ub u).
Proof.
  revert l. induction a as [|x a IH]; intros l.
  - left. exists l. split; reflexivity.
  - destruct l as [|y l].
    + right. right. split; [exists (x :: a); split; [discriminate|reflexivity]|].
      destruct k; eexists; reflexivity.
    + rewrite ahead_cons. cbn [memcmp_eq]. destruct (beq_spec x y) as [->|N].
      * destruct (IH l) as [(t & -> & E)|[[H E]|[(t & Nt & ->) (u & E)]]].
        -- left. now exists t.
        -- right. left. split; [|exact E]. intros t u Q. injection Q as Q. now apply H in Q.
        -- right. right. split; [now exists t|now exists u].
      * right. left. split; [|reflexivity]. intros t u Q. injection Q as Q. congruence.
Qed.

Lemma btoi_cut x k : (length x < 4)%nat -> exists u, btoi (cells x ++ repeat None k) 4 = Ub u.
Proof.
  intros L. destruct x as [|a [|b [|c [|d x]]]]; cbn [length] in L; try lia; (destruct k; eexists; reflexivity).
Qed.

Lemma tag_header_none tail k : zlen tail + Z.of_nat k < 2 ^ 31 - 3 ->
  match tail with [] => True | major :: _ => known_version major = false end ->
  k = O \/ (2 <= length tail)%nat ->
  exists cs, TagHeader_parse (at_pos [] (ahead (lit "ID3" ++ tail) k)) = Ok (None, cs).
Proof.
  intros B H K. unfold TagHeader_parse. cbn [at_pos cs_stream app].
  rewrite ahead_app, memcmp_eq_refl. go. cbn [negb].
  rewrite read_into_at; [|unfold fits; zl; rewrite ?zlen_cells, zlen_ahead; change (zlen (lit "ID3")) with 3; lia|reflexivity]. go.
  destruct tail as [|maj tail].
  - destruct K as [->|K]; [|cbn [length] in K; lia]. rewrite ahead_O. cbn [cells map]. rewrite getc_gen. go. rewrite getc_gen. go.
    eexists. reflexivity.
  - rewrite ahead_cons, getc_gen. go. rewrite getc_gen. destruct tail as [|mn tail].
    + destruct K as [->|K]; [|cbn [length] in K; lia]. rewrite ahead_O. cbn [cells map]. go. rewrite version_test, H. cbn [negb]. eexists. reflexivity.
    + rewrite ahead_cons. go. rewrite version_test, H. cbn [negb]. eexists. reflexivity.
Qed.

(** A header that ends too soon. *)
Lemma tag_header_short maj tail k res : (length tail < 6)%nat -> known_version maj = true -> 4 + zlen tail + Z.of_nat k < 2 ^ 31 ->
  TagHeader_parse (at_pos [] (ahead (lit "ID3" ++ maj :: tail) k)) <> Ok res.
Proof.
  intros L K Bk E. unfold TagHeader_parse in E. cbn [at_pos cs_stream app] in E.
  rewrite ahead_app, memcmp_eq_refl in E. cbn [bind negb] in E.
  rewrite read_into_at in E; [|unfold fits; zl; rewrite ?zlen_cells, zlen_ahead; unfold zlen; cbn [length]; change (length (lit "ID3")) with 3%nat; change (2 ^ 31) with 2147483648; change (2 ^ 31) with 2147483648 in Bk; unfold zlen in Bk; cbn [length] in Bk; lia|reflexivity].
  cbn [bind] in E. rewrite ahead_cons, getc_gen in E. cbn [bind] in E. rewrite getc_gen in E.
  destruct tail as [|mn tail].
  { destruct k; [|discriminate E]. cbn [ahead cells map app repeat bind] in E. rewrite version_test, K in E. cbn [negb] in E.
    rewrite getc_gen in E. cbn [bind] in E. rewrite read_into_gen in E; [|reflexivity|discriminate]. cbn [bind] in E. discriminate E. }
  rewrite ahead_cons in E. cbn [bind] in E. rewrite version_test, K in E. cbn [negb] in E. rewrite getc_gen in E.
  destruct tail as [|fl tail].
  { destruct k; [|discriminate E]. cbn [ahead cells map app repeat bind] in E. rewrite read_into_gen in E; [|reflexivity|discriminate].
    cbn [bind] in E. discriminate E. }
  rewrite ahead_cons in E. cbn [bind] in E. cbn [length] in L.
  rewrite read_into_gen in E; [|unfold fits; zl; rewrite ?zlen_cells, zlen_ahead; unfold zlen; cbn [length]; change (length (lit "ID3")) with 3%nat; change (2 ^ 31) with 2147483648; change (2 ^ 31) with 2147483648 in Bk; unfold zlen in Bk; cbn [length] in Bk; lia|discriminate].
  cbn [bind] in E. change ID3v2_TAG_HEADER_TAG_SIZE_LENGTH with 4 in E.
  destruct (cut_read tail (4 - length tail) [] k 4) as (_ & _ & C3); [now right|unfold zlen; lia|].
  rewrite app_nil_r in C3.
  match type of E with context [btoi ?m 4] => replace m with (cells tail ++ repeat None (4 - length tail)) in E by (symmetry; exact C3) end.
  destruct (btoi_cut tail (4 - length tail) ltac:(lia)) as (u & U). rewrite U in E. discriminate E.
Qed.

Lemma tag_header_unknown tail k res : (length tail < 2)%nat -> 3 + zlen tail + Z.of_nat (S k) < 2 ^ 31 ->
  TagHeader_parse (at_pos [] (ahead (lit "ID3" ++ tail) (S k))) <> Ok res.
Proof.
  intros L Bk E. unfold TagHeader_parse in E. cbn [at_pos cs_stream app] in E.
  rewrite ahead_app, memcmp_eq_refl in E. cbn [bind negb] in E.
  rewrite read_into_at in E; [|unfold fits; zl; rewrite ?zlen_cells, zlen_ahead; change (zlen (lit "ID3")) with 3; lia|reflexivity].
  cbn [bind] in E. destruct tail as [|maj [|mi tail]]; [| |cbn [length] in L; lia].
  - cbn [ahead cells map app repeat] in E. rewrite getc_gen in E. discriminate E.
  - rewrite ahead_cons, getc_gen in E. cbn [bind ahead cells map app repeat] in E. rewrite getc_gen in E. discriminate E.
Qed.

Lemma plain_parse maj mi fl s4 body p k :
  known_version maj = true -> has_extended_header fl = false -> length s4 = 4%nat ->
  let buf := lit "ID3" ++ [maj; mi; fl] ++ s4 ++ body in
  let n := synchsafe_value s4 in
  points_to_part p buf k -> zlen buf + Z.of_nat k < 2 ^ 31 ->
  ID3v2_read_tag_from_buffer p (zlen buf + Z.of_nat k)
  = let* (frames, fresh, cs) :=
      parse_loop (length (ahead buf k) + 2) n (schar maj)
                 (at_pos (cells (lit "ID3" ++ [maj; mi; fl] ++ s4)) (ahead body k)) (list_of []) 0 in
    let* padding := isub (cs_size cs) (cs_cursor cs) in
    Ok (Some (mkTag (mkTH (lit "ID3") maj mi fl n 0) frames padding fresh)).
Proof.
  intros V X Ls buf n (tail & ->) B.
  unfold ID3v2_read_tag_from_buffer. rewrite from_buffer_at by (now rewrite zlen_ahead). go.
  destruct s4 as [|s3 [|s2 [|s1 [|s0 [|? ?]]]]]; try discriminate Ls.
  assert (S : ahead buf k = cells [x49; x44; x33; maj; mi; fl; s3; s2; s1; s0] ++ ahead body k).
  { unfold buf. rewrite <- ahead_app. reflexivity. }
  unfold Tag_parse. rewrite S.
  assert (F : fits [] (cells [x49; x44; x33; maj; mi; fl; s3; s2; s1; s0] ++ ahead body k)).
  { unfold fits. rewrite <- S, zlen_ahead. change (zlen (@nil cell)) with 0. lia. }
  rewrite header_start by (auto; reflexivity). cbv zeta. rewrite V, X. cbn [negb]. go.
  cbn [th_ext_size th_tag_size th_major]. change (0 <? 0) with false. cbv iota. go.
  unfold ID3v2_Tag_new. cbn [t_frames t_fresh]. change FrameList_new with (list_of []).
  reflexivity.
Qed.

Lemma known_schar maj : known_version maj = true -> schar maj = bv maj.
Proof. destruct maj; try discriminate; reflexivity. Qed.

Lemma tag_has_numbered h pad fs :
  tag_has (mkTag h (list_of (combine (seq 0 (length fs)) fs)) pad (length fs)) fs.
Proof.
  exists (combine (seq 0 (length fs)) fs). split; [reflexivity|].
  assert (L : length (seq 0 (length fs)) = length fs) by apply seq_length.
  change (map fp_frame) with (@map (nat * frame) frame snd). change (map fp_addr) with (@map (nat * frame) nat fst).
  rewrite (combine_fst _ _ L), (combine_snd _ _ L).
  split; [reflexivity|]. split; [apply seq_NoDup|]. cbn [t_fresh].
  apply Forall_forall. intros a Ha. apply in_seq in Ha. lia.
Qed.

(** The end of Tag_parse. *)
Lemma loop_then h ver limit pre body k fs fin fuel :
  frames_read ver limit k (zlen pre) body fs fin -> fits pre (ahead body k) -> (length body < fuel)%nat ->
  exists t,
    (let* (frames, fresh, cs) := parse_loop fuel limit ver (at_pos pre (ahead body k)) (list_of []) 0 in
     let* padding := isub (cs_size cs) (cs_cursor cs) in
     Ok (Some (mkTag h frames padding fresh))) = Ok (Some t)
    /\ shows_read (Some (h, fs, zlen pre + zlen body + Z.of_nat k - fin)) (Some t).
Proof.
  intros R F L. destruct (frames_read_complete _ _ _ _ _ _ _ R pre fuel [] 0%nat eq_refl F L) as (pre' & rest & E1 & E2 & E3).
  rewrite E3. go. cbn [at_pos cs_size cs_cursor].
  rewrite !zlen_app, zlen_ahead in E1. unfold fits in F. rewrite zlen_ahead in F. pose proof (zlen_nonneg pre'). pose proof (zlen_nonneg rest).
  rewrite isub_ok by lia. go. eexists. split; [reflexivity|].
  cbn [shows_read t_header t_padding]. split; [reflexivity|]. split; [|lia].
  cbn [app Nat.add]. apply tag_has_numbered.
Qed.

Lemma outside_loop h ver limit e (m : mem) fuel : zlen m < e -> e < 2 ^ 31 -> zlen m < 2 ^ 31 ->
  (let* (frames, fresh, cs) := parse_loop (S fuel) limit ver (mkCS e (zlen m) m) (list_of []) 0 in
   let* padding := isub (cs_size cs) (cs_cursor cs) in
   Ok (Some (mkTag h frames padding fresh)))
  = if limit <=? e then Ok (Some (mkTag h (list_of []) (zlen m - e) 0))
    else let* (r, _) := Frame_parse (mkCS e (zlen m) m) ver in Ub OobRead.
Proof.
  intros H1 H2 H3. pose proof (zlen_nonneg m). cbn [parse_loop cs_cursor].
  rewrite to_u32_id by (change (2 ^ 31) with 2147483648 in *; change (2 ^ 32) with 4294967296; lia).
  destruct (limit <=? e) eqn:C.
  - replace (e <? limit) with false by lia. go. cbn [cs_size cs_cursor]. rewrite isub_ok by lia. reflexivity.
  - replace (e <? limit) with true by lia.
    destruct (Frame_parse (mkCS e (zlen m) m) ver) as [[r cs]|u| |] eqn:E; try reflexivity.
    exfalso. eapply parse_outside; [| |exact E]; cbn [cs_size cs_cursor]; lia.
Qed.

Lemma ext_parse_part maj mi fl s4 e4 body p k :
  known_version maj = true -> has_extended_header fl = true ->
  length s4 = 4%nat -> length e4 = 4%nat ->
  let buf := ext_buffer maj mi fl s4 e4 body in
  let e := synchsafe_value e4 in
  let n := synchsafe_value s4 in
  points_to_part p buf k -> zlen buf + Z.of_nat k < 2 ^ 31 ->
  ID3v2_read_tag_from_buffer p (zlen buf + Z.of_nat k)
  = let* (frames, fresh, cs) :=
      parse_loop (length (ahead buf k) + 2) n (schar maj)
                 (mkCS (if 0 <? e then e else 14) (zlen (ahead buf k)) (ahead buf k)) (list_of []) 0 in
    let* padding := isub (cs_size cs) (cs_cursor cs) in
    Ok (Some (mkTag (mkTH (lit "ID3") maj mi fl n e) frames padding fresh)).
Proof.
  intros V X Ls Le buf e n (tail & ->) B.
  assert (S : cells (lit "ID3" ++ [maj; mi; fl] ++ s4 ++ e4) ++ ahead body k = ahead buf k).
  { unfold buf, ext_buffer. rewrite <- ahead_app. f_equal. rewrite <- !app_assoc. reflexivity. }
  pose proof (ext_parse_mem maj mi fl s4 e4 (ahead body k) tail V X Ls Le) as Q. cbv zeta in Q. rewrite S in Q.
  rewrite <- zlen_ahead in *. exact (Q B).
Qed.

Lemma at_ahead start l k : 0 <= start <= zlen l + Z.of_nat k ->
  mkCS start (zlen (ahead l k)) (ahead l k)
  = at_pos (take start (ahead l k)) (ahead (skipn (Z.to_nat start) l) (k - (Z.to_nat start - length l)))
  /\ zlen (take start (ahead l k)) = start.
Proof.
  intros H. rewrite at_pos_cursor by (rewrite zlen_ahead; lia). rewrite drop_ahead. split; [reflexivity|].
  rewrite take_ahead, zlen_ahead. unfold zlen in *. rewrite firstn_length. lia.
Qed.

Lemma tag_read_complete l k r p : tag_read l k r -> points_to_part p l k -> zlen l + Z.of_nat k < 2 ^ 31 ->
  exists t, ID3v2_read_tag_from_buffer p (zlen l + Z.of_nat k) = Ok t /\ shows_read r t.
Proof.
  intros H P B. inversion H; subst; clear H.
  - destruct P as (tl & ->). exists None. split; [|exact I].
    unfold ID3v2_read_tag_from_buffer. rewrite from_buffer_at by (now rewrite zlen_ahead). go.
    unfold Tag_parse, TagHeader_parse. cbn [at_pos cs_stream app].
    destruct (memcmp_prefix (lit "ID3") l k) as [(t & -> & _)|[[_ E]|[(t & _ & E) _]]].
    + exfalso. apply (H0 [] t). now rewrite app_nil_r.
    + rewrite E. reflexivity.
    + exfalso. apply (H0 t []). now rewrite app_nil_r.
  - destruct P as (tl & ->). exists None. split; [|exact I].
    unfold ID3v2_read_tag_from_buffer. rewrite from_buffer_at by (now rewrite zlen_ahead). go.
    unfold Tag_parse. rewrite zlen_app in B. change (zlen (lit "ID3")) with 3 in B.
    destruct (tag_header_none tail k ltac:(lia) H1 H2) as (cs & E). rewrite E. reflexivity.
  - rewrite plain_parse by auto.
    assert (Z10 : zlen (cells (lit "ID3" ++ [major; minor; flags] ++ size)) = 10).
    { rewrite zlen_cells, !zlen_app. unfold zlen at 3. rewrite H1. reflexivity. }
    assert (Eq : zlen (lit "ID3" ++ [major; minor; flags] ++ size ++ body) = 10 + zlen body).
    { rewrite zlen_cells, !zlen_app in *. lia. }
    rewrite known_schar by auto.
    edestruct (loop_then (mkTH (lit "ID3") major minor flags (synchsafe_value size) 0) (bv major) (synchsafe_value size)
      (cells (lit "ID3" ++ [major; minor; flags] ++ size)) body k fs fin) as (t & Et & St).
    + rewrite Z10. exact H4.
    + unfold fits. rewrite Z10, zlen_ahead. lia.
    + shelve.
    + exists (Some t). split; [exact Et|]. rewrite Eq. rewrite Z10 in St. exact St.
    Unshelve. rewrite length_ahead, !app_length. lia.
  - change (lit "ID3" ++ [major; minor; flags] ++ size ++ ext ++ body) with (ext_buffer major minor flags size ext body) in *.
    rewrite ext_parse_part by auto. set (buf := ext_buffer major minor flags size ext body) in *.
    pose proof (synchsafe_value_range ext) as Re. change (2 ^ 29) with 536870912 in Re.
    rewrite known_schar by auto.
    assert (Es : (if 0 <? synchsafe_value ext then synchsafe_value ext else 14) = start).
    { unfold start, e. destruct (synchsafe_value ext =? 0) eqn:?; [now ifF|now ifT]. }
    assert (Rs : 0 < start < 2 ^ 31).
    { unfold start, e. change (2 ^ 31) with 2147483648. destruct (synchsafe_value ext =? 0) eqn:?; lia. }
    rewrite Es. destruct (Z.le_gt_cases start (zlen buf + Z.of_nat k)) as [C|C].
    + destruct (at_ahead start buf k ltac:(lia)) as (A & Zp). rewrite A.
      edestruct (loop_then (mkTH (lit "ID3") major minor flags (synchsafe_value size) e) (bv major) (synchsafe_value size)
        (take start (ahead buf k)) (skipn (Z.to_nat start) buf) (k - (Z.to_nat start - length buf)) fs fin) as (t & Et & St).
      * rewrite Zp. exact H5.
      * unfold fits. rewrite Zp, zlen_ahead. unfold zlen in *. rewrite skipn_length. lia.
      * shelve.
      * exists (Some t). split; [exact Et|]. rewrite Zp in St.
        replace (start + zlen (skipn (Z.to_nat start) buf) + Z.of_nat (k - (Z.to_nat start - length buf)))
          with (zlen buf + Z.of_nat k) in St; [exact St|].
        unfold zlen in *. rewrite skipn_length. lia.
      Unshelve. rewrite length_ahead, skipn_length. lia.
    + replace (length (ahead buf k) + 2)%nat with (S (length (ahead buf k) + 1)) by lia.
      rewrite outside_loop by (rewrite ?zlen_ahead; lia). rewrite zlen_ahead.
      assert (Sk : skipn (Z.to_nat start) buf = []) by (apply skipn_all2; unfold zlen in C; lia).
      rewrite Sk in H5. inversion H5; subst.
      * match goal with |- context [if ?b then _ else _] => destruct b eqn:? end; [|lia]. eexists. split; [reflexivity|].
        cbn [shows_read t_header t_padding]. split; [reflexivity|]. split; [|reflexivity].
        apply (tag_has_numbered _ _ []).
      * exfalso. match goal with Q : frame_read _ _ _ _ None |- _ => now apply frame_read_nonempty in Q end.
      * exfalso. match goal with Q : frame_read _ _ _ _ (Some _) |- _ => apply frame_read_nonempty in Q; congruence end.
Qed.

Lemma tag_read_found l k t p : points_to_part p l k -> zlen l + Z.of_nat k < 2 ^ 31 ->
  ID3v2_read_tag_from_buffer p (zlen l + Z.of_nat k) = Ok t -> exists r, tag_read l k r.
Proof.
  intros P B E.
  destruct (memcmp_prefix (lit "ID3") l k) as [(tail & -> & _)|[[H _]|[_ (u & U)]]].
  2:{ exists None. now constructor. }
  2:{ exfalso. destruct P as (tl & ->). unfold ID3v2_read_tag_from_buffer in E.
      rewrite from_buffer_at in E by (now rewrite zlen_ahead). cbn [bind] in E.
      unfold Tag_parse, TagHeader_parse in E. cbn [at_pos cs_stream app] in E. rewrite U in E. discriminate E. }
  assert (H0 : exists res, TagHeader_parse (at_pos [] (ahead (lit "ID3" ++ tail) k)) = Ok res).
  { destruct P as (tl & ->). unfold ID3v2_read_tag_from_buffer in E.
    rewrite from_buffer_at in E by (now rewrite zlen_ahead). cbn [bind] in E. unfold Tag_parse in E.
    match type of E with context [TagHeader_parse ?c] => destruct (TagHeader_parse c) as [res| | |] eqn:E1 end; try discriminate E.
    now exists res. }
  destruct H0 as (res & H0).
  assert (Zt : zlen (lit "ID3" ++ tail) = 3 + zlen tail) by (rewrite zlen_app; reflexivity).
  assert (K : k = O \/ (2 <= length tail)%nat).
  { destruct (Nat.lt_ge_cases (length tail) 2) as [L2|L2]; [|now right]. destruct k as [|k]; [now left|].
    exfalso. apply tag_header_unknown in H0; auto. lia. }
  destruct tail as [|maj tail]; [exists None; now apply (ReadVersion _ _ [])|].
  destruct (known_version maj) eqn:V; [|exists None; now apply (ReadVersion _ _ (maj :: tail))].
  destruct (Nat.lt_ge_cases (length tail) 6) as [L|L].
  { exfalso. apply tag_header_short in H0; auto. unfold zlen in *. cbn [length] in *. lia. }
  clear H0 res Zt K. destruct tail as [|mi [|fl tail]]; try (cbn [length] in L; lia).
  destruct (split_at 4 tail ltac:(cbn [length] in L; lia)) as (size & body & -> & Ls).
  change (lit "ID3" ++ maj :: mi :: fl :: size ++ body) with (lit "ID3" ++ [maj; mi; fl] ++ size ++ body) in *.
  destruct (has_extended_header fl) eqn:X.
  - destruct (Nat.lt_ge_cases (length body) 4) as [Lb|Lb].
    { exfalso. destruct P as (tl & ->). unfold ID3v2_read_tag_from_buffer in E.
      rewrite from_buffer_at in E by (now rewrite zlen_ahead). cbn [bind] in E. unfold Tag_parse in E.
      destruct size as [|s3 [|s2 [|s1 [|s0 [|? ?]]]]]; try discriminate Ls.
      assert (S : ahead (lit "ID3" ++ [maj; mi; fl] ++ [s3; s2; s1; s0] ++ body) k
                  = cells [x49; x44; x33; maj; mi; fl; s3; s2; s1; s0] ++ ahead body k).
      { rewrite <- ahead_app. reflexivity. }
      assert (F : fits [] (cells [x49; x44; x33; maj; mi; fl; s3; s2; s1; s0] ++ ahead body k)).
      { unfold fits. rewrite <- S, zlen_ahead. change (zlen (@nil cell)) with 0. lia. }
      rewrite S in E. rewrite header_start in E by (auto; reflexivity). cbv zeta in E. rewrite V, X in E. cbn [negb] in E.
      change ID3v2_EXTENDED_HEADER_SIZE_LENGTH with 4 in E.
      rewrite read_into_gen in E; [|unfold fits in *; rewrite zlen_app in F; change (zlen (@nil cell)) with 0 in F; lia|lia].
      cbn [bind] in E.
      destruct (cut_read body (4 - length body) [] k 4) as (_ & _ & C3); [now right|unfold zlen; lia|].
      rewrite app_nil_r in C3.
      match type of E with context [btoi ?m 4] => replace m with (cells body ++ repeat None (4 - length body)) in E by (symmetry; exact C3) end.
      destruct (btoi_cut body (4 - length body) Lb) as (u & U). rewrite U in E. discriminate E. }
    destruct (split_at 4 body Lb) as (ext & body' & -> & Le).
    change (lit "ID3" ++ [maj; mi; fl] ++ size ++ ext ++ body') with (ext_buffer maj mi fl size ext body') in *.
    rewrite ext_parse_part in E by auto. set (buf := ext_buffer maj mi fl size ext body') in *.
    pose proof (synchsafe_value_range ext) as Re. change (2 ^ 29) with 536870912 in Re.
    rewrite known_schar in E by auto.
    set (e := synchsafe_value ext) in *. set (start := if e =? 0 then 14 else e).
    assert (Es : (if 0 <? e then e else 14) = start).
    { unfold start. destruct (e =? 0) eqn:?; [now ifF|now ifT]. }
    assert (Rs : 0 < start < 2 ^ 31).
    { unfold start. change (2 ^ 31) with 2147483648. destruct (e =? 0) eqn:?; lia. }
    rewrite Es in E.
    assert (R : exists fs fin, frames_read (bv maj) (synchsafe_value size) (k - (Z.to_nat start - length buf)) start
                                           (skipn (Z.to_nat start) buf) fs fin).
    { destruct (Z.le_gt_cases start (zlen buf + Z.of_nat k)) as [C|C].
      - destruct (at_ahead start buf k ltac:(lia)) as (A & Zp). rewrite A in E.
        binv E. apply (frames_read_found _ _ _ _ _ _ []) in E0; [now rewrite Zp in E0|].
        unfold fits. rewrite Zp, zlen_ahead. unfold zlen in *. rewrite skipn_length. lia.
      - replace (length (ahead buf k) + 2)%nat with (S (length (ahead buf k) + 1)) in E by lia.
        rewrite outside_loop in E by (rewrite ?zlen_ahead; lia).
        destruct (synchsafe_value size <=? start) eqn:Q.
        + exists [], start. constructor. lia.
        + binv E. destruct v. discriminate E. }
    destruct R as (fs & fin & R).
    eexists. apply (ReadExtended buf k maj mi fl size ext body' fs fin); auto.
  - rewrite plain_parse in E by auto. rewrite known_schar in E by auto. binv E.
    assert (Z10 : zlen (cells (lit "ID3" ++ [maj; mi; fl] ++ size)) = 10).
    { rewrite zlen_cells, !zlen_app. unfold zlen at 3. rewrite Ls. reflexivity. }
    apply (frames_read_found _ _ _ _ _ _ []) in E0.
    2:{ unfold fits. rewrite Z10, zlen_ahead. rewrite !zlen_app in *. rewrite zlen_cells, !zlen_app in Z10. lia. }
    rewrite Z10 in E0. destruct E0 as (fs & fin & R).
    eexists. apply (ReadPlain _ _ maj mi fl size body fs fin); auto.
Qed.

(** Every buffer is read as described, or the outcome is undefined. *)
Lemma read_exactly l k p : points_to_part p l k -> zlen l + Z.of_nat k < 2 ^ 31 ->
  let size := zlen l + Z.of_nat k in
  (exists r t, tag_read l k r /\ ID3v2_read_tag_from_buffer p size = Ok t /\ shows_read r t)
  \/ ((forall r, ~ tag_read l k r) /\ exists u, ID3v2_read_tag_from_buffer p size = Ub u).
Proof.
  intros P B size. destruct (read_tag_ends p size B) as [(t & E)|(u & E)].
  - left. destruct (tag_read_found l k t p P B E) as (r & R).
    destruct (tag_read_complete l k r p R P B) as (t' & E' & S). exists r, t. fold size in E'. rewrite E in E'. injection E' as <-. auto.
  - right. split; [|now exists u]. intros r R. destruct (tag_read_complete l k r p R P B) as (t & E' & _). fold size in E'. congruence.
Qed.

Lemma list_of_frames t fs fs' : tag_has t fs -> tag_has t fs' -> fs = fs'.
Proof.
  intros (ps & E & <- & _) (ps' & E' & <- & _). rewrite E in E'.
  rewrite <- !frames_in_list_of. now rewrite E'.
Qed.

Lemma read_once l k r r' : zlen l + Z.of_nat k < 2 ^ 31 -> tag_read l k r -> tag_read l k r' -> r = r'.
Proof.
  intros B R R'. assert (P : points_to_part (Some (ahead l k)) l k) by (exists []; now rewrite app_nil_r).
  destruct (tag_read_complete l k r _ R P B) as (t & E & S).
  destruct (tag_read_complete l k r' _ R' P B) as (t' & E' & S'). rewrite E in E'. injection E' as <-.
  destruct r as [[[h fs] pad]|], r' as [[[h' fs'] pad']|], t as [t|]; cbn [shows_read] in S, S'; try contradiction; auto.
  destruct S as (<- & H1 & <-), S' as (<- & H2 & <-). now rewrite (list_of_frames t fs fs').
Qed.

Lemma extended_undefined content : announces_extended content = true -> ID3v2_read_tag (Some content) = Ub UninitRead.
Proof.
  intros X. destruct (at_least_ten content) as [S|(a & b & c & d & e & f & g & h & i & j & r & ->)].
  { exfalso. do 10 (destruct content as [|? content]; [discriminate X|]). cbn [length] in S. lia. }
  cbn [announces_extended] in X. apply andb_prop in X as [X X3]. apply andb_prop in X as [X1 X2].
  assert (I : [a; b; c] = lit "ID3").
  { unfold is_id3 in X1. apply andb_prop in X1 as [X1 Y3]. apply andb_prop in X1 as [Y1 Y2].
    apply Byte.byte_dec_bl in Y1, Y2, Y3. subst. reflexivity. }
  injection I as -> -> ->. apply (header_extended_file d e f g h i j r ID3v2_Tag_new_empty X2 X3).
Qed.

Lemma fread_ahead content n : 0 <= n -> 
  fread_into content n = ahead (firstn (Z.to_nat n) content) (Z.to_nat n - length content)
  /\ zlen (firstn (Z.to_nat n) content) + Z.of_nat (Z.to_nat n - length content) = n.
Proof.
  intros R. unfold fread_into, ahead, zlen. rewrite length_cells, firstn_length.
  split; [do 2 f_equal; lia|lia].
Qed.

Lemma read_file_exactly content :
  (exists r t, file_read content r /\ ID3v2_read_tag (Some content) = Ok t /\ shows_read r t)
  \/ ((forall r, ~ file_read content r) /\ exists u, ID3v2_read_tag (Some content) = Ub u).
Proof.
  destruct (announces_extended content) eqn:X.
  { right. split; [intros r (X' & _); congruence|]. eexists. now apply extended_undefined. }
  destruct (file_header content X) as (h & E & H). unfold file_read. rewrite X.
  unfold ID3v2_read_tag. rewrite E. go. destruct h as [h|].
  - destruct H as (T & _). rewrite T. pose proof (tag_length_range _ _ T) as R. change (2 ^ 29) with 536870912 in R.
    set (n := declared_length h) in *. destruct (fread_ahead content n ltac:(lia)) as (F1 & F2).
    assert (Pt : points_to_part (Some (fread_into content n)) (firstn (Z.to_nat n) content) (Z.to_nat n - length content))
      by (exists []; now rewrite app_nil_r, F1).
    destruct (read_exactly _ _ _ Pt ltac:(rewrite F2; change (2 ^ 31) with 2147483648; lia)) as [(r & t & Q1 & Q2 & Q3)|(N & u & U)].
    + left. exists r, t. rewrite F2 in Q2. auto.
    + right. split; [|exists u; now rewrite F2 in U]. intros r (_ & Q). now apply N in Q.
  - left. exists None, None. rewrite H. repeat split.
Qed.

Lemma file_read_once content r r' : file_read content r -> file_read content r' -> r = r'.
Proof.
  intros (_ & R) (_ & R'). destruct (tag_length content) as [n|] eqn:T; [|congruence].
  pose proof (tag_length_range _ _ T) as Rn. change (2 ^ 29) with 536870912 in Rn.
  destruct (fread_ahead content n ltac:(lia)) as (_ & F2).
  eapply read_once; [|exact R|exact R']. rewrite F2. change (2 ^ 31) with 2147483648. lia.
Qed.

Lemma points_to_part_exact l k : points_to_part (Some (ahead l k)) l k.
Proof. exists []. now rewrite app_nil_r. Qed.
