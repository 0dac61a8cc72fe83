(** Facts about the models of frame_header.c, frame.c and frames/*.c. *)
From Verif Require Import Frames Spec.
From Verif Require Export StreamFacts.

(** Step through [bind]s whose first argument has been computed. *)
Ltac go := cbn [bind deref fh_size fh_id fh_flags f_hdr f_data].

Lemma fits_le pre pre' rest rest' :
  zlen pre + zlen rest = zlen pre' + zlen rest' -> fits pre rest -> fits pre' rest'.
Proof. unfold fits. lia. Qed.

Ltac zl := repeat first [rewrite zlen_app | rewrite zlen_cells | rewrite zlen_cons | rewrite zlen_repeat]; change (@zlen (option byte)) with (@zlen cell); change (@nil (option byte)) with (@nil cell); change (zlen (@nil byte)) with 0; change (zlen (@nil cell)) with 0.
Ltac fit := eapply fits_le; [|eassumption]; zl; lia.

(** ** Constructors *)

Lemma FrameHeader_new_ok id fl ti tf s :
  length id = 4%nat -> length fl = 2%nat ->
  FrameHeader_new (Some (cells id ++ ti)) (Some (cells fl ++ tf)) s = Ok (mkFH (cells id) s (cells fl)).
Proof.
  intros Hi Hf. unfold FrameHeader_new.
  rewrite memcpy_from_app by (rewrite zlen_cells; unfold zlen; rewrite Hi; reflexivity). go.
  rewrite memcpy_from_app by (rewrite zlen_cells; unfold zlen; rewrite Hf; reflexivity). reflexivity.
Qed.

Lemma encoding_text t : encoding_of (is_unicode t) = text_encoding t.
Proof. destruct t; reflexivity. Qed.

Lemma TextFrameData_new_ok t tt :
  text_ok t = true -> zlen (text_image t) < 2 ^ 31 ->
  TextFrameData_new (Some (cells (text_image t) ++ tt))
  = Ok (mkTD (zlen (text_image t)) (text_encoding t) (cells (text_image t))).
Proof.
  intros H L. unfold TextFrameData_new. rewrite has_bom_text by auto. go.
  rewrite encoding_text, strlen_text by auto. go.
  replace (if beq (text_encoding t) ID3v2_ENCODING_ISO then 1 else 2) with (zlen (text_end t))
    by (destruct t; reflexivity).
  unfold text_image in *. rewrite zlen_app in *.
  pose proof (zlen_nonneg (text_bytes t)). pose proof (zlen_nonneg (text_end t)).
  rewrite iadd_ok by lia. go.
  rewrite memcpy_from_app by (rewrite zlen_cells, zlen_app; reflexivity). reflexivity.
Qed.

Lemma frame_ok_common f : frame_ok f = true ->
  length (frame_id f) = 4%nat /\ length (frame_flags f) = 2%nat /\ body_size f + 10 < 2 ^ 31.
Proof.
  unfold frame_ok, len_is. intros H.
  apply andb_true_iff in H. destruct H as [H _]. apply andb_true_iff in H. destruct H as [H H3].
  apply andb_true_iff in H. destruct H as [H1 H2].
  apply Nat.eqb_eq in H1, H2. repeat split; auto. lia.
Qed.

Lemma frame_ok_kind f : frame_ok f = true ->
  match f with
  | FText id _ t => id_starts id "T" = true /\ text_ok t = true
  | FComment _ lang d c => length lang = 3%nat /\ text_ok d = true /\ text_ok c = true
  | FPicture _ m _ d _ => text_ok m = true /\ text_ok d = true
  | FOther id _ _ =>
      id_starts id "T" = false /\ id_starts id "C" = false /\ id_starts id "A" = false
      /\ forallb is_zero id = false
  end.
Proof.
  unfold frame_ok. intros H. apply andb_true_iff in H. destruct H as [_ H].
  destruct f; unfold len_is in H; repeat rewrite andb_true_iff in H;
    rewrite ?negb_true_iff, ?Nat.eqb_eq in H; tauto.
Qed.

Lemma body_size_text id fl t : body_size (FText id fl t) = 1 + zlen (text_image t).
Proof. reflexivity || (unfold body_size, frame_body, body_with; rewrite zlen_app; reflexivity). Qed.
Lemma body_size_comment fl lang d c :
  body_size (FComment fl lang d c) = 1 + zlen lang + zlen (text_image d) + zlen (text_image c).
Proof.
  unfold body_size, frame_body, body_with. rewrite !zlen_app.
  change (zlen [_]) with 1. lia.
Qed.
Lemma body_size_picture fl m ty d pic :
  body_size (FPicture fl m ty d pic)
  = 1 + zlen (text_image m) + 1 + zlen (text_image d) + zlen pic.
Proof.
  unfold body_size, frame_body, body_with. rewrite !zlen_app.
  change (zlen [frame_encoding (FPicture fl m ty d pic)]) with 1. change (zlen [ty]) with 1. lia.
Qed.
Lemma body_size_other id fl body : body_size (FOther id fl body) = zlen body.
Proof. reflexivity. Qed.

Lemma body_with_size e f : zlen (body_with e f) = body_size f.
Proof.
  unfold body_size, frame_body. destruct f; unfold body_with; rewrite ?zlen_app; try reflexivity;
  change (zlen [e]) with 1; change (zlen [frame_encoding _]) with 1; reflexivity.
Qed.

Lemma body_size_nonneg f : 0 <= body_size f.
Proof. apply zlen_nonneg. Qed.

Lemma TextFrame_new_ok id fl t ti tf tt :
  frame_ok (FText id fl t) = true ->
  TextFrame_new (Some (cells id ++ ti)) (Some (cells fl ++ tf)) (Some (cells (text_image t) ++ tt))
  = Ok (frame_of (FText id fl t)).
Proof.
  intros H. pose proof (frame_ok_common _ H) as (Hi & Hf & Hs).
  pose proof (frame_ok_kind _ H) as (_ & Ht). cbn [frame_id frame_flags] in *.
  rewrite body_size_text in Hs. unfold TextFrame_new.
  pose proof (text_image_pos t).
  rewrite TextFrameData_new_ok by (auto; lia). go. cbn [td_size].
  change ID3v2_FRAME_ENCODING_LENGTH with 1. rewrite iadd_ok by lia. go.
  rewrite FrameHeader_new_ok by auto. go. unfold frame_of. cbn [frame_id frame_flags].
  now rewrite body_size_text.
Qed.

Lemma clit4 s : exists l, clit s = Some (cells (lit s) ++ [Some x00]) /\ l = lit s.
Proof. exists (lit s). unfold clit. now rewrite cells_app. Qed.

Lemma CommentFrame_new_ok fl lang d c tf tl td tc :
  frame_ok (FComment fl lang d c) = true ->
  CommentFrame_new (Some (cells fl ++ tf)) (Some (cells lang ++ tl))
     (Some (cells (text_image d) ++ td)) (Some (cells (text_image c) ++ tc))
  = Ok (frame_of (FComment fl lang d c)).
Proof.
  intros H. pose proof (frame_ok_common _ H) as (_ & Hf & Hs).
  pose proof (frame_ok_kind _ H) as (Hl & Hd & Hc). cbn [frame_flags] in *.
  rewrite body_size_comment in Hs.
  pose proof (text_image_pos d). pose proof (text_image_pos c).
  assert (Ll : zlen lang = 3) by (unfold zlen; rewrite Hl; reflexivity).
  unfold CommentFrame_new, CommentFrameData_new.
  rewrite has_bom_text by auto. go. rewrite encoding_text.
  rewrite !strlent_text by (auto; lia). go.
  rewrite memcpy_from_app by (rewrite zlen_cells, Ll; reflexivity). go.
  rewrite !memcpy_from_app by (now rewrite zlen_cells). go. cbn [cd_size].
  change ID3v2_FRAME_ENCODING_LENGTH with 1. change ID3v2_COMMENT_FRAME_LANGUAGE_LENGTH with 3.
  rewrite iadd_ok by lia. go. rewrite iadd_ok by lia. go. rewrite iadd_ok by lia. go.
  change ID3v2_COMMENT_FRAME_ID with (Some (cells (lit "COMM") ++ [Some x00])).
  rewrite FrameHeader_new_ok by auto. go. unfold frame_of. cbn [frame_id frame_flags].
  rewrite body_size_comment. do 3 f_equal. lia.
Qed.

Lemma ApicFrame_new_ok fl m ty d pic tf tm td tp n :
  frame_ok (FPicture fl m ty d pic) = true -> n = zlen pic ->
  ApicFrame_new (Some (cells fl ++ tf)) (Some (cells (text_image d) ++ td)) ty
     (Some (cells (text_image m) ++ tm)) n (Some (cells pic ++ tp))
  = Ok (frame_of (FPicture fl m ty d pic)).
Proof.
  intros H ->. pose proof (frame_ok_common _ H) as (_ & Hf & Hs).
  pose proof (frame_ok_kind _ H) as (Hm & Hd). cbn [frame_flags] in *.
  rewrite body_size_picture in Hs.
  pose proof (text_image_pos d). pose proof (text_image_pos m). pose proof (zlen_nonneg pic).
  unfold ApicFrame_new, ApicFrameData_new.
  rewrite has_bom_text by auto. go. rewrite encoding_text.
  rewrite !strlent_text by (auto; lia). go.
  rewrite !memcpy_from_app by (now rewrite zlen_cells). go. cbn [ad_picture_size].
  change ID3v2_FRAME_ENCODING_LENGTH with 1. change ID3v2_APIC_FRAME_PICTURE_TYPE_LENGTH with 1.
  rewrite iadd_ok by lia. go. rewrite iadd_ok by lia. go. rewrite iadd_ok by lia. go.
  rewrite iadd_ok by lia. go.
  change ID3v2_ALBUM_COVER_FRAME_ID with (Some (cells (lit "APIC") ++ [Some x00])).
  rewrite FrameHeader_new_ok by auto. go. unfold frame_of. cbn [frame_id frame_flags].
  now rewrite body_size_picture.
Qed.

(** ** Frame headers *)

Lemma is_zero_all id : length id = 4%nat -> forallb is_zero id = true -> id = [x00; x00; x00; x00].
Proof.
  destruct id as [|a [|b [|c [|d [|? ?]]]]]; intros L; try discriminate L.
  cbn [forallb]. rewrite !is_zero_beq, !andb_true_iff, !beq_true. intros (-> & -> & -> & -> & _). reflexivity.
Qed.

Lemma be_value_range4 l : length l = 4%nat -> 0 <= be_value l < 2 ^ 32.
Proof.
  destruct l as [|a [|b [|c [|d [|? ?]]]]]; intros L; try discriminate L.
  rewrite be_value4. pose proof (bv_range a). pose proof (bv_range b). pose proof (bv_range c). pose proof (bv_range d).
  change (2 ^ 32) with 4294967296. lia.
Qed.

Lemma FrameHeader_parse_ok pre id sz fl rest ver :
  length id = 4%nat -> length sz = 4%nat -> length fl = 2%nat ->
  forallb is_zero id = false ->
  fits pre (cells id ++ cells sz ++ cells fl ++ rest) ->
  FrameHeader_parse (at_pos pre (cells id ++ cells sz ++ cells fl ++ rest)) ver
  = Ok (Some (mkFH (cells id) (declared_size ver sz) (cells fl)),
        at_pos (pre ++ cells id ++ cells sz ++ cells fl) rest).
Proof.
  intros Li Ls Lf Nz F. unfold FrameHeader_parse.
  assert (Zi : zlen (cells id) = 4) by (rewrite zlen_cells; unfold zlen; rewrite Li; reflexivity).
  assert (Zs : zlen (cells sz) = 4) by (rewrite zlen_cells; unfold zlen; rewrite Ls; reflexivity).
  assert (Zf : zlen (cells fl) = 2) by (rewrite zlen_cells; unfold zlen; rewrite Lf; reflexivity).
  rewrite read_into_at by (auto; now rewrite Zi). go.
  rewrite <- (app_nil_r (cells id)) at 1. rewrite memcmp_eq_neq; [|now rewrite Li|].
  2:{ intros E. rewrite <- E in Nz. discriminate Nz. }
  go. rewrite slice_at; [|fit|now rewrite Zs]. go.
  rewrite btoi_spec by (unfold zlen; rewrite Ls; reflexivity). go.
  rewrite read_into_at; [|fit|now rewrite Zf]. go.
  rewrite <- (app_nil_r (cells id)) at 1. rewrite <- (app_nil_r (cells fl)) at 1.
  rewrite FrameHeader_new_ok by auto. go.
  do 3 f_equal.
  - unfold declared_size. f_equal. destruct (ver =? 4).
    + rewrite decode_be_value by auto.
      pose proof (synchsafe_value_range sz). apply to_i32_id. lia.
    + now rewrite to_u32_id by now apply be_value_range4.
  - now rewrite !app_assoc.
Qed.

Lemma FrameHeader_parse_padding pre rest ver :
  fits pre (cells [x00; x00; x00; x00] ++ rest) ->
  FrameHeader_parse (at_pos pre (cells [x00; x00; x00; x00] ++ rest)) ver
  = Ok (None, at_pos pre (cells [x00; x00; x00; x00] ++ rest)).
Proof.
  intros F. unfold FrameHeader_parse. rewrite read_into_at by (auto; reflexivity). go.
  rewrite <- (app_nil_r (cells _)) at 1. rewrite memcmp_eq_refl. go.
  rewrite seek_back_at by (auto; reflexivity). reflexivity.
Qed.

(** ** Parsing one frame *)

Lemma id0_is_cells h id c :
  fh_id h = cells id -> id <> [] -> id0_is h c = Ok (id_starts id c).
Proof.
  intros E N. unfold id0_is. rewrite E. destruct id as [|x id]; [congruence|]. reflexivity.
Qed.

Lemma starts_nonzero id c : c <> x00 -> id_starts id c = true -> forallb is_zero id = false.
Proof.
  destruct id as [|x id]; simpl; [discriminate|]. intros N H.
  change Byte.eqb with beq in H. apply beq_true in H. subst x.
  rewrite is_zero_beq. destruct (beq_spec c x00); [congruence|]. reflexivity.
Qed.

Lemma starts_excl id a b : a <> b -> id_starts id a = true -> id_starts id b = false.
Proof.
  destruct id as [|x id]; simpl; [discriminate|]. change Byte.eqb with beq.
  intros N H. apply beq_true in H. subst. now apply beq_false.
Qed.

Lemma len_nonnil {A} (l : list A) n : length l = S n -> l <> [].
Proof. destruct l; simpl; congruence. Qed.

Section Parse.
  Variables (pre rest : mem) (ver : Z) (id sz fl : list byte).
  Hypothesis Li : length id = 4%nat.
  Hypothesis Ls : length sz = 4%nat.
  Hypothesis Lf : length fl = 2%nat.

  Let hdr : mem := cells id ++ cells sz ++ cells fl.

  Lemma hdr_len : zlen hdr = 10.
  Proof. unfold hdr. rewrite !zlen_app, !zlen_cells. unfold zlen. rewrite Li, Ls, Lf. reflexivity. Qed.

  (** The first header parse of Frame_parse, the dispatch, and the rewind. *)
  Lemma Frame_parse_dispatch body :
    forallb is_zero id = false ->
    fits pre (hdr ++ body) ->
    Frame_parse (at_pos pre (hdr ++ body)) ver =
    if id_starts id "T" then let* (f, cs) := TextFrame_parse (at_pos pre (hdr ++ body)) ver in Ok (Some f, cs)
    else if id_starts id "C" then let* (f, cs) := CommentFrame_parse (at_pos pre (hdr ++ body)) ver in Ok (Some f, cs)
    else if id_starts id "A" then let* (f, cs) := ApicFrame_parse (at_pos pre (hdr ++ body)) ver in Ok (Some f, cs)
    else if declared_size ver sz <? 0 then Ub BadSize
    else let* (data, cs) := read_into (at_pos (pre ++ hdr) body) (declared_size ver sz) in
         Ok (Some (mkFrame (mkFH (cells id) (declared_size ver sz) (cells fl)) (DRaw data)), cs).
  Proof.
    intros Nz F. unfold Frame_parse.
    assert (E : FrameHeader_parse (at_pos pre (hdr ++ body)) ver
      = Ok (Some (mkFH (cells id) (declared_size ver sz) (cells fl)), at_pos (pre ++ hdr) body)).
    { unfold hdr. rewrite <- !app_assoc. rewrite FrameHeader_parse_ok; auto.
      unfold hdr in F. now rewrite <- !app_assoc in F. }
    rewrite E. go.
    unfold FrameHeader_isTextFrame, FrameHeader_isCommentFrame, FrameHeader_isApicFrame.
    rewrite !(id0_is_cells _ id) by (auto; now apply (len_nonnil _ 3)). go. cbn [fh_size].
    rewrite seek_back_at by (auto; now rewrite hdr_len). reflexivity.
  Qed.

  Lemma parse_text t enc junk :
    id_starts id "T" = true -> text_ok t = true ->
    fits pre (hdr ++ cells ([enc] ++ text_image t ++ junk) ++ rest) ->
    declared_size ver sz = zlen ([enc] ++ text_image t ++ junk) ->
    zlen (text_image t) + 11 < 2 ^ 31 ->
    Frame_parse (at_pos pre (hdr ++ cells ([enc] ++ text_image t ++ junk) ++ rest)) ver
    = Ok (Some (frame_of (FText id fl t)),
          at_pos (pre ++ hdr ++ cells ([enc] ++ text_image t ++ junk)) rest).
  Proof.
    intros HT Ht F Hs Hb.
    assert (Nz : forallb is_zero id = false) by (apply (starts_nonzero _ "T"); auto; discriminate).
    rewrite Frame_parse_dispatch by auto. rewrite HT.
    unfold TextFrame_parse.
    assert (E : FrameHeader_parse (at_pos pre (hdr ++ cells ([enc] ++ text_image t ++ junk) ++ rest)) ver
      = Ok (Some (mkFH (cells id) (declared_size ver sz) (cells fl)),
            at_pos (pre ++ hdr) (cells ([enc] ++ text_image t ++ junk) ++ rest))).
    { unfold hdr in *. rewrite <- !app_assoc in *. now rewrite FrameHeader_parse_ok. }
    rewrite E. go. clear E.
    rewrite cells_app, <- app_assoc.
    rewrite seek_fwd_at; [|fit|reflexivity]. go. cbn [deref fh_size fh_id fh_flags]. go.
    rewrite Hs, zlen_app. change (zlen [enc]) with 1. change ID3v2_FRAME_ENCODING_LENGTH with 1.
    pose proof (text_image_pos t). pose proof (zlen_nonneg junk). pose proof (zlen_nonneg rest).
    pose proof (zlen_nonneg pre).
    assert (B : zlen (text_image t ++ junk) < 2 ^ 31 - 1).
    { unfold fits in F. rewrite !zlen_app, zlen_cells, !zlen_app in F. change (zlen [enc]) with 1 in F.
      rewrite hdr_len in F. rewrite zlen_app. lia. }
    assert (0 <= zlen (text_image t ++ junk)) by apply zlen_nonneg.
    rewrite isub_ok by lia. go.
    unfold vla. replace (1 + zlen (text_image t ++ junk) - 1) with (zlen (text_image t ++ junk)) by lia.
    replace (zlen (text_image t ++ junk) <=? 0) with false by (rewrite zlen_app; lia). go.
    rewrite read_into_at; [|fit|now rewrite zlen_cells]. go.
    rewrite cells_app.
    rewrite <- (app_nil_r (cells id)), <- (app_nil_r (cells fl)).
    rewrite TextFrame_new_ok. 2:{
      unfold frame_ok. cbn [frame_id frame_flags]. rewrite body_size_text.
      unfold len_is. rewrite Li, Lf, HT, Ht. cbn [Nat.eqb andb].
      replace (1 + zlen (text_image t) + 10 <? 2 ^ 31) with true by lia. reflexivity. }
    go. do 3 f_equal.
    now rewrite <- !app_assoc.
  Qed.

  Lemma parse_comment enc lang d c :
    id_starts id "C" = true -> length lang = 3%nat -> text_ok d = true -> text_ok c = true ->
    fits pre (hdr ++ cells ([enc] ++ lang ++ text_image d ++ text_image c) ++ rest) ->
    Frame_parse (at_pos pre (hdr ++ cells ([enc] ++ lang ++ text_image d ++ text_image c) ++ rest)) ver
    = Ok (Some (frame_of (FComment fl lang d c)),
          at_pos (pre ++ hdr ++ cells ([enc] ++ lang ++ text_image d ++ text_image c)) rest).
  Proof.
    intros HC Hl Hd Hc F.
    assert (Nz : forallb is_zero id = false) by (apply (starts_nonzero _ "C"); auto; discriminate).
    rewrite Frame_parse_dispatch by auto.
    rewrite (starts_excl id "C" "T") by (auto; discriminate). rewrite HC.
    unfold CommentFrame_parse.
    assert (E : FrameHeader_parse (at_pos pre (hdr ++ cells ([enc] ++ lang ++ text_image d ++ text_image c) ++ rest)) ver
      = Ok (Some (mkFH (cells id) (declared_size ver sz) (cells fl)),
            at_pos (pre ++ hdr) (cells ([enc] ++ lang ++ text_image d ++ text_image c) ++ rest))).
    { unfold hdr in *. rewrite <- !app_assoc in *. now rewrite FrameHeader_parse_ok. }
    rewrite E. go. clear E.
    assert (B : zlen (text_image d) + zlen (text_image c) + 14 < 2 ^ 31).
    { unfold fits in F. rewrite !zlen_app, zlen_cells, !zlen_app in F. change (zlen [enc]) with 1 in F.
      rewrite hdr_len in F. pose proof (zlen_nonneg pre). pose proof (zlen_nonneg rest).
      assert (zlen lang = 3) by (unfold zlen; rewrite Hl; reflexivity). lia. }
    pose proof (text_image_pos d). pose proof (text_image_pos c).
    rewrite !cells_app, <- !app_assoc. rewrite !cells_app, <- !app_assoc in F.
    rewrite seek_fwd_at; [|fit|reflexivity]. go.
    rewrite read_into_at; [|fit|rewrite zlen_cells; unfold zlen; rewrite Hl; reflexivity]. go.
    rewrite get_cur_at, strlent_text by (auto; lia). go.
    unfold vla at 1. ifF. go.
    rewrite read_into_at; [|fit|now rewrite zlen_cells]. go.
    rewrite get_cur_at, strlent_text by (auto; lia). go.
    unfold vla. ifF. go.
    rewrite read_into_at; [|fit|now rewrite zlen_cells]. go.
    cbn [deref fh_flags]. go.
    rewrite <- (app_nil_r (cells fl)), <- (app_nil_r (cells lang)), <- (app_nil_r (cells (text_image d))), <- (app_nil_r (cells (text_image c))).
    rewrite CommentFrame_new_ok. 2:{
      unfold frame_ok. cbn [frame_id frame_flags]. rewrite body_size_comment.
      unfold len_is. rewrite Lf, Hl, Hd, Hc. change (zlen lang) with (Z.of_nat (length lang)). rewrite Hl.
      cbn [Nat.eqb andb]. change (length (lit "COMM") =? 4)%nat with true. cbn [andb].
      replace (1 + Z.of_nat 3 + zlen (text_image d) + zlen (text_image c) + 10 <? 2 ^ 31) with true by lia. reflexivity. }
    go. rewrite ?app_nil_r. do 3 f_equal.
    now rewrite <- !app_assoc.
  Qed.

  Lemma parse_picture enc m ty d pic :
    id_starts id "A" = true -> text_ok m = true -> text_ok d = true -> pic <> [] ->
    fits pre (hdr ++ cells ([enc] ++ text_image m ++ [ty] ++ text_image d ++ pic) ++ rest) ->
    declared_size ver sz = zlen ([enc] ++ text_image m ++ [ty] ++ text_image d ++ pic) ->
    Frame_parse (at_pos pre (hdr ++ cells ([enc] ++ text_image m ++ [ty] ++ text_image d ++ pic) ++ rest)) ver
    = Ok (Some (frame_of (FPicture fl m ty d pic)),
          at_pos (pre ++ hdr ++ cells ([enc] ++ text_image m ++ [ty] ++ text_image d ++ pic)) rest).
  Proof.
    intros HA Hm Hd Np F Hs.
    assert (Nz : forallb is_zero id = false) by (apply (starts_nonzero _ "A"); auto; discriminate).
    rewrite Frame_parse_dispatch by auto.
    rewrite (starts_excl id "A" "T"), (starts_excl id "A" "C") by (auto; discriminate). rewrite HA.
    unfold ApicFrame_parse.
    assert (E : FrameHeader_parse (at_pos pre (hdr ++ cells ([enc] ++ text_image m ++ [ty] ++ text_image d ++ pic) ++ rest)) ver
      = Ok (Some (mkFH (cells id) (declared_size ver sz) (cells fl)),
            at_pos (pre ++ hdr) (cells ([enc] ++ text_image m ++ [ty] ++ text_image d ++ pic) ++ rest))).
    { unfold hdr in *. rewrite <- !app_assoc in *. now rewrite FrameHeader_parse_ok. }
    rewrite E. go. clear E.
    rewrite !zlen_app in Hs. change (zlen [enc]) with 1 in Hs. change (zlen [ty]) with 1 in Hs.
    assert (B : zlen (text_image m) + zlen (text_image d) + zlen pic + 12 < 2 ^ 31).
    { unfold fits in F. rewrite !zlen_app, zlen_cells, !zlen_app in F. change (zlen [enc]) with 1 in F.
      change (zlen [ty]) with 1 in F.
      rewrite hdr_len in F. pose proof (zlen_nonneg pre). pose proof (zlen_nonneg rest). lia. }
    pose proof (text_image_pos d). pose proof (text_image_pos m).
    assert (1 <= zlen pic).
    { destruct pic; [congruence|]. rewrite zlen_cons. pose proof (zlen_nonneg pic). lia. }
    rewrite !cells_app, <- !app_assoc. rewrite !cells_app, <- !app_assoc in F.
    rewrite seek_fwd_at; [|fit|reflexivity]. go.
    rewrite get_cur_at, strlent_text by (auto; lia). go.
    unfold vla at 1. ifF. go.
    rewrite read_into_at; [|fit|now rewrite zlen_cells]. go.
    change (cells [ty] ++ cells (text_image d) ++ cells pic ++ rest)
      with (Some ty :: (cells (text_image d) ++ cells pic ++ rest)).
    rewrite getc_at. go. rewrite zb_schar.
    rewrite get_cur_at, strlent_text by (auto; lia). go.
    unfold vla at 1. ifF. go.
    rewrite read_into_at; [|fit|now rewrite zlen_cells]. go.
    cbn [deref fh_flags fh_size]. go. rewrite Hs.
    change ID3v2_FRAME_ENCODING_LENGTH with 1. change ID3v2_APIC_FRAME_PICTURE_TYPE_LENGTH with 1.
    rewrite isub_ok by lia. go. rewrite isub_ok by lia. go. rewrite isub_ok by lia. go.
    rewrite isub_ok by lia. go.
    unfold vla. ifF. go.
    rewrite read_into_at; [|fit|rewrite zlen_cells; lia]. go.
    rewrite <- (app_nil_r (cells fl)), <- (app_nil_r (cells (text_image d))), <- (app_nil_r (cells (text_image m))), <- (app_nil_r (cells pic)).
    rewrite ApicFrame_new_ok; [|
      unfold frame_ok; cbn [frame_id frame_flags]; rewrite body_size_picture;
      unfold len_is; rewrite Lf, Hd, Hm; change (length (lit "APIC") =? 4)%nat with true; cbn [Nat.eqb andb];
      replace (1 + zlen (text_image m) + 1 + zlen (text_image d) + zlen pic + 10 <? 2 ^ 31) with true by lia; reflexivity | lia].
    go. rewrite ?app_nil_r. do 3 f_equal.
    now rewrite <- !app_assoc.
  Qed.

  Lemma parse_other body :
    id_starts id "T" = false -> id_starts id "C" = false -> id_starts id "A" = false ->
    forallb is_zero id = false ->
    fits pre (hdr ++ cells body ++ rest) ->
    declared_size ver sz = zlen body ->
    Frame_parse (at_pos pre (hdr ++ cells body ++ rest)) ver
    = Ok (Some (frame_of (FOther id fl body)), at_pos (pre ++ hdr ++ cells body) rest).
  Proof.
    intros H1 H2 H3 Nz F Hs. rewrite Frame_parse_dispatch by auto. rewrite H1, H2, H3, Hs.
    pose proof (zlen_nonneg body). ifF.
    rewrite read_into_at; [|fit|now rewrite zlen_cells]. go.
    unfold frame_of. cbn [frame_id frame_flags]. rewrite body_size_other. do 3 f_equal.
    now rewrite <- !app_assoc.
  Qed.
End Parse.

(** ** Serialising one frame *)

(** [k] zeroed cells. *)
Definition zmem (k : Z) : mem := repeat (Some x00) (Z.to_nat k).

Lemma zlen_zmem k : 0 <= k -> zlen (zmem k) = k.
Proof. intros. unfold zmem. rewrite zlen_repeat. lia. Qed.

Lemma new_z n : 0 <= n -> CharStream_new n = Ok (at_pos [] (zmem n)).
Proof. apply new_at. Qed.

Lemma write_z pre k data tail n :
  zlen pre + k < 2 ^ 31 -> n = zlen data -> zlen data <= k ->
  CharStream_write (at_pos pre (zmem k)) (data ++ tail) n
  = Ok (at_pos (pre ++ data) (zmem (k - zlen data))).
Proof.
  intros F E L. pose proof (zlen_nonneg data). unfold zmem.
  rewrite write_zeros by (auto; unfold zlen in *; lia).
  do 3 f_equal. unfold zlen. lia.
Qed.

Lemma write_z' pre k data n :
  zlen pre + k < 2 ^ 31 -> n = zlen data -> zlen data <= k ->
  CharStream_write (at_pos pre (zmem k)) data n
  = Ok (at_pos (pre ++ data) (zmem (k - zlen data))).
Proof. intros. rewrite <- (app_nil_r data) at 1. now apply write_z. Qed.

Lemma at_pos_end pre k : k = 0 -> at_pos pre (zmem k) = mkCS (zlen pre) (zlen pre) pre.
Proof.
  intros ->. unfold at_pos. change (zmem 0) with (@nil cell).
  rewrite app_nil_r. change (zlen (@nil cell)) with 0. f_equal. lia.
Qed.

Lemma FrameHeader_write id fl s :
  length id = 4%nat -> length fl = 2%nat ->
  FrameHeader_to_char_stream (mkFH (cells id) s (cells fl))
  = Ok (mkCS 10 10 (cells (id ++ be32 s ++ fl))).
Proof.
  intros Li Lf. unfold FrameHeader_to_char_stream. go. change ID3v2_FRAME_HEADER_LENGTH with 10.
  assert (Zi : zlen id = 4) by (unfold zlen; rewrite Li; reflexivity).
  assert (Zf : zlen fl = 2) by (unfold zlen; rewrite Lf; reflexivity).
  assert (Zs : zlen (be32 s) = 4) by reflexivity.
  rewrite itob_spec.
  rewrite new_z by lia. go.
  rewrite write_z'; zl; rewrite ?Zi; try reflexivity; try lia. go.
  rewrite write_z'; zl; rewrite ?Zi, ?Zs; try reflexivity; try lia. go.
  rewrite write_z'; zl; rewrite ?Zi, ?Zs, ?Zf; try reflexivity; try lia. go.
  rewrite at_pos_end by reflexivity. cbn [app].
  rewrite <- app_assoc, <- !cells_app. zl. rewrite Zi, Zs, Zf. reflexivity.
Qed.

Lemma start_stream id fl s :
  length id = 4%nat -> length fl = 2%nat -> 0 <= s -> s + 10 < 2 ^ 31 ->
  start_frame_stream (mkFH (cells id) s (cells fl))
  = Ok (at_pos (cells (id ++ be32 s ++ fl)) (zmem s)).
Proof.
  intros Li Lf Hs Hb. unfold start_frame_stream. rewrite FrameHeader_write by auto. go.
  change ID3v2_FRAME_HEADER_LENGTH with 10. rewrite iadd_ok by lia. go. cbn [cs_stream cs_size].
  rewrite new_z by lia. go.
  assert (E : zlen (id ++ be32 s ++ fl) = 10).
  { zl. unfold zlen. rewrite Li, Lf. reflexivity. }
  rewrite write_z'; rewrite ?zlen_cells, ?E; try reflexivity; try (change (zlen (@nil cell)) with 0; lia).
  cbn [app]. do 3 f_equal. lia.
Qed.

Lemma frame_image_length f : frame_ok f = true -> zlen (frame_image be32 f) = body_size f + 10.
Proof.
  intros H. pose proof (frame_ok_common _ H) as (Hi & Hf & _).
  unfold frame_image. zl. unfold body_size, frame_body. unfold zlen. rewrite Hi, Hf.
  change (length (be32 _)) with 4%nat. lia.
Qed.

(** Writing a well-formed frame gives its image. *)
Lemma frame_write f :
  frame_ok f = true ->
  Frame_to_char_stream (Some (frame_of f))
  = Ok (Some (mkCS (body_size f + 10) (body_size f + 10) (cells (frame_image be32 f)))).
Proof.
  intros H. pose proof (frame_ok_common _ H) as (Hi & Hf & Hs).
  pose proof (frame_ok_kind _ H) as Hk. pose proof (body_size_nonneg f) as Hn.
  pose proof (frame_image_length f H) as Himg.
  unfold Frame_to_char_stream, FrameHeader_isTextFrame, FrameHeader_isCommentFrame, FrameHeader_isApicFrame.
  rewrite !(id0_is_cells _ (frame_id f)) by (auto; now apply (len_nonnil _ 3)). go.
  unfold frame_image, frame_body in *.
  destruct f as [id fl t|fl lang d c|fl m ty d pic|id fl body]; unfold frame_of in *; cbn [frame_id frame_flags f_hdr f_data] in *; go.
  - destruct Hk as (HT & Ht). rewrite HT. unfold TextFrame_to_char_stream. rewrite body_size_text in *.
    pose proof (text_image_pos t).
    rewrite start_stream by (auto; lia). go. cbn [td_encoding td_text td_size].
    assert (E : zlen (id ++ be32 (1 + zlen (text_image t)) ++ fl) = 10).
    { zl. unfold zlen. rewrite Hi, Hf. reflexivity. }
    rewrite write_z'; [|rewrite zlen_cells, E; lia|reflexivity|zl; lia]. go.
    rewrite write_z'; [|zl; rewrite ?zlen_app in E; lia|now rewrite zlen_cells|zl; lia]. go.
    rewrite at_pos_end by (zl; lia). unfold body_with. cbn [frame_encoding].
    change ([Some (text_encoding t)]) with (cells [text_encoding t]).
    rewrite <- !cells_app. rewrite zlen_cells, <- !app_assoc.
    rewrite <- Himg. reflexivity.
  - change (id_starts (lit "COMM") "T") with false. change (id_starts (lit "COMM") "C") with true.
    destruct Hk as (Hl & Hd & Hc).
    unfold CommentFrame_to_char_stream. rewrite body_size_comment in *.
    assert (Ll : zlen lang = 3) by (unfold zlen; rewrite Hl; reflexivity).
    pose proof (text_image_pos d). pose proof (text_image_pos c).
    rewrite start_stream by (auto; lia). go. cbn [cd_encoding cd_language cd_short cd_comment cd_size].
    match goal with |- context [at_pos (cells ?l)] => assert (E : zlen l = 10) end.
    { zl. unfold zlen. rewrite Hf. reflexivity. }
    rewrite write_z'; [|rewrite zlen_cells, E; lia|reflexivity|zl; lia]. go.
    rewrite write_z'; [|zl; rewrite ?zlen_app in E; lia|zl; now rewrite Ll|zl; lia]. go.
    rewrite strlent_text' by (auto; lia). go.
    rewrite write_z'; [|zl; rewrite ?zlen_app in E; lia|now rewrite zlen_cells|zl; lia]. go.
    rewrite write_z'; [|zl; rewrite ?zlen_app in E; lia|now rewrite zlen_cells|zl; lia]. go.
    rewrite at_pos_end by (zl; lia). unfold body_with. cbn [frame_encoding].
    change ([Some (text_encoding c)]) with (cells [text_encoding c]).
    rewrite <- !cells_app. rewrite zlen_cells, <- !app_assoc.
    rewrite <- Himg. reflexivity.
  - change (id_starts (lit "APIC") "T") with false. change (id_starts (lit "APIC") "C") with false.
    change (id_starts (lit "APIC") "A") with true.
    destruct Hk as (Hm & Hd).
    unfold ApicFrame_to_char_stream. rewrite body_size_picture in *.
    pose proof (text_image_pos d). pose proof (text_image_pos m). pose proof (zlen_nonneg pic).
    rewrite start_stream by (auto; lia). go. cbn [ad_encoding ad_mime ad_type ad_desc ad_data ad_picture_size].
    match goal with |- context [at_pos (cells ?l)] => assert (E : zlen l = 10) end.
    { zl. unfold zlen. rewrite Hf. reflexivity. }
    rewrite write_z'; [|rewrite zlen_cells, E; lia|reflexivity|zl; lia]. go.
    rewrite strlent_text' by (auto; lia). go.
    rewrite write_z'; [|zl; rewrite ?zlen_app in E; lia|now rewrite zlen_cells|zl; lia]. go.
    rewrite write_z'; [|zl; rewrite ?zlen_app in E; lia|reflexivity|zl; lia]. go.
    rewrite strlent_text' by (auto; lia). go.
    rewrite write_z'; [|zl; rewrite ?zlen_app in E; lia|now rewrite zlen_cells|zl; lia]. go.
    rewrite write_z'; [|zl; rewrite ?zlen_app in E; lia|now rewrite zlen_cells|zl; lia]. go.
    rewrite at_pos_end by (zl; lia). unfold body_with. cbn [frame_encoding].
    change ([Some (text_encoding d)]) with (cells [text_encoding d]).
    change ([Some ty]) with (cells [ty]).
    rewrite <- !cells_app. rewrite zlen_cells, <- !app_assoc.
    rewrite <- Himg. reflexivity.
  - destruct Hk as (H1 & H2 & H3 & H4). rewrite H1, H2, H3. rewrite body_size_other in *.
    change ID3v2_FRAME_HEADER_LENGTH with 10. rewrite iadd_ok by lia. go.
    rewrite new_z by lia. go. rewrite FrameHeader_write by auto. go. cbn [cs_stream].
    assert (E : zlen (id ++ be32 (zlen body) ++ fl) = 10).
    { zl. unfold zlen. rewrite Hi, Hf. reflexivity. }
    rewrite write_z'; [|change (zlen (@nil cell)) with 0; lia|now rewrite zlen_cells, E|rewrite zlen_cells, E; lia]. go.
    rewrite write_z'; [|cbn [app]; rewrite zlen_cells, E; lia|now rewrite zlen_cells|rewrite !zlen_cells; lia]. go.
    rewrite at_pos_end by (rewrite !zlen_cells; lia). cbn [app]. unfold body_with.
    rewrite <- !cells_app. rewrite zlen_cells, <- !app_assoc.
    rewrite <- Himg. reflexivity.
Qed.
