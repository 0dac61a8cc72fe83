(** Facts about parsing frames (frame.c and frames/*.c), well-formed and not. *)
From Verif Require Import File Spec.
From Verif Require Export HeaderFacts Benign.

(** Parsing the image of a frame, with any encoding byte and any size field
    that stands for the right size. *)
Lemma frame_parse f enc sz pre rest ver :
  frame_ok f = true -> readable f = true ->
  length sz = 4%nat -> declared_size ver sz = body_size f ->
  fits pre (cells (frame_id f ++ sz ++ frame_flags f ++ body_with enc f) ++ rest) ->
  Frame_parse (at_pos pre (cells (frame_id f ++ sz ++ frame_flags f ++ body_with enc f) ++ rest)) ver
  = Ok (Some (frame_of f),
        at_pos (pre ++ cells (frame_id f ++ sz ++ frame_flags f ++ body_with enc f)) rest).
Proof.
  intros H R Ls Hs F. pose proof (frame_ok_common _ H) as (Hi & Hf & Hb).
  pose proof (frame_ok_kind _ H) as Hk. rewrite <- (body_with_size enc) in Hs.
  rewrite !cells_app in *. rewrite <- !app_assoc in F. rewrite <- !app_assoc.

  assert (A : forall (x y z w : mem), x ++ y ++ z ++ w = (x ++ y ++ z) ++ w)
    by (intros; now rewrite <- !app_assoc).
  rewrite A. rewrite A in F.
  replace (pre ++ cells (frame_id f) ++ cells sz ++ cells (frame_flags f) ++ cells (body_with enc f))
    with (pre ++ (cells (frame_id f) ++ cells sz ++ cells (frame_flags f)) ++ cells (body_with enc f))
    by (now rewrite <- !app_assoc).
  destruct f as [id fl t|fl lang d c|fl m ty d pic|id fl body]; cbn [frame_id frame_flags body_with] in *.
  - destruct Hk as (HT & Ht). rewrite body_size_text in Hb.
    rewrite <- (app_nil_r (text_image t)) in *. apply parse_text; rewrite ?app_nil_r in *; auto. lia.
  - destruct Hk as (Hl & Hd & Hc). apply parse_comment; auto.
  - destruct Hk as (Hm & Hd). apply parse_picture; auto.
    intros ->. discriminate R.
  - destruct Hk as (H1 & H2 & H3 & H4). now apply parse_other.
Qed.

Lemma declared_be32 n ver : ver <> 4 -> 0 <= n < 2 ^ 31 -> declared_size ver (be32 n) = n.
Proof.
  intros V H. unfold declared_size. replace (ver =? 4) with false by lia.
  rewrite be_value_be32. unfold to_i32. change (2 ^ 31) with 2147483648 in *. change (2 ^ 32) with 4294967296. lia.
Qed.

Lemma declared_synchsafe n : 0 <= n < 2 ^ 28 -> declared_size 4 (synchsafe32 n) = n.
Proof. intros. unfold declared_size. cbn [Z.eqb Pos.eqb]. now apply synchsafe_value_synchsafe32. Qed.

Lemma lor_disj x y : Z.land x y = 0 -> Z.lor x y = x + y.
Proof. intros E. rewrite <- (Z.lxor_lor x y) by auto. now rewrite Z.add_nocarry_lxor. Qed.

Lemma lor_le_sum x y : 0 <= x -> 0 <= y -> Z.lor x y <= x + y.
Proof.
  intros Hx Hy.
  assert (E1 : Z.lor x y = x + Z.ldiff y x).
  { rewrite <- lor_disj.
    - apply Z.bits_inj'. intros k _. rewrite !Z.lor_spec, Z.ldiff_spec. now destruct (Z.testbit x k), (Z.testbit y k).
    - apply Z.bits_inj'. intros k _. rewrite Z.land_spec, Z.ldiff_spec, Z.bits_0. now destruct (Z.testbit x k), (Z.testbit y k). }
  assert (E2 : y = Z.ldiff y x + Z.land y x).
  { rewrite <- lor_disj.
    - apply Z.bits_inj'. intros k _. rewrite Z.lor_spec, Z.land_spec, Z.ldiff_spec. now destruct (Z.testbit x k), (Z.testbit y k).
    - apply Z.bits_inj'. intros k _. rewrite !Z.land_spec, Z.ldiff_spec, Z.bits_0. now destruct (Z.testbit x k), (Z.testbit y k). }
  assert (0 <= Z.land y x) by (apply Z.land_nonneg; auto). lia.
Qed.

Lemma declared_be32_v4 n : 0 <= n < 2 ^ 31 -> (declared_size 4 (be32 n) = n <-> n < 256).
Proof.
  intros H. unfold declared_size. cbn [Z.eqb Pos.eqb].
  destruct (Z.ltb_spec n 256) as [C|C].
  - assert (E : synchsafe_value (be32 n) = n); [|tauto].
    unfold be32. cbn [synchsafe_value]. rewrite !bv_zb.
    replace (n / 2 ^ 24) with 0 by (change (2 ^ 24) with 16777216; lia).
    replace (n / 2 ^ 16) with 0 by (change (2 ^ 16) with 65536; lia).
    replace (n / 2 ^ 8) with 0 by (change (2 ^ 8) with 256; lia).
    rewrite Z.mod_small by lia. cbn [Z.modulo]. rewrite !Z.lor_0_r. reflexivity.
  - split; [|lia]. intros E. exfalso.
    unfold be32 in E. cbn [synchsafe_value] in E. rewrite !bv_zb in E.
    change (2 ^ 8) with 256 in *. change (2 ^ 16) with 65536 in *. change (2 ^ 24) with 16777216 in *.
    change (2 ^ 7) with 128 in *. change (2 ^ 14) with 16384 in *. change (2 ^ 21) with 2097152 in *.
    change (2 ^ 31) with 2147483648 in *.
    set (a := n mod 256) in *. set (b := n / 256 mod 256) in *. set (c := n / 65536 mod 256) in *.
    set (d := n / 16777216 mod 256) in *.
    assert (N : n = a + b * 256 + c * 65536 + d * 16777216) by (unfold a, b, c, d; lia).
    assert (Ra : 0 <= a < 256) by (unfold a; lia). assert (Rb : 0 <= b < 256) by (unfold b; lia).
    assert (Rc : 0 <= c < 256) by (unfold c; lia). assert (Rd : 0 <= d < 256) by (unfold d; lia).
    clearbody a b c d.
    (* lor is at most the sum *)
    assert (L : forall x y, 0 <= x -> 0 <= y -> Z.lor x y <= x + y).
    { intros x y Hx Hy. now apply lor_le_sum. }
    assert (P : forall x y, 0 <= x -> 0 <= y -> 0 <= Z.lor x y) by (intros; apply Z.lor_nonneg; auto).
    pose proof (P a (b * 128) ltac:(lia) ltac:(lia)).
    pose proof (P _ (c * 16384) H0 ltac:(lia)).
    pose proof (L (Z.lor (Z.lor a (b * 128)) (c * 16384)) (d * 2097152) ltac:(lia) ltac:(lia)).
    pose proof (L (Z.lor a (b * 128)) (c * 16384) ltac:(lia) ltac:(lia)).
    pose proof (L a (b * 128) ltac:(lia) ltac:(lia)).
    lia.
Qed.

(** ** The encoding byte is not looked at *)

Lemma getc_gen pre rest : CharStream_getc (at_pos pre rest) =
  match rest with
  | [] => Ok (-1, at_pos pre [])
  | None :: _ => Ub UninitRead
  | Some b :: rest' => Ok (schar b, at_pos (pre ++ [Some b]) rest')
  end.
Proof.
  destruct rest as [|[b|] rest].
  - unfold CharStream_getc. cbn [at_pos cs_size cs_cursor]. change (zlen (@nil cell)) with 0.
    now ifT.
  - apply getc_at.
  - unfold CharStream_getc. rewrite get_cur_at. cbn [at_pos cs_size cs_cursor].
    rewrite zlen_cons. pose proof (zlen_nonneg rest). now ifF.
Qed.

Lemma take_drop n (m : mem) : take n m ++ drop n m = m.
Proof. apply firstn_skipn. Qed.

Lemma zlen_take_drop n (m : mem) : zlen (take n m) + zlen (drop n m) = zlen m.
Proof. now rewrite <- zlen_app, take_drop. Qed.

(** What the ten cells of a frame header parse to. *)
Definition header_cells (h4 s4 f2 : mem) (ver : Z) : outcome (option FrameHeader) :=
  let* pad := memcmp_eq [x00; x00; x00; x00] h4 in
  if pad then Ok None
  else
    let* n := btoi s4 4 in
    Ok (Some (mkFH h4 (if ver =? 4 then to_i32 (syncint_decode (to_i32 n)) else to_i32 n) f2)).

Lemma zlen4 {A} (l : list A) : zlen l = 4 -> exists a b c d, l = [a; b; c; d].
Proof.
  destruct l as [|a [|b [|c [|d [|? ?]]]]]; rewrite ?zlen_cons; change (zlen (@nil A)) with 0; intros; try lia.
  - now exists a, b, c, d.
  - pose proof (zlen_nonneg l). lia.
Qed.

Lemma header10 pre h4 s4 f2 rest ver :
  zlen h4 = 4 -> zlen s4 = 4 -> zlen f2 = 2 -> fits pre (h4 ++ s4 ++ f2 ++ rest) ->
  FrameHeader_parse (at_pos pre (h4 ++ s4 ++ f2 ++ rest)) ver
  = let* h := header_cells h4 s4 f2 ver in
    match h with
    | None => Ok (None, at_pos pre (h4 ++ s4 ++ f2 ++ rest))
    | Some h => Ok (Some h, at_pos (pre ++ h4 ++ s4 ++ f2) rest)
    end.
Proof.
  intros L4 Ls L2 F. unfold FrameHeader_parse, header_cells.
  rewrite read_into_at by auto. go.
  destruct (memcmp_eq [x00; x00; x00; x00] h4) as [[|]|u|n|]; go; try reflexivity.
  - rewrite seek_back_at by (auto; now rewrite L4). reflexivity.
  - rewrite slice_at; [|fit|now rewrite Ls]. go.
    destruct (zlen4 s4 Ls) as (a & b & c & d & ->).
    change (btoi ([a; b; c; d] ++ f2 ++ rest) ID3v2_FRAME_HEADER_SIZE_LENGTH) with (btoi [a; b; c; d] 4).
    destruct (btoi [a; b; c; d] 4); go; try reflexivity.
    rewrite read_into_at; [|fit|now rewrite L2]. go.
    unfold FrameHeader_new. rewrite !memcpy_from_all by (now rewrite ?L4, ?L2). go.
    now rewrite <- !app_assoc.
Qed.

Definition seen1 (r : outcome (frame * CharStream)) : outcome (frame * Z) :=
  let* (f, cs) := r in Ok (f, cs_cursor cs).

Section Encoding.
  Variables (pre h4 s4 f2 rest : mem) (e1 e2 : cell) (ver : Z).
  Hypothesis L4 : zlen h4 = 4.
  Hypothesis Ls : zlen s4 = 4.
  Hypothesis L2 : zlen f2 = 2.
  Hypothesis F : zlen pre + 11 + zlen rest < 2 ^ 31.

  Let start (e : cell) := at_pos pre (h4 ++ s4 ++ f2 ++ e :: rest).

  Lemma enc_fits e : fits pre (h4 ++ s4 ++ f2 ++ e :: rest).
  Proof. unfold fits. zl. lia. Qed.

  Lemma enc_seek p e : zlen p = zlen pre + 10 ->
    CharStream_seek (at_pos p (e :: rest)) ID3v2_FRAME_ENCODING_LENGTH SEEK_CUR = Ok (at_pos (p ++ [e]) rest).
  Proof.
    intros Hp. apply (seek_fwd_at p [e] rest 1); [|reflexivity].
    unfold fits. zl. lia.
  Qed.

  Lemma enc_seek_pad e :
    CharStream_seek (at_pos pre (h4 ++ s4 ++ f2 ++ e :: rest)) ID3v2_FRAME_ENCODING_LENGTH SEEK_CUR
    = Ok (at_pos (pre ++ firstn 1 h4) (skipn 1 h4 ++ s4 ++ f2 ++ e :: rest)).
  Proof.
    destruct (zlen4 h4 L4) as (a & b & c & d & ->).
    apply (seek_fwd_at pre [a] _ 1); [|reflexivity]. unfold fits. zl. rewrite Ls, L2. lia.
  Qed.

  Lemma text_encoding_ignored h :
    header_cells h4 s4 f2 ver = Ok (Some h) ->
    seen1 (TextFrame_parse (start e1) ver) = seen1 (TextFrame_parse (start e2) ver).
  Proof.
    intros E. unfold TextFrame_parse, start.
    rewrite !header10 by (auto using enc_fits). rewrite E. go.
    assert (P : zlen (pre ++ h4 ++ s4 ++ f2) = zlen pre + 10) by (zl; lia).
    rewrite !enc_seek by auto. go.
    destruct (isub (fh_size h) ID3v2_FRAME_ENCODING_LENGTH) as [n| | |]; go; try reflexivity.
    unfold vla. destruct (n <=? 0) eqn:N; go; [reflexivity|].
    rewrite !read_into_gen by (try lia; unfold fits; zl; lia). go.
    match goal with |- context [TextFrame_new ?a ?b ?c] => destruct (TextFrame_new a b c) end; go; try reflexivity.
    unfold seen1. go. cbn [at_pos cs_cursor]. do 2 f_equal. zl. lia.
  Qed.

  Lemma comment_encoding_ignored h :
    header_cells h4 s4 f2 ver = Ok (Some h) ->
    seen1 (CommentFrame_parse (start e1) ver) = seen1 (CommentFrame_parse (start e2) ver).
  Proof.
    intros E. unfold CommentFrame_parse, start.
    rewrite !header10 by (auto using enc_fits). rewrite E. go.
    assert (P : zlen (pre ++ h4 ++ s4 ++ f2) = zlen pre + 10) by (zl; lia).
    rewrite !enc_seek by auto. go.
    change ID3v2_COMMENT_FRAME_LANGUAGE_LENGTH with 3.
    rewrite !read_into_gen by (try lia; unfold fits; zl; lia). go. rewrite !get_cur_at.
    pose proof (zlen_take_drop 3 rest).
    destruct (ID3v2_strlent (Some (drop 3 rest))) as [n| | |]; go; try reflexivity.
    unfold vla at 1 3. destruct (n <=? 0) eqn:N; go; [reflexivity|].
    rewrite !read_into_gen by (try lia; unfold fits; zl; lia). go. rewrite !get_cur_at.
    pose proof (zlen_take_drop n (drop 3 rest)).
    destruct (ID3v2_strlent (Some (drop n (drop 3 rest)))) as [k| | |]; go; try reflexivity.
    unfold vla. destruct (k <=? 0) eqn:K; go; [reflexivity|].
    rewrite !read_into_gen by (try lia; unfold fits; zl; lia). go.
    match goal with |- context [CommentFrame_new ?a ?b ?c ?d] => destruct (CommentFrame_new a b c d) end; go; try reflexivity.
    unfold seen1. go. cbn [at_pos cs_cursor]. do 2 f_equal. zl. lia.
  Qed.

  Lemma picture_encoding_ignored h :
    header_cells h4 s4 f2 ver = Ok (Some h) ->
    seen1 (ApicFrame_parse (start e1) ver) = seen1 (ApicFrame_parse (start e2) ver).
  Proof.
    intros E. unfold ApicFrame_parse, start.
    rewrite !header10 by (auto using enc_fits). rewrite E. go.
    assert (P : zlen (pre ++ h4 ++ s4 ++ f2) = zlen pre + 10) by (zl; lia).
    rewrite !enc_seek by auto. go. rewrite !get_cur_at.
    destruct (ID3v2_strlent (Some rest)) as [n| | |]; go; try reflexivity.
    unfold vla at 1 4. destruct (n <=? 0) eqn:N; go; [reflexivity|].
    rewrite !read_into_gen by (try lia; unfold fits; zl; lia). go.
    pose proof (zlen_take_drop n rest) as Z1.
    set (r1 := drop n rest) in *. clearbody r1.
    set (d1 := take n rest) in *. clearbody d1.
    assert (C : forall p1 p2 b : mem, zlen p1 = zlen p2 -> zlen p1 + zlen b = zlen pre + 11 + zlen r1 + zlen d1 ->
      forall z mime,
      seen1 (let* description_size := ID3v2_strlent (Some (CharStream_get_cur (at_pos p1 b))) in
       let* _ := vla description_size in
       let* (description, cs) := read_into (at_pos p1 b) description_size in
       let* s := isub (fh_size h) ID3v2_FRAME_ENCODING_LENGTH in
       let* s0 := isub s n in
       let* s1 := isub s0 ID3v2_APIC_FRAME_PICTURE_TYPE_LENGTH in
       let* pic_size := isub s1 description_size in
       let* _ := vla pic_size in
       let* (pic_data, cs0) := read_into cs pic_size in
       let* f := ApicFrame_new (Some (fh_flags h)) (Some description) z (Some mime) pic_size (Some pic_data) in
       Ok (f, cs0))
      = seen1 (let* description_size := ID3v2_strlent (Some (CharStream_get_cur (at_pos p2 b))) in
       let* _ := vla description_size in
       let* (description, cs) := read_into (at_pos p2 b) description_size in
       let* s := isub (fh_size h) ID3v2_FRAME_ENCODING_LENGTH in
       let* s0 := isub s n in
       let* s1 := isub s0 ID3v2_APIC_FRAME_PICTURE_TYPE_LENGTH in
       let* pic_size := isub s1 description_size in
       let* _ := vla pic_size in
       let* (pic_data, cs0) := read_into cs pic_size in
       let* f := ApicFrame_new (Some (fh_flags h)) (Some description) z (Some mime) pic_size (Some pic_data) in
       Ok (f, cs0))).
    { intros p1 p2 b Hp Hb z mime. rewrite !get_cur_at.
      destruct (ID3v2_strlent (Some b)) as [k| | |]; go; try reflexivity.
      unfold vla at 1 3. destruct (k <=? 0) eqn:K; go; [reflexivity|].
      rewrite !read_into_gen by (try lia; unfold fits; zl; lia). go.
      pose proof (zlen_take_drop k b).
      destruct (isub (fh_size h) ID3v2_FRAME_ENCODING_LENGTH) as [q1| | |]; go; try reflexivity.
      destruct (isub q1 n) as [q2| | |]; go; try reflexivity.
      destruct (isub q2 ID3v2_APIC_FRAME_PICTURE_TYPE_LENGTH) as [q3| | |]; go; try reflexivity.
      destruct (isub q3 k) as [q4| | |]; go; try reflexivity.
      unfold vla. destruct (q4 <=? 0) eqn:Q; go; [reflexivity|].
      rewrite !read_into_gen by (try lia; unfold fits; zl; lia). go.
      match goal with |- context [ApicFrame_new ?a ?b ?c ?d ?e ?f] => destruct (ApicFrame_new a b c d e f) end; go; try reflexivity.
      unfold seen1. go. cbn [at_pos cs_cursor]. do 2 f_equal. zl. lia. }
    rewrite !getc_gen. destruct r1 as [|[b|] r1]; go.
    - apply C; zl; lia.
    - apply C; zl; [lia|]. rewrite zlen_cons in Z1. lia.
    - reflexivity.
  Qed.

  Lemma encoding_ignored id :
    h4 = cells id -> id_starts id "T" || id_starts id "C" || id_starts id "A" = true ->
    seen (Frame_parse (start e1) ver) = seen (Frame_parse (start e2) ver).
  Proof.
    intros Hid Hst. unfold Frame_parse, start.
    rewrite !header10 by (auto using enc_fits).
    destruct (header_cells h4 s4 f2 ver) as [[h|]| | |] eqn:E; go; try reflexivity.
    assert (Ih : fh_id h = cells id).
    { unfold header_cells in E. rewrite <- Hid. clear Hid Hst.
      destruct (memcmp_eq [x00; x00; x00; x00] h4) as [[|]| | |]; cbn [bind] in E; try discriminate.
      destruct (btoi s4 4); cbn [bind] in E; try discriminate. injection E as <-. reflexivity. }
    assert (Nn : id <> []) by (intros ->; rewrite Hid in L4; discriminate L4).
    unfold FrameHeader_isTextFrame, FrameHeader_isCommentFrame, FrameHeader_isApicFrame.
    rewrite !(id0_is_cells h id) by auto. go.
    assert (A : forall x y z w : mem, x ++ y ++ z ++ w = (x ++ y ++ z) ++ w) by (intros; now rewrite <- !app_assoc).
    assert (B : forall e, CharStream_seek (at_pos (pre ++ h4 ++ s4 ++ f2) (e :: rest)) (- ID3v2_FRAME_HEADER_LENGTH) SEEK_CUR = Ok (start e)).
    { intros e. unfold start. rewrite (A h4 s4 f2). apply seek_back_at.
      - pose proof (enc_fits e) as Fe. now rewrite (A h4 s4 f2) in Fe.
      - zl. rewrite L4, Ls, L2. reflexivity. }
    rewrite !B. go.
    assert (S : forall r1 r2, seen1 r1 = seen1 r2 ->
      seen (let* (f, cs) := r1 in Ok (Some f, cs)) = seen (let* (f, cs) := r2 in Ok (Some f, cs))).
    { intros [[f1 c1]| | |] [[g1 c2]| | |]; unfold seen1, seen; go; congruence. }
    destruct (id_starts id "T"); [apply S; eapply text_encoding_ignored; eauto|].
    destruct (id_starts id "C"); [apply S; eapply comment_encoding_ignored; eauto|].
    destruct (id_starts id "A"); [apply S; eapply picture_encoding_ignored; eauto|].
    discriminate Hst.
  Qed.
End Encoding.

(** ** Malformed frames *)

(** Up to the text buffer, TextFrame_parse on any frame whose header is there. *)
Lemma text_parse_body pre id sz fl enc body rest ver :
  length id = 4%nat -> length sz = 4%nat -> length fl = 2%nat ->
  id_starts id "T" = true ->
  fits pre (cells (id ++ sz ++ fl ++ [enc] ++ body) ++ rest) ->
  declared_size ver sz = 1 + zlen body -> body <> [] ->
  Frame_parse (at_pos pre (cells (id ++ sz ++ fl ++ [enc] ++ body) ++ rest)) ver
  = let* f := TextFrame_new (Some (cells id)) (Some (cells fl)) (Some (cells body)) in
    Ok (Some f, at_pos (pre ++ cells (id ++ sz ++ fl ++ [enc] ++ body)) rest).
Proof.
  intros Li Ls Lf HT F Hs Nb.
  assert (Nz : forallb is_zero id = false) by (apply (starts_nonzero _ "T"); auto; discriminate).
  assert (Lb : 1 <= zlen body).
  { destruct body; [congruence|]. rewrite zlen_cons. pose proof (zlen_nonneg body). lia. }
  assert (Eq : cells (id ++ sz ++ fl ++ [enc] ++ body) ++ rest
      = (cells id ++ cells sz ++ cells fl) ++ cells ([enc] ++ body) ++ rest).
  { rewrite !cells_app, <- !app_assoc. reflexivity. }
  rewrite Eq in *.
  rewrite Frame_parse_dispatch by auto. rewrite HT.
  unfold TextFrame_parse.
  rewrite <- !app_assoc in *. rewrite FrameHeader_parse_ok by auto. go.
  change (cells [enc] ++ cells body ++ rest) with (cells [enc] ++ (cells body ++ rest)).
  rewrite (cells_app [enc] body), <- app_assoc.
  assert (Z4 : zlen id = 4 /\ zlen sz = 4 /\ zlen fl = 2) by (unfold zlen; rewrite Li, Ls, Lf; auto).
  assert (F' : zlen pre + 11 + zlen body + zlen rest < 2 ^ 31).
  { unfold fits in F. rewrite !zlen_app, !zlen_cells, zlen_app in F. change (zlen [enc]) with 1 in F. lia. }
  pose proof (zlen_nonneg rest). pose proof (zlen_nonneg pre).
  rewrite seek_fwd_at; [|unfold fits; zl; lia|reflexivity]. go.
  rewrite Hs. change ID3v2_FRAME_ENCODING_LENGTH with 1. rewrite isub_ok by lia. go.
  unfold vla. ifF. go.
  rewrite read_into_at; [|unfold fits; zl; lia|rewrite zlen_cells; lia]. go.
  destruct (TextFrame_new (Some (cells id)) (Some (cells fl)) (Some (cells body))); go; try reflexivity.
  do 3 f_equal. rewrite !cells_app, <- !app_assoc. reflexivity.
Qed.

Lemma text_new_unterminated_iso i f l :
  forallb (fun c => negb (is_zero c)) l = true -> starts_with_bom l = false ->
  TextFrame_new i f (Some (cells l)) = Ub OobRead.
Proof.
  intros Nz Nb. destruct (strlen_unterminated_iso l Nz Nb) as [S _].
  unfold TextFrame_new, TextFrameData_new.
  assert (B : string_has_bom (Some (cells l)) = Ok false \/ string_has_bom (Some (cells l)) = Ub OobRead).
  { destruct (Nat.lt_ge_cases (length l) 2); [now apply bom_short|].
    left. rewrite <- (app_nil_r (cells l)), has_bom_cells by lia. now rewrite Nb. }
  destruct B as [-> | ->]; go; [|reflexivity]. rewrite S. reflexivity.
Qed.

Lemma text_new_unterminated_utf16 i f be us odd :
  forallb (fun u => negb (is_zero (fst u) && is_zero (snd u))) us = true -> (length odd < 2)%nat ->
  TextFrame_new i f (Some (cells (text_bytes (Utf16 be us) ++ odd))) = Ub OobRead.
Proof.
  intros H L. destruct (strlen_unterminated_utf16 be us odd H L) as [S _].
  unfold TextFrame_new, TextFrameData_new.
  assert (B : string_has_bom (Some (cells (text_bytes (Utf16 be us) ++ odd))) = Ok true).
  { cbn [text_bytes]. rewrite <- app_assoc. apply bom_ok. }
  rewrite B. go. rewrite S. reflexivity.
Qed.

Lemma text_unterminated pre id sz fl enc body rest ver :
  length id = 4%nat -> length sz = 4%nat -> length fl = 2%nat ->
  id_starts id "T" = true -> body <> [] -> unterminated body ->
  declared_size ver sz = 1 + zlen body ->
  fits pre (cells (id ++ sz ++ fl ++ [enc] ++ body) ++ rest) ->
  Frame_parse (at_pos pre (cells (id ++ sz ++ fl ++ [enc] ++ body) ++ rest)) ver = Ub OobRead.
Proof.
  intros Li Ls Lf HT Nb U Hs F. rewrite text_parse_body by auto.
  destruct U as [[H1 H2]|(be & us & odd & -> & H1 & H2)].
  - now rewrite text_new_unterminated_iso.
  - now rewrite text_new_unterminated_utf16.
Qed.

Lemma text_too_small pre id sz fl rest ver :
  length id = 4%nat -> length sz = 4%nat -> length fl = 2%nat ->
  id_starts id "T" = true -> declared_size ver sz <= 1 ->
  fits pre (cells (id ++ sz ++ fl) ++ rest) -> 
  exists u, Frame_parse (at_pos pre (cells (id ++ sz ++ fl) ++ rest)) ver = Ub u.
Proof.
  intros Li Ls Lf HT Hs F.
  assert (Nz : forallb is_zero id = false) by (apply (starts_nonzero _ "T"); auto; discriminate).
  rewrite !cells_app in *. rewrite Frame_parse_dispatch by auto. rewrite HT.
  unfold TextFrame_parse. rewrite <- !app_assoc in *. rewrite FrameHeader_parse_ok by auto. go.
  unfold CharStream_seek. destruct (iadd _ _) eqn:E1; go; eauto.
  2: pose proof (benign_iadd (cs_cursor (at_pos (pre ++ cells id ++ cells sz ++ cells fl) rest)) ID3v2_FRAME_ENCODING_LENGTH) as B; rewrite E1 in B; destruct B.
  2: pose proof (benign_iadd (cs_cursor (at_pos (pre ++ cells id ++ cells sz ++ cells fl) rest)) ID3v2_FRAME_ENCODING_LENGTH) as B; rewrite E1 in B; destruct B.
  unfold isub, chk_int. change ID3v2_FRAME_ENCODING_LENGTH with 1.
  destruct ((- 2 ^ 31 <=? declared_size ver sz - 1) && (declared_size ver sz - 1 <? 2 ^ 31)); go; eauto.
  unfold vla. ifT. go. eauto.
Qed.

Lemma picture_empty pre id sz fl enc m ty d rest ver :
  length id = 4%nat -> length sz = 4%nat -> length fl = 2%nat ->
  id_starts id "A" = true -> text_ok m = true -> text_ok d = true ->
  let body := [enc] ++ text_image m ++ [ty] ++ text_image d in
  declared_size ver sz <= zlen body ->
  - 2 ^ 31 + zlen body <= declared_size ver sz ->
  fits pre (cells (id ++ sz ++ fl ++ body) ++ rest) ->
  Frame_parse (at_pos pre (cells (id ++ sz ++ fl ++ body) ++ rest)) ver = Ub BadSize.
Proof.
  intros Li Ls Lf HA Hm Hd body Hs Hs' F.
  assert (Nz : forallb is_zero id = false) by (apply (starts_nonzero _ "A"); auto; discriminate).
  assert (Eq : cells (id ++ sz ++ fl ++ body) ++ rest
      = (cells id ++ cells sz ++ cells fl) ++ cells body ++ rest).
  { rewrite !cells_app, <- !app_assoc. reflexivity. }
  rewrite Eq in *. rewrite Frame_parse_dispatch by auto.
  rewrite (starts_excl id "A" "T"), (starts_excl id "A" "C") by (auto; discriminate). rewrite HA.
  unfold ApicFrame_parse. rewrite <- !app_assoc in *. rewrite FrameHeader_parse_ok by auto. go.
  assert (Z4 : zlen id = 4 /\ zlen sz = 4 /\ zlen fl = 2) by (unfold zlen; rewrite Li, Ls, Lf; auto).
  assert (Zb : zlen body = 1 + zlen (text_image m) + 1 + zlen (text_image d)).
  { unfold body. zl. lia. }
  assert (F' : zlen pre + 10 + zlen body + zlen rest < 2 ^ 31).
  { unfold fits in F. rewrite !zlen_app, !zlen_cells in F. lia. }
  pose proof (text_image_pos d). pose proof (text_image_pos m). pose proof (zlen_nonneg rest). pose proof (zlen_nonneg pre).
  unfold body. rewrite !cells_app, <- !app_assoc.
  rewrite seek_fwd_at; [|unfold fits; zl; lia|reflexivity]. go.
  rewrite get_cur_at, strlent_text by (auto; lia). go.
  unfold vla at 1. ifF. go.
  rewrite read_into_at; [|unfold fits; zl; lia|now rewrite zlen_cells]. go.
  change (cells [ty] ++ cells (text_image d) ++ rest) with (Some ty :: (cells (text_image d) ++ rest)).
  rewrite getc_at. go. rewrite get_cur_at, strlent_text by (auto; lia). go.
  unfold vla at 1. ifF. go.
  rewrite read_into_at; [|unfold fits; zl; lia|now rewrite zlen_cells]. go.
  change ID3v2_FRAME_ENCODING_LENGTH with 1. change ID3v2_APIC_FRAME_PICTURE_TYPE_LENGTH with 1.
  rewrite isub_ok by lia. go. rewrite isub_ok by lia. go. rewrite isub_ok by lia. go.
  rewrite isub_ok by lia. go. unfold vla. ifT. reflexivity.
Qed.

(** Fewer than 8 bytes left, not starting with four zeros. *)
Lemma btoi_short m : (length m < 4)%nat -> exists u, btoi m 4 = Ub u.
Proof.
  unfold btoi. change (Z.to_nat 4) with 4%nat. intros L.
  destruct m as [|[a|] [|[b|] [|[c|] [|? ?]]]]; cbn [length] in L; try lia; cbn; eauto.
Qed.

Lemma header_truncated pre l ver :
  fits pre (cells l) -> (length l < 8)%nat -> firstn 4 l <> [x00; x00; x00; x00] ->
  exists u, FrameHeader_parse (at_pos pre (cells l)) ver = Ub u.
Proof.
  intros F L N. unfold FrameHeader_parse. change ID3v2_FRAME_HEADER_ID_LENGTH with 4.
  rewrite read_into_gen by (auto; lia). go. unfold take, drop. change (Z.to_nat 4) with 4%nat.
  assert (P : exists u, memcmp_eq [x00; x00; x00; x00] (firstn 4 (cells l) ++ repeat None (4 - length (cells l))) = u /\
     (u = Ok false \/ exists v, u = Ub v)).
  { eexists. split; [reflexivity|].
    destruct l as [|a [|b [|c [|d l]]]]; cbn [cells map firstn length Nat.sub repeat app memcmp_eq];
      repeat match goal with |- context [if beq x00 ?x then _ else _] => destruct (beq_spec x00 x); [subst|auto] end; eauto.
    exfalso. apply N. reflexivity. }
  destruct P as (r & -> & [-> | (v & ->)]); go; eauto.
  unfold CharStream_slice. rewrite get_cur_at.
  pose proof (benign_iadd (cs_cursor (at_pos (pre ++ firstn 4 (cells l)) (skipn 4 (cells l)))) ID3v2_FRAME_HEADER_SIZE_LENGTH) as B.
  destruct (iadd _ _); destruct B; go; eauto.
  destruct (btoi_short (skipn 4 (cells l))) as (u & E).
  { rewrite skipn_length. unfold cells. rewrite map_length. lia. }
  change ID3v2_FRAME_HEADER_SIZE_LENGTH with 4. rewrite E. go. eauto.
Qed.

Lemma frame_truncated pre l ver :
  fits pre (cells l) -> (length l < 8)%nat -> firstn 4 l <> [x00; x00; x00; x00] ->
  exists u, Frame_parse (at_pos pre (cells l)) ver = Ub u.
Proof.
  intros F L N. destruct (header_truncated pre l ver F L N) as (u & E).
  exists u. unfold Frame_parse. now rewrite E.
Qed.
