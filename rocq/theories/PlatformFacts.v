(** Facts about other machines. *)
From Verif Require Import BaseFacts UtilsFacts StreamFacts FrameFacts HeaderFacts TagFacts.
From Verif Require Import File Calls Compat Spec SpecEdit SpecFile SpecRead SpecRewrite Platform SpecPlatform.
From Verif Require Import ListFacts EditFacts WriteFacts ParseFacts KindFacts ClaimFacts FileFacts ReadFacts RewriteFacts.
From Coq Require Import Lia ZifyBool ZifyNat.

(** ** The same up to an overflow of the stack *)

(** What happens on [P] is what happens elsewhere, or the stack overflows. *)
Definition within {A} (P : platform) (a b : outcome A) : Prop :=
  b = a \/ (p_stack P <> None /\ b = Ub StackOverflow).

Lemma within_refl {A} P (a : outcome A) : within P a a.
Proof. now left. Qed.

Lemma within_bind {A B} P (a b : outcome A) (f g : A -> outcome B) :
  within P a b -> (forall x, a = Ok x -> within P (f x) (g x)) -> within P (bind a f) (bind b g).
Proof.
  intros [->|[S ->]] H; [|now right]. destruct a; cbn [bind]; auto using within_refl.
Qed.

Lemma within_same {A B} P (a : outcome A) (f g : A -> outcome B) :
  (forall x, a = Ok x -> within P (f x) (g x)) -> within P (bind a f) (bind a g).
Proof. intros H. apply within_bind; [apply within_refl|exact H]. Qed.

Ltac wi := repeat first
  [ apply within_refl
  | apply within_same; intros; repeat match goal with x : prod _ _ |- _ => destruct x end
  | match goal with |- within _ (if ?b then _ else _) (if ?b then _ else _) => destruct b end
  | match goal with |- within _ (match ?b with _ => _ end) (match ?b with _ => _ end) => destruct b end ].

Definition over (P : platform) (n : Z) : bool := negb (holds P n).

Lemma over_stack P n : over P n = true -> p_stack P <> None.
Proof. unfold over, holds. destruct (p_stack P); discriminate. Qed.

Lemma over_mono P m n : m <= n -> over P m = true -> over P n = true.
Proof. unfold over, holds. destruct (p_stack P); [|discriminate]. lia. Qed.

Lemma over_0 P : over P 0 = false.
Proof. unfold over, holds. destruct (p_stack P); [lia|reflexivity]. Qed.

Lemma vla_over P u n : vla_on P u n = let* _ := vla n in if over P (u + n) then Ub StackOverflow else Ok (u + n).
Proof.
  unfold vla_on, over, holds. destruct (vla n); try reflexivity. cbn [bind]. destruct (p_stack P) as [l|]; [|reflexivity].
  replace (negb (u + n <=? Z.of_N l)) with (Z.of_N l <? u + n) by lia. reflexivity.
Qed.

Lemma vla_pos' P u n v : vla_on P u n = Ok v -> 0 < n.
Proof. rewrite vla_over. unfold vla. destruct (n <=? 0) eqn:E; [discriminate|]. lia. Qed.

Lemma within_vla {B} P u n (f : outcome B) (h : Z -> outcome B) :
  (forall v, vla_on P u n = Ok v -> within P f (h v)) -> within P (let* _ := vla n in f) (let* v := vla_on P u n in h v).
Proof.
  intros H. rewrite vla_over in *. destruct (vla n); cbn [bind] in *; auto using within_refl.
  destruct (over P (u + n)) eqn:O; cbn [bind]; [right; split; [now apply over_stack in O|reflexivity]|auto].
Qed.

(** ** Characters *)

Lemma zb_char P b : zb (char_value P b) = b.
Proof. unfold char_value. destruct (p_unsigned_char P); [apply zb_bv|apply zb_schar]. Qed.

Lemma char_known P b v : 0 <= v < 128 -> (char_value P b =? v) = (schar b =? v).
Proof.
  intros H. unfold char_value. destruct (p_unsigned_char P); [|reflexivity].
  unfold schar. pose proof (bv_range b). destruct (bv b <? 128) eqn:E; lia.
Qed.

Lemma char_bit6 P b : (Z.land (char_value P b) (Z.shiftl 1 6) =? Z.shiftl 1 6) = (Z.land (schar b) (Z.shiftl 1 6) =? Z.shiftl 1 6).
Proof. unfold char_value. destruct (p_unsigned_char P); [|reflexivity]. destruct b; reflexivity. Qed.

Lemma char_version P b : known_version b = true -> char_value P b = schar b.
Proof. intros K. unfold char_value. destruct (p_unsigned_char P); [|reflexivity]. now rewrite known_schar. Qed.

(** ** Reading, whatever the stack *)

Lemma getc_on P cs : CharStream_getc_on P cs =
  match CharStream_getc cs with
  | Ok (c, cs') => Ok (if cs_size cs <=? cs_cursor cs then c else char_value P (zb c), cs')
  | Ub u => Ub u | Exit n => Exit n | NoFuel => NoFuel
  end.
Proof.
  unfold CharStream_getc_on, CharStream_getc. destruct (cs_size cs <=? cs_cursor cs); [reflexivity|].
  destruct (CharStream_get_cur cs) as [|[b|] l]; try reflexivity. now rewrite zb_schar.
Qed.

(** A character that is used as one, compared with a small number or tested for a bit. *)
Lemma getc_bind {B} P cs (f g : Z -> CharStream -> outcome B) :
  (forall b cs', f (schar b) cs' = g (char_value P b) cs') -> (forall cs', f (-1) cs' = g (-1) cs') ->
  (let* (c, cs') := CharStream_getc cs in f c cs') = (let* (c, cs') := CharStream_getc_on P cs in g c cs').
Proof.
  intros H1 H2. unfold CharStream_getc_on, CharStream_getc. destruct (cs_size cs <=? cs_cursor cs); cbn [bind]; [apply H2|].
  destruct (CharStream_get_cur cs) as [|[b|] l]; cbn [bind]; auto.
Qed.

Lemma new_char1 P a n e y z : TagHeader_new (char_value P a) y z n e = TagHeader_new (schar a) y z n e.
Proof. unfold TagHeader_new. now rewrite zb_char, zb_schar. Qed.

Lemma new_char2 P a n e x z : TagHeader_new x (char_value P a) z n e = TagHeader_new x (schar a) z n e.
Proof. unfold TagHeader_new. now rewrite zb_char, zb_schar. Qed.

Lemma new_char3 P a n e x y : TagHeader_new x y (char_value P a) n e = TagHeader_new x y (schar a) n e.
Proof. unfold TagHeader_new. now rewrite zb_char, zb_schar. Qed.

Lemma header_parse_on P cs : TagHeader_parse_on P cs = TagHeader_parse cs.
Proof.
  symmetry. unfold TagHeader_parse, TagHeader_parse_on.
  destruct (memcmp_eq _ _) as [ht| | |]; cbn [bind]; auto. destruct ht; cbn [negb]; auto.
  destruct (read_into _ _) as [[i cs1]| | |]; cbn [bind]; auto.
  apply getc_bind; [intros maj cs2|intros cs2]; (apply getc_bind; [intros mi cs3|intros cs3]);
    rewrite ?(char_known P) by lia; try reflexivity;
    (destruct (negb (_ =? 3) && _); [reflexivity|]);
    (apply getc_bind; [intros fl cs4|intros cs4]);
    destruct (read_into _ _) as [[sz cs5]| | |]; cbn [bind]; auto;
    destruct (btoi _ _); cbn [bind]; auto;
    rewrite ?(char_bit6 P), ?new_char1, ?new_char2, ?new_char3; try reflexivity;
    (destruct (Z.land _ _ =? _); [|reflexivity]);
    destruct (read_into _ _) as [[eh cs6]| | |]; cbn [bind]; auto;
    destruct (btoi _ _); cbn [bind]; auto; now rewrite ?new_char1, ?new_char2, ?new_char3.
Qed.

Lemma read_header_on P f : ID3v2_read_tag_header_on P f = ID3v2_read_tag_header f.
Proof.
  destruct f as [c|]; [|reflexivity]. unfold ID3v2_read_tag_header_on, ID3v2_read_tag_header.
  destruct (_ <? _); [reflexivity|]. unfold ID3v2_read_tag_header_from_buffer_on, ID3v2_read_tag_header_from_buffer.
  destruct (CharStream_from_buffer _ _); cbn [bind]; auto. now rewrite header_parse_on.
Qed.

Ltac wv := apply within_vla; intros ? _; wi.

Lemma text_on P cs ver : within P (TextFrame_parse cs ver) (TextFrame_parse_on P cs ver).
Proof. unfold TextFrame_parse, TextFrame_parse_on. wi. wv. Qed.

Lemma comment_on P cs ver : within P (CommentFrame_parse cs ver) (CommentFrame_parse_on P cs ver).
Proof. unfold CommentFrame_parse, CommentFrame_parse_on. wi. wv. wv. Qed.

Lemma within_getc {B} P cs (f g : Z -> CharStream -> outcome B) :
  (forall c c' cs', zb c' = zb c -> within P (f c cs') (g c' cs')) ->
  within P (let* (c, cs') := CharStream_getc cs in f c cs') (let* (c, cs') := CharStream_getc_on P cs in g c cs').
Proof.
  intros H. unfold CharStream_getc_on, CharStream_getc. destruct (cs_size cs <=? cs_cursor cs); cbn [bind]; [now apply H|].
  destruct (CharStream_get_cur cs) as [|[b|] l]; cbn [bind]; auto using within_refl. apply H. now rewrite zb_char, zb_schar.
Qed.

Lemma picture_on P cs ver : within P (ApicFrame_parse cs ver) (ApicFrame_parse_on P cs ver).
Proof.
  unfold ApicFrame_parse, ApicFrame_parse_on. wi. apply within_vla. intros u _.
  apply within_same. intros [mime cs1] _. apply within_getc. intros c1 c2 cs2 ->. wi. wv. wv.
Qed.

Lemma frame_on P cs ver : within P (Frame_parse cs ver) (Frame_parse_on P cs ver).
Proof.
  unfold Frame_parse, Frame_parse_on. wi;
    (apply within_bind; [first [apply text_on|apply comment_on|apply picture_on]|intros [g c1] _; apply within_refl]).
Qed.

Lemma loop_on P fuel limit ver : forall cs l fresh,
  within P (parse_loop fuel limit ver cs l fresh) (parse_loop_on P fuel limit ver cs l fresh).
Proof.
  induction fuel as [|fuel IH]; intros cs l fresh; cbn [parse_loop parse_loop_on]; destruct (_ <? limit); try apply within_refl.
  apply within_bind; [apply frame_on|]. intros [[f|] cs'] _; [|apply within_refl]. apply within_same. intros l' _. apply IH.
Qed.

Lemma parse_version cs h cs' : TagHeader_parse cs = Ok (Some h, cs') -> known_version (th_major h) = true.
Proof.
  unfold TagHeader_parse. intros E. binv E. destruct v; [|discriminate E]. cbn [negb] in E.
  binv E. destruct v as [i cs1]. binv E. destruct v as [maj cs2]. binv E. destruct v as [mi cs3].
  destruct (negb (maj =? 3) && negb (maj =? 4)) eqn:K; [discriminate E|].
  assert (V : known_version (zb maj) = true).
  { assert (maj = 3 \/ maj = 4) as [-> | ->] by lia; reflexivity. }
  binv E. destruct v as [fl cs4]. binv E. destruct v as [sz cs5]. binv E.
  destruct (_ =? _) in E; [binv E; destruct v0 as [eh cs6]; binv E|]; injection E as <- _; exact V.
Qed.

Lemma tag_on P cs : within P (Tag_parse cs) (Tag_parse_on P cs).
Proof.
  unfold Tag_parse, Tag_parse_on. rewrite header_parse_on. apply within_same. intros [[h|] cs'] E; [|apply within_refl].
  rewrite (char_version P) by (now apply parse_version in E).
  apply within_same. intros cs2 _. apply within_bind; [apply loop_on|]. intros [[l fresh] cs3] _. apply within_refl.
Qed.

Lemma read_buffer_on P p n : within P (ID3v2_read_tag_from_buffer p n) (ID3v2_read_tag_from_buffer_on P p n).
Proof.
  unfold ID3v2_read_tag_from_buffer, ID3v2_read_tag_from_buffer_on. apply within_same. intros cs _. apply tag_on.
Qed.

Lemma read_on P f : within P (ID3v2_read_tag f) (ID3v2_read_tag_on P f).
Proof.
  unfold ID3v2_read_tag, ID3v2_read_tag_on. rewrite read_header_on. apply within_same. intros [h|] _; [|apply within_refl].
  destruct f; [|apply within_refl]. apply read_buffer_on.
Qed.

Lemma load_buffer_on P p n : within P (load_tag_with_buffer p n) (load_tag_with_buffer_on P p n).
Proof.
  unfold load_tag_with_buffer, load_tag_with_buffer_on. apply within_bind; [apply read_buffer_on|]. intros t _. apply within_refl.
Qed.

Lemma load_on P f : within P (load_tag f) (load_tag_on P f).
Proof.
  unfold load_tag, load_tag_on. rewrite read_header_on. wi. apply load_buffer_on.
Qed.

Lemma within_none {A} P (a b : outcome A) : within P a b -> p_stack P = None -> b = a.
Proof. intros [H|[H _]] N; [exact H|congruence]. Qed.

(** ** What frames need *)

Lemma vla_enough P u n : 0 < n -> vla_on P u n = if over P (u + n) then Ub StackOverflow else Ok (u + n).
Proof. intros H. rewrite vla_over. unfold vla. replace (n <=? 0) with false by lia. reflexivity. Qed.

(** An overflow, or the result. *)
Definition unless {A} (P : platform) (n : Z) (a : outcome A) : outcome A := if over P n then Ub StackOverflow else a.

Section Needs.
  Variables (P : platform) (pre : mem) (ver : Z) (id sz fl : list byte).
  Hypothesis Li : length id = 4%nat.
  Hypothesis Ls : length sz = 4%nat.
  Hypothesis Lf : length fl = 2%nat.
  Let hdr : mem := cells id ++ cells sz ++ cells fl.

  Lemma dispatch_on body : forallb is_zero id = false -> fits pre (hdr ++ body) ->
    Frame_parse_on P (at_pos pre (hdr ++ body)) ver =
    if id_starts id "T" then let* (f, cs) := TextFrame_parse_on P (at_pos pre (hdr ++ body)) ver in Ok (Some f, cs)
    else if id_starts id "C" then let* (f, cs) := CommentFrame_parse_on P (at_pos pre (hdr ++ body)) ver in Ok (Some f, cs)
    else if id_starts id "A" then let* (f, cs) := ApicFrame_parse_on P (at_pos pre (hdr ++ body)) ver in Ok (Some f, cs)
    else Frame_parse (at_pos pre (hdr ++ body)) ver.
  Proof.
    intros Nz F. unfold hdr in F |- *. rewrite Frame_parse_dispatch by auto.
    unfold Frame_parse_on. rewrite (forms_header pre ver id sz fl Li Ls Lf body Nz F). go. fold hdr in F |- *.
    unfold FrameHeader_isTextFrame, FrameHeader_isCommentFrame, FrameHeader_isApicFrame.
    rewrite !(id0_is_cells _ id) by (auto; now apply (len_nonnil _ 3)). go. cbn [fh_size].
    rewrite seek_back_at by (auto; unfold hdr; now rewrite hdr_len).
    destruct (id_starts id "T"), (id_starts id "C"), (id_starts id "A"); reflexivity.
  Qed.

  Lemma text_need enc r n : id_starts id "T" = true -> fits pre (hdr ++ Some enc :: r) ->
    declared_size ver sz = 1 + n -> 0 < n ->
    Frame_parse_on P (at_pos pre (hdr ++ Some enc :: r)) ver
    = unless P n (Frame_parse (at_pos pre (hdr ++ Some enc :: r)) ver).
  Proof.
    intros HT F Hs N.
    assert (Nz : forallb is_zero id = false) by (apply (starts_nonzero _ "T"); auto; discriminate).
    rewrite dispatch_on by auto. unfold hdr in F |- *. rewrite Frame_parse_dispatch by auto. rewrite HT. fold hdr in F |- *.
    unfold TextFrame_parse, TextFrame_parse_on. unfold hdr in F |- *. rewrite (forms_header pre ver id sz fl) by auto. fold hdr in F |- *. go.
    destruct (CharStream_seek _ _ _) as [cs| | |] eqn:E; go.
    2-4: change (Some enc :: r) with ([Some enc] ++ r) in E, F; rewrite seek_fwd_at in E; [discriminate E|fit|reflexivity].
    pose proof (declared_range ver id sz fl Li Ls Lf). change ID3v2_FRAME_ENCODING_LENGTH with 1. rewrite Hs in *.
    rewrite isub_ok by lia. go. replace (1 + n - 1) with n by lia. rewrite vla_enough by lia.
    unfold vla. replace (n <=? 0) with false by lia. cbn [bind Z.add]. unfold unless. destruct (over P n); reflexivity.
  Qed.

  Lemma comment_need enc lang d c rest :
    id_starts id "C" = true -> length lang = 3%nat -> text_ok d = true -> text_ok c = true ->
    fits pre (hdr ++ cells ([enc] ++ lang ++ text_image d ++ text_image c) ++ rest) ->
    Frame_parse_on P (at_pos pre (hdr ++ cells ([enc] ++ lang ++ text_image d ++ text_image c) ++ rest)) ver
    = unless P (zlen (text_image d) + zlen (text_image c))
        (Frame_parse (at_pos pre (hdr ++ cells ([enc] ++ lang ++ text_image d ++ text_image c) ++ rest)) ver).
  Proof.
    intros HC Hl Hd Hc F.
    assert (Nz : forallb is_zero id = false) by (apply (starts_nonzero _ "C"); auto; discriminate).
    rewrite dispatch_on by auto. unfold hdr in F |- *. rewrite Frame_parse_dispatch by auto. fold hdr in F |- *.
    rewrite (starts_excl id "C" "T") by (auto; discriminate). rewrite HC.
    unfold CommentFrame_parse, CommentFrame_parse_on. unfold hdr in F |- *. rewrite (forms_header pre ver id sz fl) by auto. fold hdr in F |- *. go.
    assert (B : zlen (text_image d) + zlen (text_image c) + 14 < 2 ^ 31).
    { unfold fits in F. rewrite !zlen_app, zlen_cells, !zlen_app in F. change (zlen [enc]) with 1 in F.
      unfold hdr in F. rewrite hdr_len in F by auto. pose proof (zlen_nonneg pre). pose proof (zlen_nonneg rest).
      assert (zlen lang = 3) by (unfold zlen; rewrite Hl; reflexivity). lia. }
    pose proof (text_image_pos d). pose proof (text_image_pos c).
    rewrite !cells_app, <- !app_assoc. rewrite !cells_app, <- !app_assoc in F.
    rewrite seek_fwd_at; [|fit|reflexivity]. go.
    rewrite read_into_at; [|fit|rewrite zlen_cells; unfold zlen; rewrite Hl; reflexivity]. go.
    rewrite get_cur_at, strlent_text by (auto; lia). go.
    unfold vla at 1. ifF. rewrite vla_enough by lia. cbn [Z.add].
    unfold unless. destruct (over P (zlen (text_image d))) eqn:O1.
    { rewrite (over_mono P (zlen (text_image d))) by (auto; lia). reflexivity. }
    go. rewrite read_into_at; [|fit|now rewrite zlen_cells]. go.
    rewrite get_cur_at, strlent_text by (auto; lia). go.
    unfold vla. ifF. rewrite vla_enough by lia.
    destruct (over P (zlen (text_image d) + zlen (text_image c))); reflexivity.
  Qed.

  Lemma picture_need enc m ty d r n : id_starts id "A" = true -> text_ok m = true -> text_ok d = true ->
    fits pre (hdr ++ cells ([enc] ++ text_image m ++ [ty] ++ text_image d) ++ r) ->
    declared_size ver sz = 2 + zlen (text_image m) + zlen (text_image d) + n -> 0 < n ->
    Frame_parse_on P (at_pos pre (hdr ++ cells ([enc] ++ text_image m ++ [ty] ++ text_image d) ++ r)) ver
    = unless P (zlen (text_image m) + zlen (text_image d) + n)
        (Frame_parse (at_pos pre (hdr ++ cells ([enc] ++ text_image m ++ [ty] ++ text_image d) ++ r)) ver).
  Proof.
    intros HA Hm Hd F Hs N.
    assert (Nz : forallb is_zero id = false) by (apply (starts_nonzero _ "A"); auto; discriminate).
    rewrite dispatch_on by auto. unfold hdr in F |- *. rewrite Frame_parse_dispatch by auto. fold hdr in F |- *.
    rewrite (starts_excl id "A" "T"), (starts_excl id "A" "C") by (auto; discriminate). rewrite HA.
    unfold ApicFrame_parse, ApicFrame_parse_on. unfold hdr in F |- *. rewrite (forms_header pre ver id sz fl) by auto. fold hdr in F |- *. go.
    pose proof (declared_range ver id sz fl Li Ls Lf) as Rg.
    pose proof (text_image_pos d). pose proof (text_image_pos m).
    rewrite !cells_app, <- !app_assoc. rewrite !cells_app, <- !app_assoc in F.
    rewrite seek_fwd_at; [|fit|reflexivity]. go.
    rewrite get_cur_at, strlent_text by (auto; lia). go.
    unfold vla at 1. ifF. rewrite vla_enough by lia. cbn [Z.add].
    unfold unless. destruct (over P (zlen (text_image m))) eqn:O1.
    { rewrite (over_mono P (zlen (text_image m))) by (auto; lia). reflexivity. }
    go. rewrite read_into_at; [|fit|now rewrite zlen_cells]. go.
    change (cells [ty] ++ cells (text_image d) ++ r) with (Some ty :: (cells (text_image d) ++ r)).
    rewrite getc_on, getc_at. go. rewrite zb_schar.
    match goal with |- context [if cs_size ?a <=? cs_cursor ?a then _ else _] => replace (cs_size a <=? cs_cursor a) with false end.
    2:{ cbn [at_pos cs_size cs_cursor]. unfold zlen. cbn [length]. lia. }
    rewrite zb_char.
    rewrite get_cur_at, strlent_text by (auto; lia). go.
    unfold vla at 1. ifF. rewrite vla_enough by lia.
    destruct (over P (zlen (text_image m) + zlen (text_image d))) eqn:O2.
    { rewrite (over_mono P (zlen (text_image m) + zlen (text_image d))) by (auto; lia). reflexivity. }
    go. rewrite read_into_at; [|fit|now rewrite zlen_cells]. go.
    cbn [deref fh_flags fh_size]. go. rewrite Hs in *.
    change ID3v2_FRAME_ENCODING_LENGTH with 1. change ID3v2_APIC_FRAME_PICTURE_TYPE_LENGTH with 1.
    rewrite isub_ok by lia. go. rewrite isub_ok by lia. go. rewrite isub_ok by lia. go.
    rewrite isub_ok by lia. go.
    match goal with |- context [vla ?k] => replace k with n by lia end.
    unfold vla. ifF. rewrite vla_enough by lia.
    destruct (over P (zlen (text_image m) + zlen (text_image d) + n)); reflexivity.
  Qed.
End Needs.

Lemma unless_0 {A} P (a : outcome A) : unless P 0 a = a.
Proof. unfold unless. now rewrite over_0. Qed.

Lemma over_max P a b : over P (Z.max a b) = over P a || over P b.
Proof. unfold over, holds. destruct (p_stack P); [lia|reflexivity]. Qed.

(** A frame of unknown kind needs nothing. *)
Lemma raw_need P cs ver r cs' : Frame_parse cs ver = Ok (r, cs') ->
  match r with None => True | Some f => exists m, f_data f = DRaw m end ->
  Frame_parse_on P cs ver = Ok (r, cs').
Proof.
  unfold Frame_parse, Frame_parse_on. intros E D.
  destruct (FrameHeader_parse cs ver) as [[[h|] c]| | |]; cbn [bind] in *; try discriminate E; [|exact E].
  destruct (FrameHeader_isTextFrame h) as [it| | |]; cbn [bind] in *; try discriminate E.
  destruct (FrameHeader_isCommentFrame h) as [ic| | |]; cbn [bind] in *; try discriminate E.
  destruct (FrameHeader_isApicFrame h) as [ia| | |]; cbn [bind] in *; try discriminate E.
  destruct it.
  { exfalso. binvs E. injection E as <- <-. destruct D as (m & D). unfold TextFrame_parse, TextFrame_new in E1.
    binvs E1. injection E1 as <- <-. match goal with H : _ = Ok ?f, D : f_data ?f = _ |- _ => rename H into Q end. binvs Q. injection Q as <-. discriminate D. }
  destruct ic.
  { exfalso. binvs E. injection E as <- <-. destruct D as (m & D). unfold CommentFrame_parse, CommentFrame_new in E1.
    binvs E1. injection E1 as <- <-. match goal with H : _ = Ok ?f, D : f_data ?f = _ |- _ => rename H into Q end. binvs Q. injection Q as <-. discriminate D. }
  destruct ia; [|exact E].
  exfalso. binvs E. injection E as <- <-. destruct D as (m & D). unfold ApicFrame_parse, ApicFrame_new in E1.
  binvs E1. injection E1 as <- <-. match goal with H : _ = Ok ?f, D : f_data ?f = _ |- _ => rename H into Q end. binvs Q. injection Q as <-. discriminate D.
Qed.

Ltac lens4 := repeat match goal with H : length ?l = ?n |- _ => assert (zlen l = Z.of_nat n) by (unfold zlen; now rewrite H); clear H end;
  repeat match goal with |- context [zlen [?x]] => change (zlen [x]) with 1 end;
  repeat match goal with H : context [zlen [?x]] |- _ => change (zlen [x]) with 1 in H end.

Lemma starts_app id c r : id <> [] -> id_starts (id ++ r) c = id_starts id c.
Proof. destruct id; [congruence|reflexivity]. Qed.

Lemma frame_need_on P ver used gap rest r pre k :
  frame_read ver used gap rest r -> fits pre (ahead (used ++ rest) k) ->
  Frame_parse_on P (at_pos pre (ahead (used ++ rest) k)) ver
  = unless P (stack_need used gap) (Frame_parse (at_pos pre (ahead (used ++ rest) k)) ver).
Proof.
  intros H F. pose proof (frame_read_complete _ _ _ _ _ _ _ H F) as C. inversion H; subst.
  - change (stack_need [] 0) with 0. rewrite unless_0, C. now apply raw_need.
  - pose proof (text_image_pos t). pose proof (zlen_nonneg junk).
    assert (Eq : ahead ((id ++ size ++ flags ++ [enc] ++ text_image t ++ junk) ++ rest) k
      = (cells id ++ cells size ++ cells flags) ++ Some enc :: ahead ((text_image t ++ junk) ++ rest) k).
    { rewrite <- ?app_assoc. rewrite !ahead_app. rewrite <- ?app_assoc. reflexivity. }
    rewrite Eq in *. unfold stack_need. rewrite starts_app by (now apply (len_nonnil _ 3)). rewrite H3.
    rewrite (text_need P pre ver id size flags H0 H1 H2 enc _ (zlen (text_image t ++ junk) + Z.of_nat gap)); auto;
      [|lia|rewrite zlen_app; lia].
    f_equal. rewrite !zlen_app. lens4. lia.
  - assert (Eq : ahead ((id ++ size ++ flags ++ [enc] ++ lang ++ text_image d ++ text_image c) ++ rest) k
      = (cells id ++ cells size ++ cells flags) ++ cells ([enc] ++ lang ++ text_image d ++ text_image c) ++ ahead rest k).
    { rewrite !ahead_app, !cells_app. rewrite <- ?app_assoc. reflexivity. }
    rewrite Eq in *. unfold stack_need. rewrite !starts_app by (now apply (len_nonnil _ 3)).
    rewrite (starts_excl id "C" "T") by (auto; discriminate). rewrite H4.
    rewrite comment_need by auto. f_equal. rewrite !zlen_app. lens4. lia.
  - assert (Eq : ahead ((id ++ size ++ flags ++ [enc] ++ text_image m ++ [ty] ++ text_image d ++ pic) ++ rest) k
      = (cells id ++ cells size ++ cells flags) ++ cells ([enc] ++ text_image m ++ [ty] ++ text_image d) ++ ahead (pic ++ rest) k).
    { rewrite <- ?app_assoc. rewrite !ahead_app, !cells_app. rewrite <- ?app_assoc. reflexivity. }
    rewrite Eq in *. unfold stack_need. rewrite !starts_app by (now apply (len_nonnil _ 3)).
    rewrite (starts_excl id "A" "T"), (starts_excl id "A" "C") by (auto; discriminate). rewrite H3.
    rewrite (picture_need P pre ver id size flags H0 H1 H2 enc m ty d _ n) by auto. f_equal. unfold n.
    rewrite !zlen_app. lens4. lia.
  - unfold stack_need. rewrite !starts_app by (now apply (len_nonnil _ 3)). rewrite H3, H4, H5, unless_0, C.
    apply raw_need; [exact C|]. eexists. reflexivity.
  - unfold stack_need. rewrite !starts_app by (now apply (len_nonnil _ 3)). rewrite H3, H4, H5, unless_0, C.
    apply raw_need; [exact C|]. eexists. reflexivity.
Qed.

(** ** What tags need *)

Lemma frames_need_nonneg ver limit k pos l n : frames_need ver limit k pos l n -> 0 <= n.
Proof. induction 1; lia. Qed.

Lemma frames_need_found ver limit k pos l fs fin :
  frames_read ver limit k pos l fs fin -> exists n, frames_need ver limit k pos l n.
Proof.
  induction 1 as [k pos l H|k pos l H Hf|k pos used gap rest f fs fin H Hf _ (n & IH)].
  - exists 0. now constructor.
  - exists 0. now apply NeedStop.
  - eexists. eapply NeedFrame; eauto.
Qed.

Lemma unless_bind {A B} P n (a : outcome A) (f : A -> outcome B) :
  bind (unless P n a) f = unless P n (bind a f).
Proof. unfold unless. now destruct (over P n). Qed.

Lemma unless_max {A} P m n (a : outcome A) : unless P (Z.max m n) a = unless P m (unless P n a).
Proof. unfold unless. rewrite over_max. now destruct (over P m), (over P n). Qed.

Lemma frames_need_on P ver limit k pos l n :
  frames_need ver limit k pos l n -> forall pre fuel ps fresh,
  pos = zlen pre -> fits pre (ahead l k) -> (length l < fuel)%nat ->
  parse_loop_on P fuel limit ver (at_pos pre (ahead l k)) (list_of ps) fresh
  = unless P n (parse_loop fuel limit ver (at_pos pre (ahead l k)) (list_of ps) fresh).
Proof.
  induction 1 as [k pos l H|k pos l H Hf|k pos used gap rest f n H Hf _ IH]; intros pre fuel ps fresh -> F L;
    (destruct fuel as [|fuel]; [lia|]); cbn [parse_loop parse_loop_on]; rewrite loop_cursor by auto.
  - ifF. now rewrite unless_0.
  - ifT. rewrite unless_0.
    pose proof (frame_need_on P ver [] 0 l None pre k Hf F) as E. cbn [app] in E. change (stack_need [] 0) with 0 in E.
    rewrite unless_0 in E. rewrite E.
    pose proof (frame_read_complete ver [] 0 l None pre k Hf F) as C. cbn [app] in C. rewrite C. reflexivity.
  - ifT. rewrite (frame_need_on P ver used gap rest (Some f) pre k Hf F), unless_bind, unless_max. f_equal.
    rewrite (frame_read_complete ver used gap rest (Some f) pre k Hf F). go. rewrite add_frame_list. go.
    pose proof (frame_read_length _ _ _ _ _ Hf). rewrite app_length in L.
    apply IH; [now rewrite zlen_app, zlen_ahead, Z.add_assoc| |lia].
    unfold fits in *. rewrite !zlen_app, !zlen_ahead in *. rewrite ?zlen_app in F. lia.
Qed.

(** Tag_parse_on after the header. *)
Lemma tag_after_header P cs h cs' : TagHeader_parse cs = Ok (Some h, cs') ->
  Tag_parse_on P cs =
  let* cs := if 0 <? th_ext_size h then CharStream_seek cs' (to_i32 (th_ext_size h)) SEEK_SET else Ok cs' in
  let* (frames, fresh, cs) := parse_loop_on P (length (cs_stream cs) + 2) (th_tag_size h) (schar (th_major h)) cs (list_of []) 0 in
  let* padding := isub (cs_size cs) (cs_cursor cs) in
  Ok (Some (mkTag h frames padding fresh)).
Proof.
  intros E. unfold Tag_parse_on. rewrite header_parse_on, E. go. rewrite (char_version P) by (now apply parse_version in E). reflexivity.
Qed.

Lemma plain_parse_on P maj mi fl s4 body p k :
  known_version maj = true -> has_extended_header fl = false -> length s4 = 4%nat ->
  let buf := lit "ID3" ++ [maj; mi; fl] ++ s4 ++ body in
  let n := synchsafe_value s4 in
  points_to_part p buf k -> zlen buf + Z.of_nat k < 2 ^ 31 ->
  ID3v2_read_tag_from_buffer_on P p (zlen buf + Z.of_nat k)
  = let* (frames, fresh, cs) :=
      parse_loop_on P (length (ahead buf k) + 2) n (schar maj)
                 (at_pos (cells (lit "ID3" ++ [maj; mi; fl] ++ s4)) (ahead body k)) (list_of []) 0 in
    let* padding := isub (cs_size cs) (cs_cursor cs) in
    Ok (Some (mkTag (mkTH (lit "ID3") maj mi fl n 0) frames padding fresh)).
Proof.
  intros V X Ls buf n (tail & ->) B.
  unfold ID3v2_read_tag_from_buffer_on. rewrite from_buffer_at by (now rewrite zlen_ahead). go.
  destruct s4 as [|s3 [|s2 [|s1 [|s0 [|? ?]]]]]; try discriminate Ls.
  assert (S : ahead buf k = cells [x49; x44; x33; maj; mi; fl; s3; s2; s1; s0] ++ ahead body k).
  { unfold buf. rewrite <- ahead_app. reflexivity. }
  rewrite S.
  assert (F : fits [] (cells [x49; x44; x33; maj; mi; fl; s3; s2; s1; s0] ++ ahead body k)).
  { unfold fits. rewrite <- S, zlen_ahead. change (zlen (@nil cell)) with 0. lia. }
  erewrite tag_after_header; [|rewrite header_start by (auto; reflexivity); cbv zeta; rewrite V, X; cbn [negb]; reflexivity].
  cbn [th_ext_size th_tag_size th_major]. change (0 <? 0) with false. cbv iota. go. reflexivity.
Qed.

Lemma ext_parse_on P maj mi fl s4 e4 body p k :
  known_version maj = true -> has_extended_header fl = true ->
  length s4 = 4%nat -> length e4 = 4%nat ->
  let buf := ext_buffer maj mi fl s4 e4 body in
  let e := synchsafe_value e4 in
  let n := synchsafe_value s4 in
  points_to_part p buf k -> zlen buf + Z.of_nat k < 2 ^ 31 ->
  ID3v2_read_tag_from_buffer_on P p (zlen buf + Z.of_nat k)
  = let* (frames, fresh, cs) :=
      parse_loop_on P (length (ahead buf k) + 2) n (schar maj)
                 (mkCS (if 0 <? e then e else 14) (zlen (ahead buf k)) (ahead buf k)) (list_of []) 0 in
    let* padding := isub (cs_size cs) (cs_cursor cs) in
    Ok (Some (mkTag (mkTH (lit "ID3") maj mi fl n e) frames padding fresh)).
Proof.
  intros V X Ls Le buf e n (tail & ->) B.
  unfold ID3v2_read_tag_from_buffer_on. rewrite from_buffer_at by (now rewrite zlen_ahead). go.
  destruct s4 as [|s3 [|s2 [|s1 [|s0 [|? ?]]]]]; try discriminate Ls.
  set (rest := ahead body k).
  assert (S : ahead buf k = cells [x49; x44; x33; maj; mi; fl; s3; s2; s1; s0] ++ cells e4 ++ rest).
  { unfold buf, ext_buffer, rest. rewrite <- !ahead_app. reflexivity. }
  rewrite S.
  assert (F : fits [] (cells [x49; x44; x33; maj; mi; fl; s3; s2; s1; s0] ++ cells e4 ++ rest)).
  { unfold fits. rewrite <- S, zlen_ahead. change (zlen (@nil cell)) with 0. lia. }
  pose proof (synchsafe_value_range [s3; s2; s1; s0]) as Rn. fold n in Rn.
  pose proof (synchsafe_value_range e4) as Re. fold e in Re.
  change (2 ^ 29) with 536870912 in *.
  set (pre := cells [x49; x44; x33; maj; mi; fl; s3; s2; s1; s0] ++ cells e4) in *.
  assert (H : TagHeader_parse (at_pos [] (cells [x49; x44; x33; maj; mi; fl; s3; s2; s1; s0] ++ cells e4 ++ rest))
    = Ok (Some (mkTH (lit "ID3") maj mi fl n e), at_pos pre rest)).
  { rewrite header_start by (auto; reflexivity). cbv zeta. rewrite V, X. cbn [negb].
    rewrite read_into_at; [|unfold fits in *; rewrite !zlen_app in *; change (zlen (@nil cell)) with 0 in F; lia|
      rewrite zlen_cells; unfold zlen; rewrite Le; reflexivity]. go.
    rewrite btoi_spec' by (unfold zlen; rewrite Le; reflexivity). go.
    rewrite decode_be_value by auto. fold n. fold e. unfold TagHeader_new.
    rewrite (to_i32_id e) by (change (2 ^ 31) with 2147483648; lia).
    rewrite !(to_u32_id) by (change (2 ^ 32) with 4294967296; lia). rewrite !zb_schar. reflexivity. }
  rewrite (tag_after_header P _ _ _ H). cbn [th_ext_size th_tag_size th_major].
  assert (E : (if 0 <? e then CharStream_seek (at_pos pre rest) (to_i32 e) SEEK_SET else Ok (at_pos pre rest))
    = Ok (mkCS (if 0 <? e then e else 14) (zlen (ahead buf k)) (ahead buf k))).
  { assert (Q : ahead buf k = pre ++ rest) by (unfold pre; rewrite <- app_assoc; exact S).
    assert (Z : zlen (ahead buf k) = zlen pre + zlen rest) by (now rewrite <- zlen_app, <- Q).
    destruct (0 <? e); cbn [CharStream_seek]; unfold with_cursor, at_pos; cbn [cs_size cs_stream].
    - rewrite to_i32_id by (change (2 ^ 31) with 2147483648; lia). now rewrite <- Z, <- Q.
    - rewrite <- Z, <- Q. replace (zlen pre) with 14.
      + reflexivity.
      + unfold pre. rewrite zlen_app, !zlen_cells.
        replace (zlen e4) with 4 by (unfold zlen; rewrite Le; reflexivity). reflexivity. }
  rewrite E. go. cbn [cs_stream]. rewrite <- S. reflexivity.
Qed.

Lemma tag_need_on P l k n p : tag_need l k n -> points_to_part p l k -> zlen l + Z.of_nat k < 2 ^ 31 ->
  ID3v2_read_tag_from_buffer_on P p (zlen l + Z.of_nat k)
  = unless P n (ID3v2_read_tag_from_buffer p (zlen l + Z.of_nat k)).
Proof.
  intros H Pt B. inversion H; subst; clear H.
  - rewrite unless_0. destruct (tag_read_complete l k None p H0 Pt B) as (t & E & S). destruct t; [contradiction|].
    destruct Pt as (tl & ->). unfold ID3v2_read_tag_from_buffer, ID3v2_read_tag_from_buffer_on in *.
    rewrite from_buffer_at in * by (now rewrite zlen_ahead). cbn [bind] in *. rewrite E.
    unfold Tag_parse in E. unfold Tag_parse_on. rewrite header_parse_on.
    destruct (TagHeader_parse _) as [[[h|] cs]| | |]; cbn [bind] in *; try discriminate E; [|reflexivity].
    exfalso. binvs E. discriminate E.
  - rewrite plain_parse_on, plain_parse by auto.
    assert (Z10 : zlen (cells (lit "ID3" ++ [major; minor; flags] ++ size)) = 10).
    { rewrite zlen_cells, !zlen_app. unfold zlen at 3. rewrite H1. reflexivity. }
    assert (Eq : zlen (lit "ID3" ++ [major; minor; flags] ++ size ++ body) = 10 + zlen body).
    { rewrite zlen_cells, !zlen_app in *. lia. }
    rewrite known_schar by auto. rewrite <- unless_bind. f_equal.
    apply (frames_need_on P _ _ _ _ _ _ H4); [now rewrite Z10| |].
    + unfold fits. rewrite Z10, zlen_ahead. lia.
    + rewrite length_ahead, !app_length. lia.
  - change (lit "ID3" ++ [major; minor; flags] ++ size ++ ext ++ body) with (ext_buffer major minor flags size ext body) in *.
    rewrite ext_parse_on, ext_parse_part by auto. set (buf := ext_buffer major minor flags size ext body) in *.
    pose proof (synchsafe_value_range ext) as Re. change (2 ^ 29) with 536870912 in Re.
    rewrite known_schar by auto.
    assert (Es : (if 0 <? synchsafe_value ext then synchsafe_value ext else 14) = start).
    { unfold start, e. destruct (synchsafe_value ext =? 0) eqn:?; [now ifF|now ifT]. }
    assert (Rs : 0 < start < 2 ^ 31).
    { unfold start, e. change (2 ^ 31) with 2147483648. destruct (synchsafe_value ext =? 0) eqn:?; lia. }
    rewrite Es. rewrite <- unless_bind. f_equal.
    destruct (Z.le_gt_cases start (zlen buf + Z.of_nat k)) as [C|C].
    + destruct (at_ahead start buf k ltac:(lia)) as (A & Zp). rewrite A.
      apply (frames_need_on P _ _ _ _ _ _ H5); [now rewrite Zp| |].
      * unfold fits. rewrite Zp, zlen_ahead. unfold zlen in *. rewrite skipn_length. lia.
      * rewrite length_ahead, skipn_length. lia.
    + assert (Sk : skipn (Z.to_nat start) buf = []) by (apply skipn_all2; unfold zlen in C; lia).
      rewrite Sk in H5. replace (length (ahead buf k) + 2)%nat with (S (length (ahead buf k) + 1)) by lia.
      inversion H5; subst.
      * rewrite unless_0. cbn [parse_loop parse_loop_on cs_cursor].
        rewrite to_u32_id by (change (2 ^ 31) with 2147483648 in *; change (2 ^ 32) with 4294967296; lia).
        ifF. reflexivity.
      * exfalso. match goal with Q : frame_read _ _ _ _ None |- _ => now apply frame_read_nonempty in Q end.
      * exfalso. match goal with Q : frame_read _ _ _ _ (Some _) |- _ => apply frame_read_nonempty in Q; congruence end.
Qed.

Lemma tag_need_found l k r : tag_read l k r -> exists n, tag_need l k n.
Proof.
  intros H. inversion H; subst.
  - exists 0. now constructor.
  - exists 0. now constructor.
  - destruct (frames_need_found _ _ _ _ _ _ _ H4) as (n & N). exists n. eapply NeedPlain; eauto.
  - destruct (frames_need_found _ _ _ _ _ _ _ H5) as (n & N). exists n. eapply NeedExtended; eauto.
Qed.

Lemma unless_if {A} P n (a : outcome A) : unless P n a = if holds P n then a else Ub StackOverflow.
Proof. unfold unless, over. now destruct (holds P n). Qed.

Lemma within_ub {A} P (a b : outcome A) u : within P a b -> a = Ub u -> exists v, b = Ub v.
Proof. intros [->|[_ ->]] E; eauto. Qed.

Lemma buffer_on_stack l k p : points_to_part p l k -> zlen l + Z.of_nat k < 2 ^ 31 ->
  let size := zlen l + Z.of_nat k in
  (exists r t n, tag_read l k r /\ shows_read r t /\ tag_need l k n
     /\ forall P, ID3v2_read_tag_from_buffer_on P p size = if holds P n then Ok t else Ub StackOverflow)
  \/ ((forall r, ~ tag_read l k r) /\ forall P, exists u, ID3v2_read_tag_from_buffer_on P p size = Ub u).
Proof.
  intros Pt B size. destruct (read_exactly l k p Pt B) as [(r & t & R & E & S)|(N & u & U)].
  - left. destruct (tag_need_found l k r R) as (n & Hn). exists r, t, n. split; [exact R|]. split; [exact S|]. split; [exact Hn|].
    intros P. unfold size. rewrite (tag_need_on P l k n p Hn Pt B), unless_if. cbv zeta in E. now rewrite E.
  - right. split; [exact N|]. intros P. eapply within_ub; [apply read_buffer_on|exact U].
Qed.

Lemma file_length content n : tag_length content = Some n ->
  let l := firstn (Z.to_nat n) content in
  let k := (Z.to_nat n - length content)%nat in
  points_to_part (Some (fread_into content n)) l k /\ zlen l + Z.of_nat k = n /\ n < 2 ^ 31.
Proof.
  intros T l k. pose proof (tag_length_range _ _ T) as R. change (2 ^ 29) with 536870912 in R. change (2 ^ 31) with 2147483648.
  destruct (fread_ahead content n ltac:(lia)) as (F1 & F2). split; [|split; [exact F2|lia]].
  exists []. now rewrite app_nil_r, F1.
Qed.

Lemma file_need_on P content n : announces_extended content = false -> file_need content n ->
  ID3v2_read_tag_on P (Some content) = unless P n (ID3v2_read_tag (Some content))
  /\ load_tag_on P (Some content) = unless P n (load_tag (Some content)).
Proof.
  intros X N. destruct (file_header content X) as (h & E & H).
  unfold ID3v2_read_tag_on, ID3v2_read_tag, load_tag_on, load_tag. rewrite read_header_on, E. cbn [bind].
  unfold file_need in N. destruct h as [h|].
  - destruct H as (T & _). rewrite T in N. destruct (file_length _ _ T) as (Pt & Eq & B). cbn [deref bind].
    pose proof (tag_need_on P _ _ n _ N Pt ltac:(lia)) as Q. rewrite Eq in Q. split; [exact Q|].
    unfold load_tag_with_buffer_on, load_tag_with_buffer. rewrite Q. now rewrite unless_bind.
  - rewrite H in N. subst n. now rewrite !unless_0.
Qed.

Lemma file_need_found content r : file_read content r -> exists n, file_need content n.
Proof.
  intros (_ & R). unfold file_need. destruct (tag_length content); [now apply tag_need_found in R|eauto].
Qed.

Lemma file_on_stack content :
  (exists r t n, file_read content r /\ shows_read r t /\ file_need content n
     /\ forall P, ID3v2_read_tag_on P (Some content) = if holds P n then Ok t else Ub StackOverflow)
  \/ ((forall r, ~ file_read content r) /\ forall P, exists u, ID3v2_read_tag_on P (Some content) = Ub u).
Proof.
  destruct (read_file_exactly content) as [(r & t & R & E & S)|(N & u & U)].
  - left. destruct (file_need_found content r R) as (n & Hn). exists r, t, n. split; [exact R|]. split; [exact S|]. split; [exact Hn|].
    intros P. destruct (file_need_on P content n (proj1 R) Hn) as (-> & _). rewrite unless_if. now rewrite E.
  - right. split; [exact N|]. intros P. eapply within_ub; [apply read_on|exact U].
Qed.

(** ** Bounds *)

Lemma frame_need_bound ver used gap rest r : frame_read ver used gap rest r -> zlen (used ++ rest) < 2 ^ 31 ->
  0 <= stack_need used gap <= 2 ^ 31 - 2.
Proof.
  intros H B. change (2 ^ 31) with 2147483648 in *. rewrite zlen_app in B. pose proof (zlen_nonneg rest).
  inversion H; subst; unfold stack_need; rewrite ?starts_app by (now apply (len_nonnil _ 3)).
  - cbn [id_starts]. lia.
  - rewrite H4. pose proof (declared_range ver id size flags H1 H2 H3) as R. change (2 ^ 31) with 2147483648 in R.
    pose proof (zlen_nonneg (text_image t ++ junk)). pose proof (text_image_pos t). rewrite !zlen_app in *. lens4. lia.
  - rewrite (starts_excl id "C" "T") by (auto; discriminate). rewrite H5.
    pose proof (text_image_pos d). pose proof (text_image_pos c). rewrite !zlen_app in *. lens4. lia.
  - rewrite (starts_excl id "A" "T"), (starts_excl id "A" "C") by (auto; discriminate). rewrite H4.
    pose proof (declared_range ver id size flags H1 H2 H3) as R. change (2 ^ 31) with 2147483648 in R.
    pose proof (text_image_pos d). pose proof (text_image_pos m). unfold n in *. rewrite !zlen_app in *. lens4. lia.
  - rewrite H4, H5, H6. lia.
  - rewrite H4, H5, H6. lia.
Qed.

Lemma frames_need_bound ver limit k pos l n : frames_need ver limit k pos l n -> zlen l < 2 ^ 31 -> 0 <= n <= 2 ^ 31 - 2.
Proof.
  induction 1 as [| |k pos used gap rest f n H Hf _ IH]; intros B; try (change (2 ^ 31) with 2147483648; lia).
  pose proof (frame_need_bound _ _ _ _ _ Hf B). rewrite zlen_app in B. pose proof (zlen_nonneg used). specialize (IH ltac:(lia)). lia.
Qed.

Lemma tag_need_bound l k n : tag_need l k n -> zlen l < 2 ^ 31 -> 0 <= n <= 2 ^ 31 - 2.
Proof.
  intros H B. inversion H; subst.
  - change (2 ^ 31) with 2147483648. lia.
  - eapply frames_need_bound; [eassumption|]. rewrite !zlen_app in B. pose proof (zlen_nonneg size).
    change (zlen (lit "ID3")) with 3 in B. change (zlen [major; minor; flags]) with 3 in B. lia.
  - eapply frames_need_bound; [eassumption|]. unfold zlen in *. rewrite skipn_length. lia.
Qed.

Lemma file_need_bound content n : file_need content n -> 0 <= n <= 2 ^ 31 - 2.
Proof.
  unfold file_need. destruct (tag_length content) as [k|] eqn:T; [|intros ->; change (2 ^ 31) with 2147483648; lia].
  intros H. destruct (file_length _ _ T) as (_ & E & B). eapply tag_need_bound; [exact H|]. lia.
Qed.

(** ** Tags the library has written *)

Lemma image_need s : frame_ok s = true -> stack_need (frame_image be32 s) 0 = array_bytes s.
Proof.
  intros K. pose proof (frame_ok_common _ K) as (Hi & Hf & _). pose proof (frame_ok_kind _ K) as Hk.
  unfold stack_need. rewrite frame_image_length by auto. change (Z.of_nat 0) with 0.
  unfold frame_image. rewrite !starts_app by (now apply (len_nonnil _ 3)).
  destruct s as [id fl t|fl lang d c|fl m ty d pic|id fl body]; cbn [frame_id array_bytes] in *.
  - destruct Hk as (-> & _). rewrite body_size_text. lia.
  - change (id_starts (lit "COMM") "T") with false. change (id_starts (lit "COMM") "C") with true. cbv iota.
    destruct Hk as (Hl & _). unfold body_size, frame_body, body_with. rewrite !zlen_app. lens4. lia.
  - change (id_starts (lit "APIC") "T") with false. change (id_starts (lit "APIC") "C") with false. change (id_starts (lit "APIC") "A") with true. cbv iota.
    unfold body_size, frame_body, body_with. rewrite !zlen_app. lens4. lia.
  - destruct Hk as (-> & -> & -> & _). reflexivity.
Qed.

Lemma frames_need_again ver limit pad ss : forall pos, oks ss -> Forall shown ss ->
  Forall (fun s => declared_size ver (be32 (body_size s)) = body_size s \/ is_comment s = true) ss ->
  reached limit pos ss -> limit <= pos + frames_size ss \/ 4 <= pad ->
  frames_need ver limit 0 pos (images be32 ss ++ zeros pad) (arrays_bytes ss).
Proof.
  induction ss as [|s ss IH]; intros pos K Sh D R P.
  - change (frames_size []) with 0 in *. rewrite Z.add_0_r in *. cbn [images flat_map app arrays_bytes fold_right].
    destruct (Z.le_gt_cases limit pos) as [L|L]; [now constructor|].
    destruct P as [P|P]; [lia|]. destruct (zeros_split pad P) as (r & ->). apply NeedStop; [exact L|]. constructor.
  - inversion K; inversion Sh; inversion D; subst. destruct R as (R1 & R2).
    rewrite images_cons, <- app_assoc, frames_size_cons in *. cbn [arrays_bytes fold_right].
    rewrite <- image_need by auto.
    apply NeedFrame with (f := frame_of s); [exact R1|now apply frame_again|].
    cbn [Nat.min]. change (Z.of_nat 0) with 0. rewrite Z.add_0_r. cbn [Nat.sub].
    rewrite frame_image_length by auto. rewrite (Z.add_comm (body_size s) 10). apply IH; auto. lia.
Qed.

Lemma written_need major minor flags n ss sound :
  known_version major = true -> has_extended_header flags = false ->
  oks ss -> Forall shown ss -> Forall (fun s => size_kept major (frame_of s)) ss ->
  reached n 10 ss -> frames_size ss <= n -> n < 2 ^ 28 ->
  file_need (tag_bytes major minor flags n ss ++ sound) (arrays_bytes ss).
Proof.
  intros V X K Sh Sk R L B. pose proof (frames_size_nonneg ss).
  destruct (written_file major minor flags n ss sound V X K L B) as (Xc & Tl & _). cbv zeta in *.
  unfold file_need. rewrite Tl. pose proof (tag_bytes_zlen major minor flags n ss K L) as Z.
  rewrite firstn_app_exact by (unfold zlen in Z; lia). rewrite app_length.
  replace (Z.to_nat (10 + n) - _)%nat with O by (unfold zlen in Z; lia).
  assert (Sv : synchsafe_value (synchsafe32 n) = n) by (apply synchsafe_value_synchsafe32; lia).
  apply NeedPlain with (major := major) (minor := minor) (flags := flags) (size := synchsafe32 n)
    (body := images be32 ss ++ zeros (n - frames_size ss)); auto.
  rewrite Sv. apply frames_need_again; auto; [|lia].
  rewrite Forall_forall in Sk |- *. intros s Hs. specialize (Sk s Hs). unfold oks in K. rewrite Forall_forall in K.
  pose proof (frame_ok_common _ (K s Hs)) as (_ & _ & Bs). pose proof (body_size_nonneg s).
  assert (Vm : major = x03 \/ major = x04).
  { unfold known_version in V. apply orb_prop in V. destruct V as [V|V]; apply beq_true in V; auto. }
  destruct Sk as [->|[Sk|Sk]].
  + left. apply declared_be32; [discriminate|lia].
  + left. cbn [f_hdr frame_of fh_size] in Sk. destruct Vm as [->| ->]; [apply declared_be32; [discriminate|lia]|].
    apply declared_be32_v4; lia.
  + right. destruct s; cbn [f_data frame_of is_comment] in *; tauto.
Qed.

(** ** A small file *)

Definition claimed : option (TagHeader * list frame * Z) :=
  Some (mkTH (lit "ID3") x03 x00 x00 13 0, [frame_of (FText (lit "TIT2") [x00; x00] (Iso (lit "A")))], 0).

Lemma claiming_read m : 2 <= m <= 2 ^ 31 - 2 -> file_read (claiming m) claimed /\ file_need (claiming m) m.
Proof.
  intros H. change (2 ^ 31) with 2147483648 in H.
  assert (X : announces_extended (claiming m) = false) by reflexivity.
  assert (T : tag_length (claiming m) = Some 23) by reflexivity.
  assert (F : firstn (Z.to_nat 23) (claiming m) = claiming m) by reflexivity.
  assert (L : (Z.to_nat 23 - length (claiming m))%nat = O) by reflexivity.
  set (body := lit "TIT2" ++ be32 (1 + m) ++ [x00; x00] ++ [x00] ++ text_image (Iso (lit "A")) ++ []).
  assert (Fr : frame_read 3 body (Z.to_nat (m - 2)) [] (Some (frame_of (FText (lit "TIT2") [x00; x00] (Iso (lit "A")))))).
  { apply ReadText; try reflexivity; [|now right].
    rewrite declared_be32 by (try discriminate; lia). change (zlen (text_image (Iso (lit "A")) ++ [])) with 2. lia. }
  assert (E : claiming m = lit "ID3" ++ [x03; x00; x00] ++ synchsafe32 13 ++ body ++ []) by reflexivity.
  assert (V : synchsafe_value (synchsafe32 13) = 13) by reflexivity.
  assert (Z : zlen body = 13) by reflexivity.
  unfold file_read, file_need. rewrite X, T, F, L. split; [split; [reflexivity|]|].
  - unfold claimed. replace 0 with (zlen (claiming m) + Z.of_nat 0 - 23) at 2 by reflexivity.
    rewrite <- V at 1. apply ReadPlain with (body := body ++ []); auto.
    rewrite V. change (bv x03) with 3. apply ReadFrame with (gap := Z.to_nat (m - 2)); [lia|exact Fr|].
    rewrite Nat.min_0_r, Z. apply ReadEnd. lia.
  - apply NeedPlain with (major := x03) (minor := x00) (flags := x00) (size := synchsafe32 13) (body := body ++ []); auto.
    rewrite V. change (bv x03) with 3.
    assert (Q : Z.max (stack_need body (Z.to_nat (m - 2))) 0 = m).
    { unfold stack_need. change (id_starts body "T") with true. cbv iota. rewrite Z. lia. }
    rewrite <- Q. clear Q. apply NeedFrame with (f := frame_of (FText (lit "TIT2") [x00; x00] (Iso (lit "A")))); [lia|exact Fr|].
    rewrite Nat.min_0_r, Z. apply NeedEnd. lia.
Qed.

(** ** Summaries *)

Lemma same_reads P : p_stack P = None ->
  (forall f, ID3v2_read_tag_on P f = ID3v2_read_tag f)
  /\ (forall p n, ID3v2_read_tag_from_buffer_on P p n = ID3v2_read_tag_from_buffer p n)
  /\ (forall f, load_tag_on P f = load_tag f)
  /\ (forall p n, load_tag_with_buffer_on P p n = load_tag_with_buffer p n).
Proof.
  intros N. split; [|split; [|split]]; intros; eapply within_none; eauto using read_on, read_buffer_on, load_on, load_buffer_on.
Qed.

Lemma within_or {A} P (a b : outcome A) : within P a b -> b = a \/ b = Ub StackOverflow.
Proof. unfold within. tauto. Qed.

Lemma same_or_overflow P :
  (forall f, ID3v2_read_tag_on P f = ID3v2_read_tag f \/ ID3v2_read_tag_on P f = Ub StackOverflow)
  /\ (forall p n, ID3v2_read_tag_from_buffer_on P p n = ID3v2_read_tag_from_buffer p n
                  \/ ID3v2_read_tag_from_buffer_on P p n = Ub StackOverflow)
  /\ (forall f, load_tag_on P f = load_tag f \/ load_tag_on P f = Ub StackOverflow)
  /\ (forall p n, load_tag_with_buffer_on P p n = load_tag_with_buffer p n
                  \/ load_tag_with_buffer_on P p n = Ub StackOverflow).
Proof.
  split; [|split; [|split]]; intros; apply (within_or P); auto using read_on, read_buffer_on, load_on, load_buffer_on.
Qed.

Lemma load_need P content n : announces_extended content = false -> file_need content n ->
  load_tag_on P (Some content) = if holds P n then load_tag (Some content) else Ub StackOverflow.
Proof. intros X N. destruct (file_need_on P content n X N) as (_ & ->). apply unless_if. Qed.

Lemma small_file m : 2 <= m <= 2 ^ 31 - 2 ->
  zlen (claiming m) = 23 /\ file_need (claiming m) m
  /\ exists t, t_header t = mkTH (lit "ID3") x03 x00 x00 13 0 /\ t_padding t = 0
       /\ tag_has t [frame_of (FText (lit "TIT2") [x00; x00] (Iso (lit "A")))]
       /\ forall P, ID3v2_read_tag_on P (Some (claiming m)) = if holds P m then Ok (Some t) else Ub StackOverflow.
Proof.
  intros H. destruct (claiming_read m H) as (R & N). split; [reflexivity|]. split; [exact N|].
  destruct (read_file_exactly (claiming m)) as [(r & t & R' & E & S)|(Nr & _)]; [|now apply Nr in R].
  rewrite (file_read_once _ _ _ R' R) in S. destruct t as [t|]; [|contradiction]. destruct S as (S1 & S2 & S3).
  exists t. split; [exact S1|]. split; [exact S3|]. split; [exact S2|]. intros P.
  destruct (file_need_on P _ m (proj1 R) N) as (-> & _). rewrite E. apply unless_if.
Qed.

Lemma all_reached limit fs : forall pos, (forall a f b, fs = a ++ f :: b -> pos + frames_size a < limit) -> reached limit pos fs.
Proof.
  induction fs as [|f fs IH]; intros pos H; [exact I|]. split.
  - specialize (H [] f fs eq_refl). change (frames_size []) with 0 in H. lia.
  - apply IH. intros a g b ->. specialize (H (f :: a) g b eq_refl). rewrite frames_size_cons in H. lia.
Qed.

Lemma written_on_stack P maj mi fl n fs sound :
  known_version maj = true -> has_extended_header fl = false ->
  oks fs -> (forall fl m ty d, ~ In (FPicture fl m ty d []) fs) -> Forall (fun f => size_kept maj (frame_of f)) fs ->
  (forall a f b, fs = a ++ f :: b -> 10 + frames_size a < n) -> frames_size fs <= n -> n < 2 ^ 28 ->
  let content := tag_bytes maj mi fl n fs ++ sound in
  file_need content (arrays_bytes fs)
  /\ ID3v2_read_tag_on P (Some content)
     = if holds P (arrays_bytes fs) then ID3v2_read_tag (Some content) else Ub StackOverflow.
Proof.
  intros V X K Sh Sk R L B content.
  destruct (written_file maj mi fl n fs sound V X K L B) as (Xc & _).
  assert (N : file_need content (arrays_bytes fs)).
  { apply written_need; auto; [|now apply all_reached]. apply Forall_forall. intros s Hs. destruct s; cbn [shown]; auto.
    intros ->. now apply Sh in Hs. }
  destruct (file_need_on P content (arrays_bytes fs) Xc N) as (-> & _). split; [exact N|]. apply unless_if.
Qed.
