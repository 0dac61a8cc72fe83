(** What the assertions of the test programs say. *)
From Verif Require Import BaseFacts UtilsFacts StreamFacts FrameFacts HeaderFacts TagFacts.
From Verif Require Import Tests Spec SpecEdit SpecFile SpecRead SpecSession SpecTests.
From Verif Require Import ListFacts EditFacts HistFacts ClaimFacts.
From Coq Require Import Lia ZifyBool ZifyNat.

(** ** memcmp *)

Lemma beq_sym a b : beq a b = beq b a.
Proof. destruct (beq_spec a b), (beq_spec b a); congruence. Qed.

Lemma memcmp_true n : forall a b, memcmp_cells n a b = Ok true <->
  exists l ta tb, length l = n /\ a = cells l ++ ta /\ b = cells l ++ tb.
Proof.
  induction n as [|n IH]; intros a b; cbn [memcmp_cells].
  - split; [|reflexivity]. intros _. exists [], a, b. auto.
  - destruct a as [|[x|] a].
    + split; [discriminate|]. intros ([|c l] & ta & tb & L & E & _); [discriminate L|discriminate E].
    + destruct b as [|[y|] b].
      * split; [discriminate|]. intros ([|c l] & ta & tb & L & _ & E); [discriminate L|discriminate E].
      * destruct (beq x y) eqn:X.
        -- apply beq_true in X. subst y. rewrite IH. split.
           ++ intros (l & ta & tb & L & -> & ->). exists (x :: l), ta, tb. cbn. auto.
           ++ intros ([|c l] & ta & tb & L & E1 & E2); [discriminate L|]. cbn [cells map app] in *.
              injection E1 as <- ->. injection E2 as ->. exists l, ta, tb. cbn in L. auto.
        -- split; [discriminate|]. intros ([|c l] & ta & tb & L & E1 & E2); [discriminate L|]. exfalso.
           cbn [cells map app] in *. injection E1 as <- _. injection E2 as <- _. rewrite beq_refl in X. discriminate X.
      * split; [discriminate|]. intros ([|c l] & ta & tb & L & _ & E); [discriminate L|discriminate E].
    + split; [destruct b; discriminate|]. intros ([|c l] & ta & tb & L & E & _); [discriminate L|discriminate E].
Qed.

Lemma memcmp_exact l ta tb : memcmp_cells (length l) (cells l ++ ta) (cells l ++ tb) = Ok true.
Proof. apply memcmp_true. exists l, ta, tb. auto. Qed.

Lemma memcmp_differ l x y ta tb la lb n :
  x <> y -> (length l < n)%nat ->
  memcmp_cells n (cells (l ++ x :: la) ++ ta) (cells (l ++ y :: lb) ++ tb) = Ok false.
Proof.
  intros N. revert n. induction l as [|c l IH]; intros [|n] L; cbn [length] in L; try lia;
    cbn [cells map app memcmp_cells].
  - destruct (beq x y) eqn:E; [apply beq_true in E; congruence|reflexivity].
  - rewrite beq_refl. apply IH. lia.
Qed.

(** Two strings of bytes: one begins with the other, or they differ. *)
Lemma compare_bytes (a b : list byte) :
  (exists r, a = b ++ r) \/ (exists c r, b = a ++ c :: r)
  \/ exists l x y ra rb, x <> y /\ a = l ++ x :: ra /\ b = l ++ y :: rb.
Proof.
  revert b. induction a as [|x a IH]; intros [|y b].
  - left. now exists [].
  - right. left. exists y, b. reflexivity.
  - left. now exists (x :: a).
  - destruct (Byte.byte_eq_dec x y) as [<-|N].
    + destruct (IH b) as [(r & ->)|[(c & r & ->)|(l & u & v & ra & rb & N & -> & ->)]].
      * left. now exists r.
      * right. left. now exists c, r.
      * right. right. exists (x :: l), u, v, ra, rb. auto.
    + right. right. exists [], x, y, a, b. auto.
Qed.

(** ** Strings *)

Lemma units_apart us us' r r' :
  forallb (fun u => negb (is_zero (fst u) && is_zero (snd u))) us = true ->
  forallb (fun u => negb (is_zero (fst u) && is_zero (snd u))) us' = true ->
  flat_map (fun u : byte * byte => [fst u; snd u]) us ++ x00 :: x00 :: r
  = flat_map (fun u : byte * byte => [fst u; snd u]) us' ++ x00 :: x00 :: r' -> us = us' /\ r = r'.
Proof.
  revert us'. induction us as [|[a b] us IH]; intros [|[c d] us'] K K' E; cbn [flat_map app fst snd forallb] in *.
  - injection E as ->. auto.
  - injection E as <- <- _. discriminate K'.
  - injection E as -> -> _. discriminate K.
  - injection E as -> -> E. apply andb_true_iff in K, K'. destruct (IH us' (proj2 K) (proj2 K') E) as (-> & ->). auto.
Qed.

Lemma chars_apart cs cs' r r' :
  forallb (fun c => negb (is_zero c)) cs = true -> forallb (fun c => negb (is_zero c)) cs' = true ->
  cs ++ x00 :: r = cs' ++ x00 :: r' -> cs = cs' /\ r = r'.
Proof.
  revert cs'. induction cs as [|c cs IH]; intros [|d cs'] K K' E; cbn [app forallb] in *.
  - injection E as ->. auto.
  - injection E as <- _. discriminate K'.
  - injection E as -> _. discriminate K.
  - injection E as -> E. apply andb_true_iff in K, K'. destruct (IH cs' (proj2 K) (proj2 K') E) as (-> & ->). auto.
Qed.

Lemma chars_not_bom cs be r r' : text_ok (Iso cs) = true -> cs ++ x00 :: r <> bom_bytes be ++ r'.
Proof.
  intros K E. cbn [text_ok] in K. apply andb_true_iff in K. destruct K as (_ & K).
  destruct cs as [|a [|b cs]]; destruct be; cbn [app bom_bytes] in E; try discriminate E.
  all: injection E as -> -> _; discriminate K.
Qed.

(** No string is the beginning of another. *)
Lemma text_apart t t' r r' : text_ok t = true -> text_ok t' = true ->
  text_image t ++ r = text_image t' ++ r' -> t = t' /\ r = r'.
Proof.
  intros K K' E. unfold text_image in E. destruct t as [cs|be us], t' as [cs'|be' us'];
    cbn [text_bytes text_end] in E; rewrite <- !app_assoc in E; cbn [app] in E.
  - cbn [text_ok] in K, K'. apply andb_true_iff in K, K'.
    destruct (chars_apart cs cs' r r' (proj1 K) (proj1 K') E) as (-> & ->). auto.
  - exfalso. revert E. now apply chars_not_bom.
  - exfalso. symmetry in E. revert E. now apply chars_not_bom.
  - assert (B : be = be') by (destruct be, be'; try reflexivity; discriminate E). subst be'.
    assert (E' : flat_map (fun u : byte * byte => [fst u; snd u]) us ++ x00 :: x00 :: r
                 = flat_map (fun u : byte * byte => [fst u; snd u]) us' ++ x00 :: x00 :: r')
      by (destruct be; cbn [bom_bytes app] in E; now injection E).
    destruct (units_apart us us' r r' K K' E') as (-> & ->). auto.
Qed.

Lemma text_same t t' : text_ok t = true -> text_ok t' = true -> text_image t = text_image t' -> t = t'.
Proof.
  intros K K' E. apply (text_apart t t' [] []); auto. now rewrite !app_nil_r.
Qed.

(** Comparing a string with one that is expected. *)
Lemma memcmp_text t t' tail n : text_ok t = true -> text_ok t' = true -> n = zlen (text_image t) ->
  exists b, memcmp_is_0 (Some (cells (text_image t'))) (Some (cells (text_image t) ++ tail)) n = Ok b
    /\ (b = true <-> t' = t).
Proof.
  intros K K' ->. unfold memcmp_is_0. pose proof (zlen_nonneg (text_image t)).
  replace (zlen (text_image t) <? 0) with false by lia. unfold zlen. rewrite Nat2Z.id.
  rewrite <- (app_nil_r (cells (text_image t'))).
  destruct (compare_bytes (text_image t') (text_image t)) as [(r & E)|[(c & r & E)|(l & x & y & ra & rb & N & E & E')]].
  - assert (Q : t' = t /\ [] = r) by (apply (text_apart t' t [] r); auto; now rewrite app_nil_r).
    destruct Q as (-> & _). exists true. split; [apply memcmp_exact|tauto].
  - exfalso. assert (Q : t = t' /\ [] = c :: r) by (apply (text_apart t t' [] (c :: r)); auto; now rewrite app_nil_r).
    destruct Q as (_ & Q). discriminate Q.
  - exists false. rewrite E, E'. split.
    + apply memcmp_differ; [exact N|]. rewrite app_length. cbn [length]. lia.
    + split; [discriminate|]. intros ->. rewrite E' in E. apply app_inv_head in E. congruence.
Qed.

(** Comparing as many bytes as there are. *)
Lemma memcmp_bytes l l' tail n : zlen l = n -> zlen l' = n ->
  exists b, memcmp_is_0 (Some (cells l')) (Some (cells l ++ tail)) n = Ok b /\ (b = true <-> l' = l).
Proof.
  intros L L'. unfold memcmp_is_0. pose proof (zlen_nonneg l). replace (n <? 0) with false by lia.
  rewrite <- (app_nil_r (cells l')).
  destruct (compare_bytes l' l) as [(r & E)|[(c & r & E)|(k & x & y & ra & rb & N & E & E')]].
  - assert (r = []) as ->. { subst l'. rewrite zlen_app in L'. destruct r; [reflexivity|]. rewrite zlen_cons in L'. pose proof (zlen_nonneg r). lia. }
    rewrite app_nil_r in E. subst l'. exists true. split; [|tauto].
    replace (Z.to_nat n) with (length l) by (unfold zlen in L; lia). apply memcmp_exact.
  - exfalso. subst l. rewrite zlen_app, zlen_cons in L. pose proof (zlen_nonneg r). lia.
  - exists false. split.
    + rewrite E, E'. apply memcmp_differ; [exact N|]. rewrite E', zlen_app, zlen_cons in L. unfold zlen in L. lia.
    + split; [discriminate|]. intros <-. rewrite E in E'. apply app_inv_head in E'. congruence.
Qed.

Lemma has_bom_is t tail : text_ok t = true -> has_bom (Some (cells (text_image t) ++ tail)) = Ok (is_unicode t).
Proof.
  intros K. destruct t as [cs|be us].
  - cbn [text_ok] in K. apply andb_true_iff in K. destruct K as (_ & K). apply negb_true_iff in K.
    unfold has_bom, memcmp_is_0, text_image. change (2 <? 0) with false. cbv iota. change (Z.to_nat 2) with 2%nat.
    cbn [text_bytes text_end is_unicode]. destruct cs as [|a cs].
    + reflexivity.
    + cbn [app cells map memcmp_cells]. fold (cells cs).
      destruct cs as [|b cs]; cbn [app cells map memcmp_cells starts_with_bom] in *.
      * destruct (beq xff a), (beq xfe a); cbn [bind]; reflexivity.
      * rewrite (beq_sym xff a), (beq_sym xfe b), (beq_sym xfe a), (beq_sym xff b). unfold beq.
        destruct (Byte.eqb a xff), (Byte.eqb b xfe), (Byte.eqb a xfe), (Byte.eqb b xff); cbn [bind andb orb] in *; congruence.
  - unfold has_bom, text_image. destruct be; reflexivity.
Qed.

(** ** The assertions *)

Lemma frame_header_says x id fl i f n :
  frame_ok x = true -> points_to id i -> points_to fl f -> length i = 4%nat -> length f = 2%nat ->
  exists b, assert_frame_header (Some (frame_of x)) id n fl = Ok b
    /\ (b = true <-> frame_id x = i /\ body_size x = n /\ frame_flags x = f).
Proof.
  intros K (ti & ->) (tf & ->) Li Lf. apply frame_ok_common in K. destruct K as (Ki & Kf & _).
  unfold assert_frame_header. cbn [deref bind frame_of f_hdr fh_id fh_size fh_flags].
  change ID3v2_FRAME_HEADER_ID_LENGTH with 4. change ID3v2_FRAME_HEADER_FLAGS_LENGTH with 2.
  destruct (memcmp_bytes i (frame_id x) ti 4) as (b1 & -> & E1); [unfold zlen; lia..|].
  destruct (memcmp_bytes f (frame_flags x) tf 2) as (b2 & E2 & E2'); [unfold zlen; lia..|].
  cbn [bind]. destruct b1.
  2:{ exists false. split; [reflexivity|]. split; [discriminate|]. intros (Q & _). now apply E1 in Q. }
  destruct (Z.eqb_spec (body_size x) n) as [E|E].
  2:{ exists false. split; [reflexivity|]. split; [discriminate|]. tauto. }
  rewrite E2. cbn [bind]. exists b2. split; [now destruct b2|]. tauto.
Qed.

Lemma termination_is t : termination_length (is_unicode t) = zlen (text_end t).
Proof. now destruct t. Qed.

Lemma encoding_is t : encoding_of (is_unicode t) = text_encoding t.
Proof. now destruct t. Qed.

Lemma image_parts t : zlen (text_bytes t) + termination_length (is_unicode t) = zlen (text_image t).
Proof. rewrite termination_is. unfold text_image. now rewrite zlen_app. Qed.

Lemma ok_false (P : Prop) : ~ P -> exists b, Ok false = Ok b /\ (b = true <-> P).
Proof. intros N. exists false. split; [reflexivity|]. split; [discriminate|tauto]. Qed.

Ltac says H b E := destruct H as (b & -> & E); cbn [bind]; destruct b;
  [assert (E' := proj1 E eq_refl); clear E; rename E' into E|apply ok_false; intros Q; enough (false = true) by discriminate; apply E].

Lemma frame_ok_body x : frame_ok x = true ->
  match x with
  | FText id _ t => id_starts id "T" = true /\ text_ok t = true
  | FComment _ lang d c => length lang = 3%nat /\ text_ok d = true /\ text_ok c = true
  | FPicture _ m _ d _ => text_ok m = true /\ text_ok d = true
  | FOther id _ _ => id_starts id "T" = false /\ id_starts id "C" = false /\ id_starts id "A" = false
  end.
Proof.
  intros K. unfold frame_ok in K. apply andb_prop in K. destruct K as (_ & K).
  destruct x as [i f t|f l d c|f m ty d p|i f b]; cbv beta iota in K.
  - apply andb_prop in K. exact K.
  - apply andb_prop in K. destruct K as (K & Kc). apply andb_prop in K. destruct K as (Kl & Kd). apply Nat.eqb_eq in Kl. auto.
  - apply andb_prop in K. exact K.
  - apply andb_prop in K. destruct K as (K & _). apply andb_prop in K. destruct K as (K & KA). apply andb_prop in K.
    destruct K as (KT & KC). apply negb_true_iff in KT, KC, KA. auto.
Qed.

Lemma text_says x id fl s i f t :
  frame_ok (FText i f t) = true -> frame_ok x = true ->
  points_to id i -> points_to fl f -> points_to s (text_image t) ->
  exists b, assert_text_frame (Some (frame_of x)) (mkTextInput id fl s) = Ok b /\ (b = true <-> x = FText i f t).
Proof.
  intros K Kx Pi Pf (ts & ->). pose proof (frame_ok_common _ K) as (Li & Lf & B). cbn [frame_id frame_flags] in Li, Lf.
  destruct (frame_ok_body _ K) as (Is & Kt).
  assert (Zb : body_size (FText i f t) = 1 + zlen (text_image t)) by (unfold body_size, frame_body, body_with; rewrite zlen_app; reflexivity).
  pose proof (text_image_pos t) as Zt. change (2 ^ 31) with 2147483648 in *.
  unfold assert_text_frame. cbn [ti_text ti_id ti_flags]. rewrite has_bom_is by auto. cbn [bind].
  rewrite strlen_text by (auto; change (2 ^ 31) with 2147483648; lia). cbn [bind].
  rewrite iadd_ok by (rewrite image_parts; change (2 ^ 31) with 2147483648; lia). cbn [bind]. rewrite image_parts.
  change ID3v2_FRAME_ENCODING_LENGTH with 1. rewrite iadd_ok by (change (2 ^ 31) with 2147483648; lia). cbn [bind].
  says (frame_header_says x id fl i f (zlen (text_image t) + 1) Kx Pi Pf Li Lf) b E.
  2:{ subst x. cbn [frame_id frame_flags]. rewrite Zb. repeat split. lia. }
  destruct E as (Ei & Es & Ef). cbn [deref bind].
  assert (Sx : exists t', x = FText i f t' /\ text_ok t' = true).
  { apply frame_ok_body in Kx.
    destruct x as [i' f' t'|f' l' d' c'|f' m' ty' d' p'|i' f' b']; cbn [frame_id frame_flags] in *; subst.
    - exists t'. split; [reflexivity|]. apply Kx.
    - discriminate Is.
    - discriminate Is.
    - destruct Kx as (Kx & _). rewrite Is in Kx. discriminate Kx. }
  destruct Sx as (t' & -> & Kt'). cbn [frame_of f_data td_size td_encoding td_text].
  assert (Es' : zlen (text_image t') = zlen (text_image t)).
  { unfold body_size, frame_body, body_with in Es. rewrite zlen_app in Es. change (zlen [_]) with 1 in Es. lia. }
  rewrite Es'. replace (zlen (text_image t) =? zlen (text_image t) + 1 - 1) with true by lia. cbn [bind]. rewrite encoding_is.
  destruct (beq (text_encoding t') (text_encoding t)) eqn:Ee; cbn [bind].
  - destruct (memcmp_text t t' ts (zlen (text_image t)) Kt Kt' eq_refl) as (b & -> & Eb). cbn [bind].
    exists b. split; [now destruct b|]. rewrite Eb. split; congruence.
  - apply ok_false. intros Q. injection Q as ->. rewrite beq_refl in Ee. discriminate Ee.
Qed.

Lemma memcmp_data l l' tail : zlen l' = zlen l ->
  exists b, memcmp_is_0 (Some (cells l')) (Some (cells l ++ tail)) (zlen l) = Ok b /\ (b = true <-> l' = l).
Proof. intros L. now apply memcmp_bytes. Qed.

Lemma comment_parts f l d c : frame_ok (FComment f l d c) = true ->
  length f = 2%nat /\ length l = 3%nat /\ text_ok d = true /\ text_ok c = true
  /\ body_size (FComment f l d c) = 4 + zlen (text_image d) + zlen (text_image c)
  /\ 14 + zlen (text_image d) + zlen (text_image c) < 2 ^ 31.
Proof.
  intros K. pose proof (frame_ok_common _ K) as (_ & Lf & B).
  assert (Z : length l = 3%nat -> body_size (FComment f l d c) = 4 + zlen (text_image d) + zlen (text_image c)).
  { intros L. unfold body_size, frame_body, body_with. rewrite !zlen_app. change (zlen [_]) with 1. unfold zlen at 1. rewrite L. lia. }
  destruct (frame_ok_body _ K) as (Kl & Kd & Kc). rewrite Z in B |- * by auto. repeat split; auto. lia.
Qed.

Lemma comment_says x fl la sd co f l d c :
  frame_ok (FComment f l d c) = true -> frame_ok x = true ->
  points_to fl f -> points_to la l -> points_to sd (text_image d) -> points_to co (text_image c) ->
  exists b, assert_comment_frame (Some (frame_of x)) (mkCommentInput fl la sd co) = Ok b
    /\ (b = true <-> x = FComment f l d c).
Proof.
  intros K Kx Pf (tl & ->) (td & ->) (tc & ->). destruct (comment_parts f l d c K) as (Lf & Ll & Kd & Kc & Zb & B).
  pose proof (text_image_pos d) as Zd. pose proof (text_image_pos c) as Zc. change (2 ^ 31) with 2147483648 in *.
  unfold assert_comment_frame. cbn [ci_comment ci_short_description ci_language ci_flags].
  rewrite !has_bom_is by auto. cbn [bind].
  rewrite strlen_text by (auto; change (2 ^ 31) with 2147483648; lia). cbn [bind].
  rewrite iadd_ok by (rewrite image_parts; change (2 ^ 31) with 2147483648; lia). cbn [bind]. rewrite image_parts.
  rewrite strlen_text by (auto; change (2 ^ 31) with 2147483648; lia). cbn [bind].
  rewrite iadd_ok by (rewrite image_parts; change (2 ^ 31) with 2147483648; lia). cbn [bind]. rewrite image_parts.
  change ID3v2_FRAME_ENCODING_LENGTH with 1. change ID3v2_COMMENT_FRAME_LANGUAGE_LENGTH with 3.
  rewrite !iadd_ok by (change (2 ^ 31) with 2147483648; lia). cbn [bind].
  rewrite !iadd_ok by (change (2 ^ 31) with 2147483648; lia). cbn [bind].
  rewrite !iadd_ok by (change (2 ^ 31) with 2147483648; lia). cbn [bind].
  says (frame_header_says x ID3v2_COMMENT_FRAME_ID fl (lit "COMM") f (zlen (text_image c) + zlen (text_image d) + 1 + 3)
          Kx (points_to_lit _) Pf eq_refl Lf) b E.
  2:{ subst x. cbn [frame_id frame_flags]. rewrite Zb. repeat split. lia. }
  destruct E as (Ei & Es & Ef). cbn [deref bind].
  assert (Sx : exists l' d' c', x = FComment f l' d' c').
  { apply frame_ok_body in Kx.
    destruct x as [i' f' t'|f' l' d' c'|f' m' ty' d' p'|i' f' b']; cbn [frame_id frame_flags] in *; subst.
    - destruct Kx as (Kx & _). discriminate Kx.
    - eauto.
    - discriminate Ei.
    - destruct Kx as (_ & Kx & _). discriminate Kx. }
  destruct Sx as (l' & d' & c' & ->). destruct (comment_parts _ _ _ _ Kx) as (_ & Ll' & Kd' & Kc' & Zb' & _).
  cbn [frame_of f_data cd_size cd_encoding cd_language cd_short cd_comment].
  destruct (Z.eqb_spec (zlen (text_image c')) (zlen (text_image c))) as [Ec|Ec]; cbn [bind].
  2:{ apply ok_false. intros Q. injection Q as _ _ ->. now apply Ec. }
  rewrite encoding_is. destruct (beq (text_encoding c') (text_encoding c)) eqn:Ee; cbn [bind].
  2:{ apply ok_false. intros Q. injection Q as _ _ ->. rewrite beq_refl in Ee. discriminate Ee. }
  says (memcmp_bytes l l' tl 3 ltac:(unfold zlen; lia) ltac:(unfold zlen; lia)) b1 E1; [|now injection Q].
  says (memcmp_text d d' td _ Kd Kd' eq_refl) b2 E2; [|now injection Q].
  subst d' l'. rewrite Ec.
  says (memcmp_text c c' tc _ Kc Kc' eq_refl) b3 E3; [|now injection Q].
  subst. exists true. tauto.
Qed.

Lemma picture_size f m ty d pic : body_size (FPicture f m ty d pic) = 2 + zlen (text_image m) + zlen (text_image d) + zlen pic.
Proof. unfold body_size, frame_body, body_with. rewrite !zlen_app. change (zlen [_]) with 1. lia. Qed.

Lemma picture_parts f m ty d pic : frame_ok (FPicture f m ty d pic) = true ->
  length f = 2%nat /\ text_ok m = true /\ text_ok d = true
  /\ body_size (FPicture f m ty d pic) = 2 + zlen (text_image m) + zlen (text_image d) + zlen pic
  /\ 12 + zlen (text_image m) + zlen (text_image d) + zlen pic < 2 ^ 31.
Proof.
  intros K. pose proof (frame_ok_common _ K) as (_ & Lf & B).
  assert (Z : body_size (FPicture f m ty d pic) = 2 + zlen (text_image m) + zlen (text_image d) + zlen pic).
  { apply picture_size. }
  destruct (frame_ok_body _ K) as (Km & Kd). rewrite Z in B |- *. repeat split; auto. lia.
Qed.

Lemma picture_says x fl mi de ty da f m ty' d pic :
  frame_ok (FPicture f m ty' d pic) = true -> frame_ok x = true ->
  points_to fl f -> points_to mi (text_image m) -> points_to de (text_image d) -> points_to da pic ->
  exists b, assert_apic_frame (Some (frame_of x)) (mkApicInput fl mi de ty (zlen pic) da) = Ok b
    /\ (b = true <-> exists any, x = FPicture f m any d pic).
Proof.
  intros K Kx Pf (tm & ->) (td & ->) (tp & ->). destruct (picture_parts f m ty' d pic K) as (Lf & Km & Kd & Zb & B).
  pose proof (text_image_pos d) as Zd. pose proof (text_image_pos m) as Zm. pose proof (zlen_nonneg pic) as Zp.
  change (2 ^ 31) with 2147483648 in *.
  unfold assert_apic_frame. cbn [ai_description ai_mime_type ai_picture_size ai_flags ai_data].
  rewrite has_bom_is by auto. cbn [bind not_null].
  rewrite !strlent_text by (auto; change (2 ^ 31) with 2147483648; lia). cbn [bind].
  change ID3v2_FRAME_ENCODING_LENGTH with 1. change ID3v2_APIC_FRAME_PICTURE_TYPE_LENGTH with 1.
  rewrite !iadd_ok by (change (2 ^ 31) with 2147483648; lia). cbn [bind].
  rewrite !iadd_ok by (change (2 ^ 31) with 2147483648; lia). cbn [bind].
  rewrite !iadd_ok by (change (2 ^ 31) with 2147483648; lia). cbn [bind].
  rewrite !iadd_ok by (change (2 ^ 31) with 2147483648; lia). cbn [bind].
  says (frame_header_says x ID3v2_ALBUM_COVER_FRAME_ID fl (lit "APIC") f
          (1 + zlen (text_image m) + 1 + zlen (text_image d) + zlen pic) Kx (points_to_lit _) Pf eq_refl Lf) b E.
  2:{ destruct Q as (any & ->). cbn [frame_id frame_flags].
      rewrite picture_size. repeat split. lia. }
  destruct E as (Ei & Es & Ef). cbn [deref bind].
  assert (Sx : exists m2 ty2 d2 p2, x = FPicture f m2 ty2 d2 p2).
  { apply frame_ok_body in Kx.
    destruct x as [i' f' t'|f' l' d' c'|f' m' ty2 d' p'|i' f' b']; cbn [frame_id frame_flags] in *; subst.
    - destruct Kx as (Kx & _). discriminate Kx.
    - discriminate Ei.
    - eauto.
    - destruct Kx as (_ & _ & Kx). discriminate Kx. }
  destruct Sx as (m2 & ty2 & d2 & p2 & ->). destruct (picture_parts _ _ _ _ _ Kx) as (_ & Km2 & Kd2 & Zb2 & _).
  cbn [frame_of f_data ad_encoding ad_picture_size ad_data ad_mime ad_desc].
  rewrite encoding_is. destruct (beq (text_encoding d2) (text_encoding d)) eqn:Ee; cbn [bind].
  2:{ apply ok_false. intros (any & Q). injection Q as _ _ -> _. rewrite beq_refl in Ee. discriminate Ee. }
  destruct (Z.eqb_spec (zlen p2) (zlen pic)) as [Ep|Ep]; cbn [bind].
  2:{ apply ok_false. intros (any & Q). injection Q as _ _ _ ->. now apply Ep. }
  says (memcmp_data pic p2 tp Ep) b1 E1; [|destruct Q as (any & Q); now injection Q].
  says (memcmp_text m m2 tm _ Km Km2 eq_refl) b2 E2; [|destruct Q as (any & Q); now injection Q].
  says (memcmp_text d d2 td _ Kd Kd2 eq_refl) b3 E3; [|destruct Q as (any & Q); now injection Q].
  subst. exists true. split; [reflexivity|]. split; [eauto|auto].
Qed.
