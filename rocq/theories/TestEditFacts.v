(** What set_test.c needs of the file it is run on. *)
From Verif Require Import BaseFacts UtilsFacts StreamFacts FrameFacts HeaderFacts TagFacts.
From Verif Require Import Tests Spec SpecEdit SpecFile SpecRead SpecSession SpecTests.
From Verif Require Import ListFacts EditFacts HistFacts ClaimFacts FileFacts ReadFacts SessionFacts RewriteFacts CutFacts.
From Verif Require Import CompatFacts TestFacts TestRunFacts.
From Coq Require Import Lia ZifyBool ZifyNat.

Definition first_puts : list fspec := new_texts ++ [new_comment].

Lemma set_room cover fs pad : room_left (set_edits cover) fs pad = pad - 10 * (2 + missing cover fs).
Proof.
  unfold set_edits. rewrite room_left_app. fold first_puts. rewrite room_puts by reflexivity.
  cbn [room_left room_change edited_once]. rewrite existsb_app, !existsb_find.
  change (frame_id (new_cover cover)) with (lit "APIC"). rewrite find_puts_other by reflexivity.
  change (find (titled (lit "APIC")) [other_comment]) with (@None fspec). cbv iota. rewrite orb_false_r, <- existsb_find.
  unfold missing, put_frames_of. change (new_texts ++ [new_comment; new_cover cover]) with (first_puts ++ [new_cover cover]).
  rewrite filter_app, zlen_app. cbn [filter]. change (frame_id (new_cover cover)) with (lit "APIC").
  destruct (existsb (titled (lit "APIC")) fs); cbn [negb]; change (zlen [new_cover cover]) with 1; change (zlen (@nil fspec)) with 0; lia.
Qed.

Lemma set_texts_found cover fs f : In f new_texts -> find (titled (frame_id f)) (edited (set_edits cover) fs) = Some f.
Proof.
  intros I. unfold set_edits. rewrite edited_app. fold first_puts. cbn [edited edited_once]. apply find_later.
  assert (N : same_id (frame_id (new_cover cover)) (frame_id f) = false).
  { change (frame_id (new_cover cover)) with (lit "APIC"). assert (A : forallb (fun f => negb (same_id (lit "APIC") (frame_id f))) new_texts = true) by reflexivity.
    rewrite forallb_forall in A. specialize (A f I). now apply negb_true_iff in A. }
  rewrite find_put_other by auto using titled_self. apply find_later. apply find_puts; [reflexivity|].
  unfold first_puts. apply in_or_app. now left.
Qed.

Lemma set_comment_found cover fs : find (titled (lit "COMM")) (edited (set_edits cover) fs) = Some new_comment.
Proof.
  unfold set_edits. rewrite edited_app. fold first_puts. cbn [edited edited_once]. apply find_later.
  rewrite find_put_other by (reflexivity || apply titled_self). apply find_later.
  apply (find_puts first_puts fs new_comment); [reflexivity|]. unfold first_puts. apply in_or_app. right. now left.
Qed.

Lemma set_cover_found cover fs : find (titled (lit "APIC")) (edited (set_edits cover) fs) = Some (new_cover cover).
Proof.
  unfold set_edits. rewrite edited_app. fold first_puts. cbn [edited edited_once]. apply find_later.
  apply find_put_same. reflexivity.
Qed.

Lemma set_second_comment cover fs :
  second "COMM" (edited (set_edits cover) fs) = Some match second "COMM" fs with Some x => x | None => other_comment end.
Proof.
  unfold second, set_edits. rewrite edited_app. fold first_puts. cbn [edited edited_once].
  rewrite filter_app, filter_put_other by (reflexivity || apply titled_self). rewrite filter_app.
  change (filter (titled (lit "COMM")) [other_comment]) with [other_comment].
  change (filter (titled (lit "COMM")) [other_cover x03 cover]) with (@nil fspec).
  unfold first_puts. rewrite map_app, edited_app. cbn [map edited edited_once]. change (frame_id new_comment) with (lit "COMM").
  rewrite filter_put_same by reflexivity. rewrite filter_puts_other by reflexivity.
  destruct (filter (titled (lit "COMM")) fs) as [|a [|b l]]; reflexivity.
Qed.

Lemma set_second_cover cover fs :
  second "APIC" (edited (set_edits cover) fs) = Some match second "APIC" fs with Some x => x | None => other_cover x03 cover end.
Proof.
  unfold second, set_edits. rewrite edited_app. fold first_puts. cbn [edited edited_once].
  change (frame_id (new_cover cover)) with (lit "APIC").
  rewrite filter_app, filter_put_same by reflexivity. rewrite filter_app.
  change (filter (titled (lit "APIC")) [other_comment]) with (@nil fspec).
  change (filter (titled (lit "APIC")) [other_cover x03 cover]) with [other_cover x03 cover].
  rewrite filter_puts_other by reflexivity. rewrite app_nil_r.
  destruct (filter (titled (lit "APIC")) fs) as [|a [|b l]]; reflexivity.
Qed.

Lemma put_in {A} (p : A -> bool) f l x : In x (put p f l) -> x = f \/ In x l.
Proof. induction l as [|y l IH]; cbn [put In]; [intuition|]. destruct (p y); cbn [In]; intuition. Qed.

Lemma edited_sets_in es : forall fs x, forallb is_set es = true -> In x (edited es fs) ->
  In x fs \/ exists e, In e es /\ (e = Put x \/ e = Append x).
Proof.
  induction es as [|e es IH]; intros fs x S I; [now left|]. cbn [forallb edited] in *. apply andb_true_iff in S.
  destruct S as (Se & S). destruct (IH _ _ S I) as [H|(e' & He & H)]; [|right; exists e'; split; [now right|auto]].
  destruct e as [f|f|id|id i]; try discriminate Se; cbn [edited_once] in H.
  - apply put_in in H. destruct H as [->|H]; [right; exists (Put f); split; [now left|auto]|now left].
  - apply in_app_or in H. destruct H as [H|[<-|[]]]; [now left|right; exists (Append f); split; [now left|auto]].
Qed.

Lemma set_survives (P : fspec -> Prop) cover fs : Forall P (fs ++ set_frames_of cover) -> Forall P (edited (set_edits cover) fs).
Proof.
  intros H. rewrite Forall_forall in *. intros x I. apply edited_sets_in in I; [|reflexivity].
  apply H, in_or_app. destruct I as [I|(e & I & E)]; [now left|]. right.
  unfold set_edits, new_texts in I. cbn [map app In] in I. unfold set_frames_of, put_frames_of, new_texts. cbn [app In].
  destruct E as [-> | ->]; repeat (destruct I as [I|I]; [try discriminate I; injection I as <-; tauto|]); destruct I.
Qed.

Lemma frames_size_in f fs : In f fs -> body_size f + 10 <= frames_size fs.
Proof.
  induction fs as [|g fs IH]; intros I; [destruct I|]. rewrite frames_size_cons. destruct I as [->|I].
  - pose proof (frames_size_nonneg fs). lia.
  - pose proof (body_size_nonneg g). specialize (IH I). lia.
Qed.

Lemma second_node ps id : forall x, nth_error (filter (fun p => named id (fp_frame p)) ps) 1 = Some x ->
  second_frame (list_of (filter (fun p => named id (fp_frame p)) ps)) = Ok (Some (fp_frame x)).
Proof.
  intros x. destruct (filter _ ps) as [|a [|b l]]; cbn [nth_error]; try discriminate. intros E. injection E as ->. reflexivity.
Qed.

Lemma filter_frames fs : forall ps id, map fp_frame ps = map frame_of fs ->
  map fp_frame (filter (fun p => named id (fp_frame p)) ps) = map frame_of (filter (titled id) fs).
Proof.
  induction fs as [|f fs IH]; intros [|p ps] id E; try discriminate E; [reflexivity|]. cbn [map] in E. injection E as Ep E.
  cbn [filter]. rewrite Ep, named_titled. destruct (titled id f); cbn [map]; rewrite ?Ep, IH; auto.
Qed.

Lemma survives_ok major fs : Forall (fun f => survives major f = true) fs ->
  oks fs /\ Forall (fun f => frame_ok f = true /\ readable f = true) fs.
Proof.
  intros H. assert (R : Forall (fun f => frame_ok f = true /\ readable f = true) fs).
  { eapply Forall_impl; [|exact H]. intros f S. unfold survives in S. apply andb_prop in S. destruct S as (S & _). now apply andb_prop in S. }
  split; [|exact R]. eapply Forall_impl; [|exact R]. now intros f (K & _).
Qed.

Lemma whole_parts fs : oks fs -> Forall part (map frame_of fs).
Proof. intros K. apply Forall_map. eapply Forall_impl; [|exact K]. intros f Kf. cbv beta. left. now exists f. Qed.

Lemma oks_sane fs : oks fs -> Forall sane (map frame_of fs).
Proof. intros K. now apply well_formed_sane, fspecs_well_formed. Qed.

(** The assertions of set_test.c about the tag that was written. *)
Definition set_assertions (cover : list byte) (edited : option Tag) : outcome bool :=
  assert! assert_text ID3v2_Tag_get_artist_frame edited ID3v2_ARTIST_FRAME_ID (Some (cells (text_image (wide "Artist")))) in
  assert! assert_text ID3v2_Tag_get_album_frame edited ID3v2_ALBUM_FRAME_ID (Some (cells (text_image (wide "Album")))) in
  assert! assert_text ID3v2_Tag_get_title_frame edited ID3v2_TITLE_FRAME_ID (Some (cells (text_image (wide "Title")))) in
  assert! assert_text ID3v2_Tag_get_track_frame edited ID3v2_TRACK_FRAME_ID (clit "00") in
  assert! assert_text ID3v2_Tag_get_album_artist_frame edited ID3v2_ALBUM_ARTIST_FRAME_ID (Some (cells (text_image (wide "Album Artist")))) in
  assert! assert_text ID3v2_Tag_get_genre_frame edited ID3v2_GENRE_FRAME_ID (Some (cells (text_image (wide "Genre")))) in
  assert! assert_text ID3v2_Tag_get_year_frame edited ID3v2_YEAR_FRAME_ID (clit "0000") in
  assert! assert_text ID3v2_Tag_get_disc_number_frame edited ID3v2_DISC_NUMBER_FRAME_ID (clit "00") in
  assert! assert_text ID3v2_Tag_get_composer_frame edited ID3v2_COMPOSER_FRAME_ID (Some (cells (text_image (wide "Writter")))) in
  let* p := ID3v2_Tag_get_comment_frame edited in
  assert! assert_comment_frame (the_frame p) (mkCommentInput NO_FLAGS (clit "eng") EMPTY_UNICODE_STR (Some (cells (text_image (wide "Comment"))))) in
  let* comments := ID3v2_Tag_get_comment_frames edited in
  let* second := second_frame comments in
  assert! assert_comment_frame second (mkCommentInput NO_FLAGS (clit "eng") (Some (cells (text_image (wide "Short Description"))))
                        (Some (cells (text_image (wide "Comment"))))) in
  let* p := ID3v2_Tag_get_album_cover_frame edited in
  assert! assert_apic_frame (the_frame p)
    (mkApicInput NO_FLAGS ID3v2_MIME_TYPE_PNG EMPTY_UNICODE_STR ID3v2_PIC_TYPE_FRONT_COVER (zlen cover) (Some (cells cover))) in
  let* apics := ID3v2_Tag_get_apic_frames edited in
  let* second := second_frame apics in
  assert! assert_apic_frame second (mkApicInput NO_FLAGS ID3v2_MIME_TYPE_PNG (Some (cells (text_image (wide "Description"))))
                     ID3v2_PIC_TYPE_FRONT_COVER (zlen cover) (Some (cells cover))) in
  Ok true.

Lemma text_holds t ps get id s i tx :
  Forall part (map fp_frame ps) -> get (Some t) = Ok (find (fun p => named i (fp_frame p)) ps) ->
  frame_ok (FText i [x00; x00] tx) = true -> points_to id i -> points_to s (text_image tx) ->
  find (named i) (map fp_frame ps) = Some (frame_of (FText i [x00; x00] tx)) ->
  assert_text get (Some t) id s = Ok true.
Proof. intros Pa G K Pi Ps F. now apply (text_found t ps Pa get id s i tx G K Pi Ps). Qed.

Lemma set_assertions_say cover fs t :
  tag_has t (map frame_of (edited (set_edits cover) fs)) -> oks (edited (set_edits cover) fs) -> zlen cover < 2 ^ 28 ->
  exists b, set_assertions cover (Some t) = Ok b
    /\ (b = true <-> (second "COMM" fs = None \/ second "COMM" fs = Some other_comment)
                     /\ (second "APIC" fs = None \/ exists any, second "APIC" fs = Some (other_cover any cover))).
Proof.
  intros (ps & Hl & Hg & _) K B. pose proof (whole_parts _ K) as Pa. pose proof (oks_sane _ K) as Sa. rewrite <- Hg in Pa, Sa.
  destruct (lookup_named t ps Hl Sa) as (G1 & G2 & G3 & G4 & G5 & G6 & G7 & G8 & G9 & G10 & G11 & G12 & G13). cbv zeta in *.
  unfold set_assertions.
  assert (F : forall f, In f new_texts -> find (named (frame_id f)) (map fp_frame ps) = Some (frame_of f)).
  { intros f I. rewrite Hg, find_frames, set_texts_found; auto. }
  rewrite (text_holds t ps _ _ _ _ (wide "Artist") Pa G1) by first [pts | apply (F (plain_text "TPE1" (wide "Artist"))); cbn [new_texts In]; tauto]. cbn [bind].
  rewrite (text_holds t ps _ _ _ _ (wide "Album") Pa G2) by first [pts | apply (F (plain_text "TALB" (wide "Album"))); cbn [new_texts In]; tauto]. cbn [bind].
  rewrite (text_holds t ps _ _ _ _ (wide "Title") Pa G3) by first [pts | apply (F (plain_text "TIT2" (wide "Title"))); cbn [new_texts In]; tauto]. cbn [bind].
  rewrite (text_holds t ps _ _ _ _ (narrow "00") Pa G4) by first [pts | apply (F (plain_text "TRCK" (narrow "00"))); cbn [new_texts In]; tauto]. cbn [bind].
  rewrite (text_holds t ps _ _ _ _ (wide "Album Artist") Pa G5) by first [pts | apply (F (plain_text "TPE2" (wide "Album Artist"))); cbn [new_texts In]; tauto]. cbn [bind].
  rewrite (text_holds t ps _ _ _ _ (wide "Genre") Pa G6) by first [pts | apply (F (plain_text "TCON" (wide "Genre"))); cbn [new_texts In]; tauto]. cbn [bind].
  rewrite (text_holds t ps _ _ _ _ (narrow "0000") Pa G7) by first [pts | apply (F (plain_text "TYER" (narrow "0000"))); cbn [new_texts In]; tauto]. cbn [bind].
  rewrite (text_holds t ps _ _ _ _ (narrow "00") Pa G8) by first [pts | apply (F (plain_text "TPOS" (narrow "00"))); cbn [new_texts In]; tauto]. cbn [bind].
  rewrite (text_holds t ps _ _ _ _ (wide "Writter") Pa G9) by first [pts | apply (F (plain_text "TCOM" (wide "Writter"))); cbn [new_texts In]; tauto]. cbn [bind].
  rewrite G10, G11, G12, G13. cbn [bind].
  assert (C1 : assert_comment_frame (the_frame (find (fun p => named (lit "COMM") (fp_frame p)) ps))
                 (mkCommentInput NO_FLAGS (clit "eng") EMPTY_UNICODE_STR (Some (cells (text_image (wide "Comment"))))) = Ok true).
  { apply (comment_found ps Pa (clit "eng") EMPTY_UNICODE_STR _ (lit "eng") (wide "") (wide "Comment")); try pts; try apply points_to_empty.
    rewrite Hg, find_frames, set_comment_found. reflexivity. }
  rewrite C1. cbn [bind]. clear C1.
  pose proof (filter_frames _ ps (lit "COMM") Hg) as Fc. pose proof (filter_frames _ ps (lit "APIC") Hg) as Fp.
  pose proof (set_second_comment cover fs) as Sc. pose proof (set_second_cover cover fs) as Sp. unfold second in Sc, Sp.
  fold (second "COMM" fs) in Sc. fold (second "APIC" fs) in Sp.
  apply (map_nth_error frame_of) in Sc. apply (map_nth_error frame_of) in Sp. rewrite <- Fc in Sc. rewrite <- Fp in Sp.
  rewrite nth_error_map in Sc, Sp.
  destruct (nth_error (filter (fun p => named (lit "COMM") (fp_frame p)) ps) 1) as [pc|] eqn:Nc; [|discriminate Sc].
  destruct (nth_error (filter (fun p => named (lit "APIC") (fp_frame p)) ps) 1) as [pp|] eqn:Np; [|discriminate Sp].
  cbn [option_map] in Sc, Sp. injection Sc as Sc. injection Sp as Sp.
  rewrite (second_node ps _ pc Nc), (second_node ps _ pp Np). cbn [bind]. rewrite Sc, Sp.
  assert (Kin : forall id x, second id fs = Some x -> frame_ok x = true \/ ~ In x (edited (set_edits cover) fs)).
  { intros id x _. destruct (frame_ok x) eqn:E; [now left|right]. intros I. unfold oks in K. rewrite Forall_forall in K. apply K in I. congruence. }
  assert (Kc : frame_ok (match second "COMM" fs with Some x => x | None => other_comment end) = true).
  { pose proof (set_second_comment cover fs) as Q. unfold second in Q at 1. apply nth_error_In in Q. apply filter_In in Q.
    unfold oks in K. rewrite Forall_forall in K. apply K. apply Q. }
  assert (Kp : frame_ok (match second "APIC" fs with Some x => x | None => other_cover x03 cover end) = true).
  { pose proof (set_second_cover cover fs) as Q. unfold second in Q at 1. apply nth_error_In in Q. apply filter_In in Q.
    unfold oks in K. rewrite Forall_forall in K. apply K. apply Q. }
  clear Kin.
  assert (C2 : assert_apic_frame (the_frame (find (fun p => named (lit "APIC") (fp_frame p)) ps))
                 (mkApicInput NO_FLAGS ID3v2_MIME_TYPE_PNG EMPTY_UNICODE_STR ID3v2_PIC_TYPE_FRONT_COVER (zlen cover) (Some (cells cover))) = Ok true).
  { apply (picture_found ps Pa _ _ _ _ (narrow "image/png") x03 (wide "") cover); try pts; try apply points_to_empty.
    - apply png_ok; (reflexivity || exact B).
    - exists x03. rewrite Hg, find_frames, set_cover_found. reflexivity. }
  destruct (comment_says _ NO_FLAGS (clit "eng") (Some (cells (text_image (wide "Short Description")))) (Some (cells (text_image (wide "Comment"))))
              [x00; x00] (lit "eng") (wide "Short Description") (wide "Comment") ltac:(reflexivity) Kc
              points_to_no_flags ltac:(pts) ltac:(pts) ltac:(pts)) as (b1 & -> & E1).
  destruct (picture_says _ NO_FLAGS ID3v2_MIME_TYPE_PNG (Some (cells (text_image (wide "Description")))) ID3v2_PIC_TYPE_FRONT_COVER
              (Some (cells cover)) [x00; x00] (narrow "image/png") x03 (wide "Description") cover
              ltac:(apply png_ok; (reflexivity || exact B)) Kp points_to_no_flags ltac:(pts) ltac:(pts) ltac:(pts)) as (b2 & -> & E2).
  rewrite C2. cbn [bind].
  exists (b1 && b2). split; [now destruct b1, b2|]. rewrite andb_true_iff, E1, E2.
  destruct (second "COMM" fs) as [x|], (second "APIC" fs) as [y|]; unfold other_cover, png, other_comment, english; split.
  all: intros (Q1 & Q2); split.
  all: try (left; reflexivity).
  all: try (destruct Q1 as [Q1|Q1]; [discriminate Q1|congruence]).
  all: try (right; congruence).
  all: try reflexivity.
  all: try (destruct Q2 as [Q2|(any & Q2)]; [discriminate Q2|exists any; congruence]).
  all: try (destruct Q2 as (any & Q2); right; exists any; congruence).
  all: exists x03; reflexivity.
Qed.

Lemma edit_test_is cover original content t :
  original = Some content -> zlen cover < 2 ^ 28 -> ID3v2_read_tag (Some content) = Ok t ->
  edit_test (Some cover) original
  = let* tag := run_calls (or_new t)
      ([SetArtist (Some (cells (text_image (wide "Artist")))); SetAlbum (Some (cells (text_image (wide "Album"))));
     SetTitle (Some (cells (text_image (wide "Title")))); SetTrack (clit "00");
     SetAlbumArtist (Some (cells (text_image (wide "Album Artist")))); SetGenre (Some (cells (text_image (wide "Genre"))));
     SetYear (clit "0000"); SetDiscNumber (clit "00"); SetComposer (Some (cells (text_image (wide "Writter"))));
     SetComment (clit "eng") (Some (cells (text_image (wide "Comment"))));
     AddCommentFrame (mkCommentInput NO_FLAGS (clit "eng") (Some (cells (text_image (wide "Short Description"))))
                        (Some (cells (text_image (wide "Comment")))))]
     ++ [SetAlbumCover ID3v2_MIME_TYPE_PNG (zlen cover) (Some (cells cover));
     AddApicFrame (mkApicInput NO_FLAGS ID3v2_MIME_TYPE_PNG (Some (cells (text_image (wide "Description"))))
                     ID3v2_PIC_TYPE_FRONT_COVER (zlen cover) (Some (cells cover)))]) in
    let* (file, _) := ID3v2_write_tag (Some content) (Some tag) in
    let* edited := ID3v2_read_tag file in
    assert! Ok (match edited with Some _ => true | None => false end) in
    set_assertions cover edited.
Proof.
  intros -> B E. unfold edit_test. cbn [clone_file]. rewrite bind_is, E, bind_is. unicode. rewrite run_calls_app.
  destruct (run_calls (or_new t) _) as [t1| | |]; [|reflexivity..]. rewrite !bind_is.
  rewrite load_picture_is by (change (2 ^ 31) with 2147483648; change (2 ^ 28) with 268435456 in B; lia). rewrite bind_is. unicode.
  destruct (run_calls t1 _) as [t2| | |]; [|reflexivity..]. rewrite !bind_is.
  destruct (ID3v2_write_tag (Some content) (Some t2)) as [(f & ?)| | |]; [|reflexivity..]. rewrite !bind_is.
  destruct (ID3v2_read_tag f) as [e| | |]; [|reflexivity..]. rewrite !bind_is. reflexivity.
Qed.

Lemma set_ok_edits cover fs : oks (set_frames_of cover) -> all_proper (set_edits cover) fs = true.
Proof.
  intros K. rewrite <- all_proper_allowed. apply sets_allowed; [reflexivity|].
  unfold oks, set_frames_of, put_frames_of, new_texts in K. cbn [app] in K. repeat rewrite Forall_cons_iff in K.
  unfold set_edits, new_texts. cbn [map app forallb edit_ok].
  destruct K as (K1 & K2 & K3 & K4 & K5 & K6 & K7 & K8 & K9 & K10 & K11 & K12 & K13 & _).
  now rewrite K1, K2, K3, K4, K5, K6, K7, K8, K9, K10, K11, K12, K13.
Qed.

Lemma filter_short {A} (p : A -> bool) l : (length (filter p l) <= length l)%nat.
Proof. induction l as [|x l IH]; [reflexivity|]. cbn [filter]. destruct (p x); cbn [length]; lia. Qed.

Lemma missing_range cover fs : 0 <= missing cover fs <= 11.
Proof.
  unfold missing. split; [apply zlen_nonneg|]. unfold zlen.
  pose proof (filter_short (fun f => negb (existsb (titled (frame_id f)) fs)) (put_frames_of cover)) as L.
  change (length (put_frames_of cover)) with 11%nat in L. lia.
Qed.

Lemma edit_tagged major minor flags fs pad sound cover :
  known_version major = true -> has_extended_header flags = false ->
  Forall (fun f => survives major f = true) (fs ++ set_frames_of cover) ->
  0 <= pad -> frames_size fs + pad < 2 ^ 28 -> frames_size (edited (set_edits cover) fs) + pad < 2 ^ 28 ->
  let original := Some (tagged_file major minor flags fs pad sound) in
  if pad <? 10 * (2 + missing cover fs)
  then exists u, edit_test (Some cover) original = Ub u
  else exists b, edit_test (Some cover) original = Ok b
    /\ (b = true <-> (second "COMM" fs = None \/ second "COMM" fs = Some other_comment)
                     /\ (second "APIC" fs = None \/ exists any, second "APIC" fs = Some (other_cover any cover))).
Proof.
  intros V X Sv P B B' original.
  pose proof (set_survives _ cover fs Sv) as Sv'. destruct (survives_ok _ _ Sv') as (K' & _).
  pose proof Sv as Sv2. apply Forall_app in Sv2. destruct Sv2 as (Svf & Svs).
  destruct (survives_ok _ _ Svf) as (K & Rd). destruct (survives_ok _ _ Svs) as (Ks & _).
  assert (Bc : zlen cover < 2 ^ 28).
  { assert (I : In (new_cover cover) (edited (set_edits cover) fs)) by (eapply find_some; apply set_cover_found).
    apply frames_size_in in I. unfold new_cover, png in I. rewrite picture_size in I.
    pose proof (text_image_pos (narrow "image/png")). pose proof (text_image_pos (wide "")). lia. }
  pose proof (missing_range cover fs) as Mr. pose proof (frames_size_nonneg (edited (set_edits cover) fs)) as Nf.
  pose proof (set_room cover fs pad) as Ro.
  change (2 ^ 28) with 268435456 in B, B'.
  destruct (session major minor flags fs pad sound _ _ V X Rd P B (set_calls_mean cover) (set_ok_edits cover fs Ks)) as (t & t' & Et & Er & W).
  { rewrite Ro. change (2 ^ 31) with 2147483648. change (2 ^ 28) with 268435456. lia. }
  rewrite Ro in W. unfold original. rewrite (edit_test_is cover _ _ _ eq_refl Bc Et). cbn [or_new].
  cbn [app]. rewrite Er. cbn [bind]. fold (tagged_file major minor flags fs pad sound) in W.
  destruct (Z.ltb_spec pad (10 * (2 + missing cover fs))) as [L|L].
  - replace (0 <=? pad - 10 * (2 + missing cover fs)) with false in W by lia. destruct W as (u & ->). now exists u.
  - replace (0 <=? pad - 10 * (2 + missing cover fs)) with true in W by lia. rewrite W. cbn [bind].
    destruct (written_holds major minor flags (edited (set_edits cover) fs) (pad - 10 * (2 + missing cover fs)) sound V X Sv')
      as (_ & _ & t2 & E2 & _ & T2 & _); [lia|change (2 ^ 28) with 268435456; lia|].
    rewrite E2. cbn [bind]. now apply set_assertions_say.
Qed.

(** A file without tag. *)
Lemma scratch_set_size cover : zlen cover < 2 ^ 28 -> bytes_needed (apply_edits (set_edits cover) []) < 2 ^ 31.
Proof.
  intros B. change (@nil frame) with (map frame_of []). rewrite edits_map, bytes_needed_frames.
  replace (edited (set_edits cover) []) with (first_puts ++ [other_comment; new_cover cover; other_cover x03 cover]) by reflexivity.
  unfold frames_size. rewrite fold_right_app. cbn [fold_right].
  unfold new_cover, other_cover, png. rewrite !picture_size.
  change (zlen (text_image (narrow "image/png"))) with 10. change (zlen (text_image (wide ""))) with 4.
  change (zlen (text_image (wide "Description"))) with 26. change (body_size other_comment) with 60.
  unfold first_puts, new_texts. cbn [app fold_right].
  repeat match goal with |- context [body_size (?c ?a ?b)] => let v := eval vm_compute in (body_size (c a b)) in change (body_size (c a b)) with v end.
  change (body_size new_comment) with 26. change (2 ^ 28) with 268435456 in B. change (2 ^ 31) with 2147483648. lia.
Qed.

Lemma edit_untagged cover content : untagged (Some content) -> zlen cover < 2 ^ 28 ->
  exists u, edit_test (Some cover) (Some content) = Ub u.
Proof.
  intros U B. pose proof (proj1 (untagged_read _) U) as E. rewrite (edit_test_is cover _ _ _ eq_refl B E). cbn [or_new app].
  assert (X : announces_extended content = false) by (destruct U; auto).
  destruct (scratch_short _ _ (set_calls_mean cover)) as (t & Er & T & Ht & W); try reflexivity; [discriminate| |now apply scratch_set_size|].
  { pose proof (png_ok x03 (wide "") cover eq_refl ltac:(reflexivity) B) as K1.
    pose proof (png_ok x03 (wide "Description") cover eq_refl ltac:(reflexivity) B) as K2.
    unfold set_edits, new_texts. cbn [map app forallb edit_ok]. unfold new_cover, other_cover. rewrite K1, K2. reflexivity. }
  rewrite Er. cbn [bind]. exists OobWrite.
  rewrite (write_fails content t OobWrite X); [reflexivity| |exact W].
  assert (Pt : t_padding t = t_padding ID3v2_Tag_new_empty).
  { destruct (history ID3v2_Tag_new_empty [] _ _ new_empty_has (Forall_nil _) ltac:(cbn; lia) (set_calls_mean cover)) as (t2 & E2 & _ & P2).
    - apply sets_allowed; [reflexivity|].
      pose proof (png_ok x03 (wide "") cover eq_refl ltac:(reflexivity) B) as K1.
      pose proof (png_ok x03 (wide "Description") cover eq_refl ltac:(reflexivity) B) as K2.
      unfold set_edits, new_texts. cbn [map app forallb edit_ok]. unfold new_cover, other_cover. rewrite K1, K2. reflexivity.
    - rewrite Er in E2. injection E2 as ->. exact P2. }
  rewrite Pt. change (t_padding ID3v2_Tag_new_empty) with 0. change (2 ^ 31) with 2147483648. lia.
Qed.
