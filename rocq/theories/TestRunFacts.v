(** What the test programs need of the files they are run on. *)
From Verif Require Import BaseFacts UtilsFacts StreamFacts FrameFacts HeaderFacts TagFacts.
From Verif Require Import Tests Spec SpecEdit SpecFile SpecRead SpecSession SpecTests.
From Verif Require Import ListFacts EditFacts HistFacts ClaimFacts FileFacts ReadFacts SessionFacts RewriteFacts CutFacts.
From Verif Require Import CompatFacts TestFacts.
From Coq Require Import Lia ZifyBool ZifyNat.

(** ** Assertions *)

Lemma app_inv_length {A} (a b c d : list A) : a ++ b = c ++ d -> length a = length c -> a = c /\ b = d.
Proof.
  revert c. induction a as [|x a IH]; intros [|y c] E L; try discriminate L; [auto|]. injection E as -> E. injection L as L.
  destruct (IH c E L) as (-> & ->). auto.
Qed.

Lemma bind_true {A B} (e : outcome A) (k : A -> outcome B) r :
  bind e k = Ok r <-> exists a, e = Ok a /\ k a = Ok r.
Proof.
  destruct e; cbn [bind]; split; try discriminate; try (intros (? & D & _); discriminate D).
  - eauto.
  - intros (a' & E & H). now injection E as <-.
Qed.

Lemma assert_and (e k : outcome bool) : (assert! e in k) = Ok true <-> e = Ok true /\ k = Ok true.
Proof.
  rewrite bind_true. split.
  - intros ([|] & E & H); [auto|discriminate H].
  - intros (-> & H). now exists true.
Qed.

Lemma ok_iff {P : Prop} (e : outcome bool) : (exists b, e = Ok b /\ (b = true <-> P)) -> e = Ok true <-> P.
Proof. intros (b & -> & E). rewrite <- E. split; congruence. Qed.

Lemma header_id g id i n fl :
  points_to id i -> length i = 4%nat -> assert_frame_header (Some g) id n fl = Ok true ->
  exists tail, fh_id (f_hdr g) = cells i ++ tail.
Proof.
  intros (ti & ->) L H. unfold assert_frame_header in H. cbn [deref bind] in H. apply assert_and in H. destruct H as (H & _).
  unfold memcmp_is_0 in H. change (ID3v2_FRAME_HEADER_ID_LENGTH <? 0) with false in H. cbv iota in H.
  change (Z.to_nat ID3v2_FRAME_HEADER_ID_LENGTH) with 4%nat in H. apply memcmp_true in H.
  destruct H as (l & ta & tb & Ll & -> & E). exists ta. f_equal.
  apply app_inv_length in E; [|now rewrite !length_cells, L, Ll]. destruct E as (E & _). now rewrite E.
Qed.

Lemma cut_id g i tail : cut_shape g -> fh_id (f_hdr g) = cells i ++ tail -> length i = 4%nat ->
  (id_starts i "T" = false /\ id_starts i "C" = false) /\ (id_starts i "A" = true ->
   exists e m ty d data, f_data g = DApic (mkAD e m ty d data (zlen data)) /\ In None data).
Proof.
  intros C E L. destruct C as [(id & fl & body & Li & _ & NT & NC & NA & _ & ->)|(fl & m & ty & d & data & _ & _ & _ & N & ->)];
    cbn [f_hdr fh_id] in E.
  - assert (E' : cells id ++ [] = cells i ++ tail) by now rewrite app_nil_r.
    apply app_inv_length in E'; [|now rewrite !length_cells, L, Li]. destruct E' as (E' & _).
    apply cells_inj in E'. subst i. rewrite NT, NC, NA. split; [auto|discriminate].
  - assert (E' : cells (lit "APIC") ++ [] = cells i ++ tail) by now rewrite app_nil_r.
    apply app_inv_length in E'; [|now rewrite !length_cells, L]. destruct E' as (E' & _).
    apply cells_inj in E'. subst i. split; [split; reflexivity|]. intros _. cbn [f_data]. eauto 8.
Qed.

Lemma text_part g id fl s i f t :
  part g -> frame_ok (FText i f t) = true -> points_to id i -> points_to fl f -> points_to s (text_image t) ->
  assert_text_frame (Some g) (mkTextInput id fl s) = Ok true <-> g = frame_of (FText i f t).
Proof.
  intros P K Pi Pf Ps. pose proof (frame_ok_common _ K) as (Li & _). cbn [frame_id] in Li. split.
  - destruct P as [(x & Kx & ->)|C].
    + intros H. apply (ok_iff _ (text_says x id fl s i f t K Kx Pi Pf Ps)) in H. now subst.
    + intros H. exfalso. unfold assert_text_frame in H. cbn [ti_text ti_id ti_flags] in H.
      do 4 (apply bind_true in H; destruct H as (? & _ & H)). apply assert_and in H. destruct H as (H & _).
      apply (header_id g id i) in H; auto. destruct H as (tail & H). destruct (cut_id g i tail C H Li) as ((T & _) & _).
      destruct (frame_ok_body _ K) as (K1 & _). rewrite T in K1. discriminate K1.
  - intros ->. apply (ok_iff _ (text_says (FText i f t) id fl s i f t K K Pi Pf Ps)). reflexivity.
Qed.

Lemma comment_part g fl la sd co f l d c :
  part g -> frame_ok (FComment f l d c) = true ->
  points_to fl f -> points_to la l -> points_to sd (text_image d) -> points_to co (text_image c) ->
  assert_comment_frame (Some g) (mkCommentInput fl la sd co) = Ok true <-> g = frame_of (FComment f l d c).
Proof.
  intros P K Pf Pl Pd Pc. split.
  - destruct P as [(x & Kx & ->)|C].
    + intros H. apply (ok_iff _ (comment_says x fl la sd co f l d c K Kx Pf Pl Pd Pc)) in H. now subst.
    + intros H. exfalso. unfold assert_comment_frame in H. cbn [ci_comment ci_short_description ci_flags] in H.
      do 9 (apply bind_true in H; destruct H as (? & _ & H)). apply assert_and in H. destruct H as (H & _).
      apply (header_id g _ (lit "COMM") _ _ (points_to_lit _) eq_refl) in H. destruct H as (tail & H).
      destruct (cut_id g _ tail C H eq_refl) as ((_ & T) & _). discriminate T.
  - intros ->. apply (ok_iff _ (comment_says (FComment f l d c) fl la sd co f l d c K K Pf Pl Pd Pc)). reflexivity.
Qed.

Lemma in_none_cells l : ~ In (@None byte) (cells l).
Proof. unfold cells. rewrite in_map_iff. intros (x & D & _). discriminate D. Qed.

Lemma picture_part g fl mi de ty da f m ty' d pic :
  part g -> frame_ok (FPicture f m ty' d pic) = true ->
  points_to fl f -> points_to mi (text_image m) -> points_to de (text_image d) -> points_to da pic ->
  assert_apic_frame (Some g) (mkApicInput fl mi de ty (zlen pic) da) = Ok true
  <-> exists any, g = frame_of (FPicture f m any d pic).
Proof.
  intros P K Pf Pm Pd Pp. split.
  - destruct P as [(x & Kx & ->)|C].
    + intros H. apply (ok_iff _ (picture_says x fl mi de ty da f m ty' d pic K Kx Pf Pm Pd Pp)) in H.
      destruct H as (any & ->). now exists any.
    + intros H. exfalso. unfold assert_apic_frame in H. cbn [ai_description ai_mime_type ai_picture_size ai_flags ai_data] in H.
      apply bind_true in H. destruct H as (? & _ & H). apply assert_and in H. destruct H as (_ & H).
      apply bind_true in H. destruct H as (? & _ & H). apply assert_and in H. destruct H as (_ & H).
      do 5 (apply bind_true in H; destruct H as (? & _ & H)). apply assert_and in H. destruct H as (Hh & H).
      apply (header_id g _ (lit "APIC") _ _ (points_to_lit _) eq_refl) in Hh. destruct Hh as (tail & Hh).
      destruct (cut_id g _ tail C Hh eq_refl) as (_ & T). destruct (T eq_refl) as (e & m' & ty2 & d' & data & Ed & N).
      cbn [deref bind] in H. rewrite Ed in H. cbn [ad_encoding ad_picture_size ad_data] in H.
      destruct (beq e (encoding_of x)); [|discriminate H]. destruct (Z.eqb_spec (zlen data) (zlen pic)) as [Z|]; [|discriminate H].
      apply assert_and in H. destruct H as (H & _).
      destruct Pp as (tp & ->). unfold memcmp_is_0 in H. destruct (zlen pic <? 0); [discriminate H|].
      apply memcmp_true in H. destruct H as (l & ta & tb & Ll & -> & _).
      rewrite zlen_app in Z. unfold zlen in Z, Ll. rewrite length_cells in Z. destruct ta; [|cbn [length] in Z; lia].
      rewrite app_nil_r in N. now apply in_none_cells in N.
  - intros (any & ->).
    assert (K2 : frame_ok (FPicture f m any d pic) = true) by (rewrite <- K; unfold frame_ok; now rewrite !picture_size).
    apply (ok_iff _ (picture_says (FPicture f m any d pic) fl mi de ty da f m ty' d pic K K2 Pf Pm Pd Pp)). eauto.
Qed.

(** ** The frames of a tag *)

Section Tag.
  Variables (t : Tag) (ps : list fptr).
  Hypothesis Hl : t_frames t = list_of ps.
  Hypothesis Sa : Forall sane (map fp_frame ps).
  Hypothesis Pa : Forall part (map fp_frame ps).
  Let gs := map fp_frame ps.

  Lemma find_ptr id : option_map fp_frame (find (fun p => named id (fp_frame p)) ps) = find (named id) gs.
  Proof. unfold gs. clear. induction ps as [|p l IH]; [reflexivity|]. cbn [find map]. destruct (named id (fp_frame p)); [reflexivity|exact IH]. Qed.

  Lemma found_part id g : find (named id) gs = Some g -> part g.
  Proof. intros F. apply find_some in F. pose proof (proj1 (Forall_forall _ _) Pa) as Q. now apply Q. Qed.

  Lemma text_found get id s i tx :
    get (Some t) = Ok (find (fun p => named i (fp_frame p)) ps) ->
    frame_ok (FText i [x00; x00] tx) = true -> points_to id i -> points_to s (text_image tx) ->
    assert_text get (Some t) id s = Ok true <-> find (named i) gs = Some (frame_of (FText i [x00; x00] tx)).
  Proof.
    intros G K Pi Ps. unfold assert_text, the_frame. rewrite G. cbn [bind]. rewrite find_ptr.
    assert (Pf : points_to NO_FLAGS [x00; x00]) by (exists [Some x00]; reflexivity).
    destruct (find (named i) gs) as [g|] eqn:F.
    - rewrite text_part by (eauto using found_part). split; congruence.
    - split; [|discriminate]. intros H. exfalso. unfold assert_text_frame in H.
      do 4 (apply bind_true in H; destruct H as (? & _ & H)). apply assert_and in H. now destruct H as (H & _).
  Qed.

  Lemma comment_found la sd co l d c p :
    p = option_map fp_frame (find (fun p => named (lit "COMM") (fp_frame p)) ps) ->
    frame_ok (FComment [x00; x00] l d c) = true ->
    points_to la l -> points_to sd (text_image d) -> points_to co (text_image c) ->
    assert_comment_frame p (mkCommentInput NO_FLAGS la sd co) = Ok true
    <-> find (named (lit "COMM")) gs = Some (frame_of (FComment [x00; x00] l d c)).
  Proof.
    intros -> K Pl Pd Pc. rewrite find_ptr.
    assert (Pf : points_to NO_FLAGS [x00; x00]) by (exists [Some x00]; reflexivity).
    destruct (find (named (lit "COMM")) gs) as [g|] eqn:F.
    - rewrite comment_part by (eauto using found_part). split; congruence.
    - split; [|discriminate]. intros H. exfalso. unfold assert_comment_frame in H.
      do 9 (apply bind_true in H; destruct H as (? & _ & H)). apply assert_and in H. now destruct H as (H & _).
  Qed.

  Lemma picture_found mi de ty da m ty' d pic p :
    p = option_map fp_frame (find (fun p => named (lit "APIC") (fp_frame p)) ps) ->
    frame_ok (FPicture [x00; x00] m ty' d pic) = true ->
    points_to mi (text_image m) -> points_to de (text_image d) -> points_to da pic ->
    assert_apic_frame p (mkApicInput NO_FLAGS mi de ty (zlen pic) da) = Ok true
    <-> exists any, find (named (lit "APIC")) gs = Some (frame_of (FPicture [x00; x00] m any d pic)).
  Proof.
    intros -> K Pm Pd Pp. rewrite find_ptr.
    assert (Pf : points_to NO_FLAGS [x00; x00]) by (exists [Some x00]; reflexivity).
    destruct (find (named (lit "APIC")) gs) as [g|] eqn:F.
    - rewrite (picture_part g _ _ _ _ _ [x00; x00] m ty' d) by (eauto using found_part).
      split; intros (any & Q); exists any; congruence.
    - split; [|intros (any & Q); discriminate Q]. intros H. exfalso. unfold assert_apic_frame in H.
      apply bind_true in H. destruct H as (? & _ & H). apply assert_and in H. destruct H as (_ & H).
      apply bind_true in H. destruct H as (? & _ & H). apply assert_and in H. destruct H as (_ & H).
      do 5 (apply bind_true in H; destruct H as (? & _ & H)). apply assert_and in H. now destruct H as (H & _).
  Qed.
End Tag.

(** ** get_test *)

Lemma read_parts content h gs pad : file_read content (Some (h, gs, pad)) -> Forall part gs.
Proof.
  intros R. destruct (file_seen _ _ _ _ R) as (major & minor & flags & n & _ & _ & _ & _ & _ & _ & _ & C).
  destruct C as [(ss & -> & K & _)|(ss & g & -> & K & Cu)].
  - apply Forall_map. eapply Forall_impl; [|exact K]. intros f Kf. cbv beta. left. now exists f.
  - apply Forall_app. split.
    + apply Forall_map. eapply Forall_impl; [|exact K]. intros f Kf. cbv beta. left. now exists f.
    + constructor; [now right|constructor].
Qed.

Lemma read_shows content h gs pad : file_read content (Some (h, gs, pad)) ->
  exists t ps, ID3v2_read_tag (Some content) = Ok (Some t) /\ t_frames t = list_of ps /\ map fp_frame ps = gs
    /\ t_header t = h /\ t_padding t = pad.
Proof.
  intros R. destruct (read_file_exactly content) as [(r & ot & R' & Et & Sh)|(Nr & _)]; [|now apply Nr in R].
  pose proof (file_read_once _ _ _ R R') as <-. destruct ot as [t|]; [|destruct Sh]. destruct Sh as (Ht & (ps & Hl & Hg & _) & Pt).
  exists t, ps. auto.
Qed.

Lemma load_picture_is cover : zlen cover < 2 ^ 31 -> load_picture (Some cover) = Ok (zlen cover, Some (cells cover)).
Proof.
  intros B. pose proof (zlen_nonneg cover). unfold load_picture. cbn [deref bind]. rewrite to_i32_id by lia.
  replace (zlen cover <? 0) with false by lia. now rewrite fread_all.
Qed.

Lemma bind_is {A B} (a : A) (k : A -> outcome B) : bind (Ok a) k = k a.
Proof. reflexivity. Qed.

(** ID3v2_to_unicode of a literal is computed. *)
Ltac unicode := repeat match goal with |- context [to_unicode ?s] =>
  let U := fresh in assert (U : to_unicode s = Ok (Some (cells (text_image (wide s))))) by reflexivity;
  rewrite U; clear U; rewrite bind_is; cbv beta end.

Lemma head_filter id ps :
  head_frame (list_of (filter (fun p => named id (fp_frame p)) ps))
  = Ok (option_map fp_frame (find (fun p => named id (fp_frame p)) ps)).
Proof.
  induction ps as [|p ps IH]; [reflexivity|]. cbn [filter find]. destruct (named id (fp_frame p)); [reflexivity|exact IH].
Qed.

Lemma points_to_text s : points_to (clit s) (text_image (narrow s)).
Proof.
  exists []. rewrite app_nil_r. reflexivity.
Qed.

Lemma points_cells l : points_to (Some (cells l)) l.
Proof. exists []. now rewrite app_nil_r. Qed.

Ltac pts := first [reflexivity | apply points_to_lit | apply points_to_text | apply points_cells].

Lemma png_ok ty d cover : text_ok d = true -> zlen (text_image d) < 2 ^ 27 -> zlen cover < 2 ^ 28 -> frame_ok (png ty d cover) = true.
Proof.
  intros K L B. unfold frame_ok, png. rewrite picture_size. cbn [frame_id frame_flags].
  change (zlen (text_image (narrow "image/png"))) with 10. change (2 ^ 27) with 134217728 in L. change (2 ^ 28) with 268435456 in B.
  replace (2 + 10 + zlen (text_image d) + zlen cover + 10 <? 2 ^ 31) with true
    by (symmetry; apply Z.ltb_lt; change (2 ^ 31) with 2147483648; lia).
  rewrite K. reflexivity.
Qed.

Lemma get_existing cover content h gs pad :
  file_read content (Some (h, gs, pad)) -> Forall sane gs -> zlen cover < 2 ^ 28 ->
  get_test_existing (Some cover) (Some content) = Ok true
  <-> exists ptype, Forall (fun f => find (named (frame_id f)) gs = Some (frame_of f)) (song ptype cover).
Proof.
  intros R Sa B. pose proof (read_parts _ _ _ _ R) as Pa. destruct (read_shows _ _ _ _ R) as (t & ps & Et & Hl & <- & _ & _).
  destruct (lookup_named t ps Hl Sa) as (G1 & G2 & G3 & G4 & G5 & G6 & G7 & G8 & G9 & G10 & G11 & G12 & _). cbv zeta in *.
  unfold get_test_existing. rewrite Et. cbn [bind]. unicode.
  rewrite G10, G12, G11. cbn [bind the_frame]. rewrite head_filter. cbn [bind].
  rewrite load_picture_is by (change (2 ^ 31) with 2147483648; change (2 ^ 28) with 268435456 in B; lia). cbn [bind].
  repeat rewrite assert_and.
  rewrite (text_found t ps Pa _ _ _ _ (wide "Ethereal Darkness") G1) by pts.
  rewrite (text_found t ps Pa _ _ _ _ (wide "Smoke And Shadows") G2) by pts.
  rewrite (text_found t ps Pa _ _ _ _ (wide "Rivers") G3) by pts.
  rewrite (text_found t ps Pa _ _ _ _ (narrow "1") G4) by pts.
  rewrite (text_found t ps Pa _ _ _ _ (wide "Ethereal Darkness") G5) by pts.
  rewrite (text_found t ps Pa _ _ _ _ (wide "Melodic Death Metal") G6) by pts.
  rewrite (text_found t ps Pa _ _ _ _ (narrow "2019") G7) by pts.
  rewrite (text_found t ps Pa _ _ _ _ (narrow "1") G8) by pts.
  rewrite (text_found t ps Pa _ _ _ _ (wide "Composer") G9) by pts.
  rewrite !(comment_found ps Pa _ _ _ (lit "eng") (wide "") (wide "This is a comment"))
    by pts.
  rewrite (picture_found ps Pa _ _ _ _ (narrow "image/png") x03 (narrow "") cover)
    by (pts || (apply png_ok; (reflexivity || exact B))).
  unfold song. split.
  - intros H. decompose [and ex] H. eexists. repeat (apply Forall_cons; [eassumption|]). constructor.
  - intros (ty & H). repeat rewrite Forall_cons_iff in H. cbn [frame_id plain_text english png] in H.
    destruct H as (H1 & H2 & H3 & H4 & H5 & H6 & H7 & H8 & H9 & H10 & H11 & _).
    repeat (split; [assumption|]). split; [exists ty; assumption|reflexivity].
Qed.

Lemma untagged_read f : untagged f <-> ID3v2_read_tag f = Ok None.
Proof.
  destruct f as [content|]; [|split; reflexivity]. cbn [untagged].
  destruct (read_file_exactly content) as [(r & ot & R & E & Sh)|(N & u & U)].
  - rewrite E. split.
    + intros R'. pose proof (file_read_once _ _ _ R R') as ->. destruct ot; [destruct Sh|reflexivity].
    + intros Q. injection Q as ->. destruct r as [((? & ?) & ?)|]; [destruct Sh|exact R].
  - rewrite U. split; [|discriminate]. intros R. now apply N in R.
Qed.

Lemma get_untagged cover f : untagged f -> get_test_existing cover f = Ub NullDeref.
Proof.
  intros U. apply untagged_read in U. unfold get_test_existing. rewrite U. cbn [bind]. unicode. reflexivity.
Qed.

Lemma get_unread cover content : (forall r, ~ file_read content r) ->
  exists u, get_test_existing cover (Some content) = Ub u.
Proof.
  intros N. destruct (read_file_exactly content) as [(r & _ & R & _)|(_ & u & U)]; [now apply N in R|].
  exists u. unfold get_test_existing. now rewrite U.
Qed.

Lemma get_empty a b : get_test_empty a b = Ok true <-> untagged a /\ untagged b.
Proof.
  rewrite !untagged_read. unfold get_test_empty. rewrite bind_true. split.
  - intros (ta & Ea & H). rewrite assert_and in H. destruct H as (Ta & H). apply bind_true in H. destruct H as (tb & Eb & H).
    rewrite assert_and in H. destruct H as (Tb & _). destruct ta, tb; try discriminate; auto.
  - intros (Ea & Eb). exists None. split; [exact Ea|]. rewrite Eb. reflexivity.
Qed.

(** ** edit_test *)

Lemma set_calls_mean cover :
  Forall2 means
    [SetArtist (Some (cells (text_image (wide "Artist")))); SetAlbum (Some (cells (text_image (wide "Album"))));
     SetTitle (Some (cells (text_image (wide "Title")))); SetTrack (clit "00");
     SetAlbumArtist (Some (cells (text_image (wide "Album Artist")))); SetGenre (Some (cells (text_image (wide "Genre"))));
     SetYear (clit "0000"); SetDiscNumber (clit "00"); SetComposer (Some (cells (text_image (wide "Writter"))));
     SetComment (clit "eng") (Some (cells (text_image (wide "Comment"))));
     AddCommentFrame (mkCommentInput NO_FLAGS (clit "eng") (Some (cells (text_image (wide "Short Description"))))
                        (Some (cells (text_image (wide "Comment")))));
     SetAlbumCover ID3v2_MIME_TYPE_PNG (zlen cover) (Some (cells cover));
     AddApicFrame (mkApicInput NO_FLAGS ID3v2_MIME_TYPE_PNG (Some (cells (text_image (wide "Description"))))
                     ID3v2_PIC_TYPE_FRONT_COVER (zlen cover) (Some (cells cover)))]
    (set_edits cover).
Proof.
  repeat (constructor; [constructor; first [pts|apply points_to_no_flags]|]). constructor.
Qed.

Lemma run_calls_app cs1 : forall cs2 t, run_calls t (cs1 ++ cs2) = let* t := run_calls t cs1 in run_calls t cs2.
Proof.
  induction cs1 as [|c cs1 IH]; intros cs2 t; [reflexivity|]. cbn [app run_calls]. destruct (run_call t c); [|reflexivity..].
  cbn [bind]. apply IH.
Qed.

(** *** Lists of frames with different ids *)

Lemma bytes_eqb_eq a b : bytes_eqb a b = true <-> a = b.
Proof. destruct (bytes_eqb_spec a b); split; congruence. Qed.

Lemma titled_key id f : titled id f = true <-> id_key (frame_id f) = id_key id.
Proof. unfold titled, same_id. rewrite bytes_eqb_eq. reflexivity. Qed.

Lemma titled_apart id id' f : same_id id id' = false -> titled id f = true -> titled id' f = false.
Proof.
  intros N T. apply titled_key in T. destruct (titled id' f) eqn:T'; [|reflexivity]. apply titled_key in T'. exfalso.
  assert (S : same_id id id' = true) by (unfold same_id; apply bytes_eqb_eq; congruence). congruence.
Qed.

Section Apart.
  Variables (id : list byte) (f : fspec).
  Hypothesis Tf : titled id f = true.

  Lemma find_put_same l : find (titled id) (put (titled id) f l) = Some f.
  Proof. induction l as [|x l IH]; cbn [put]; [|destruct (titled id x) eqn:E]; cbn [find]; rewrite ?Tf, ?E; auto. Qed.

  Lemma filter_put_same l : filter (titled id) (put (titled id) f l) = f :: tl (filter (titled id) l).
  Proof. induction l as [|x l IH]; cbn [put]; [|destruct (titled id x) eqn:E]; cbn [filter]; rewrite ?Tf, ?E; auto. Qed.

  Variable id' : list byte.
  Hypothesis N : same_id id id' = false.

  Lemma find_put_other l : find (titled id') (put (titled id) f l) = find (titled id') l.
  Proof.
    pose proof (titled_apart id id' f N Tf) as Tf'.
    induction l as [|x l IH]; cbn [put]; [cbn [find]; now rewrite Tf'|]. destruct (titled id x) eqn:E; cbn [find].
    - now rewrite Tf', (titled_apart id id' x N E).
    - now rewrite IH.
  Qed.

  Lemma filter_put_other l : filter (titled id') (put (titled id) f l) = filter (titled id') l.
  Proof.
    pose proof (titled_apart id id' f N Tf) as Tf'.
    induction l as [|x l IH]; cbn [put]; [cbn [filter]; now rewrite Tf'|]. destruct (titled id x) eqn:E; cbn [filter].
    - now rewrite Tf', (titled_apart id id' x N E).
    - now rewrite IH.
  Qed.
End Apart.

Lemma find_later {A} (p : A -> bool) l1 l2 x : find p l1 = Some x -> find p (l1 ++ l2) = Some x.
Proof. induction l1 as [|a l1 IH]; cbn [find app]; [discriminate|]. now destruct (p a). Qed.

Lemma edited_app es1 : forall es2 fs, edited (es1 ++ es2) fs = edited es2 (edited es1 fs).
Proof. induction es1 as [|e es1 IH]; intros es2 fs; [reflexivity|]. cbn [app edited]. apply IH. Qed.

Lemma room_left_app es1 : forall es2 fs room,
  room_left (es1 ++ es2) fs room = room_left es2 (edited es1 fs) (room_left es1 fs room).
Proof. induction es1 as [|e es1 IH]; intros es2 fs room; [reflexivity|]. cbn [app edited room_left]. apply IH. Qed.

Lemma existsb_find {A} (p : A -> bool) l : existsb p l = match find p l with Some _ => true | None => false end.
Proof. symmetry. apply find_existsb. Qed.

(** Frames with different ids. *)
Fixpoint differ (l : list fspec) : bool :=
  match l with
  | [] => true
  | f :: l => forallb (fun g => negb (same_id (frame_id f) (frame_id g))) l && differ l
  end.

Lemma titled_self f : titled (frame_id f) f = true.
Proof. now apply titled_key. Qed.

Lemma find_puts_other l : forall fs id, forallb (fun g => negb (same_id (frame_id g) id)) l = true ->
  find (titled id) (edited (map Put l) fs) = find (titled id) fs.
Proof.
  induction l as [|f l IH]; intros fs id H; [reflexivity|]. cbn [forallb map edited edited_once] in *.
  apply andb_true_iff in H. destruct H as (Hf & H). apply negb_true_iff in Hf.
  rewrite IH by auto. apply find_put_other; auto using titled_self.
Qed.

Lemma filter_puts_other l : forall fs id, forallb (fun g => negb (same_id (frame_id g) id)) l = true ->
  filter (titled id) (edited (map Put l) fs) = filter (titled id) fs.
Proof.
  induction l as [|f l IH]; intros fs id H; [reflexivity|]. cbn [forallb map edited edited_once] in *.
  apply andb_true_iff in H. destruct H as (Hf & H). apply negb_true_iff in Hf.
  rewrite IH by auto. apply filter_put_other; auto using titled_self.
Qed.

Lemma same_id_sym a b : same_id a b = same_id b a.
Proof.
  unfold same_id. destruct (bytes_eqb (id_key a) (id_key b)) eqn:E, (bytes_eqb (id_key b) (id_key a)) eqn:E'; auto.
  - apply bytes_eqb_eq in E. rewrite E in E'. rewrite <- E'. symmetry. now apply bytes_eqb_eq.
  - apply bytes_eqb_eq in E'. rewrite E' in E. rewrite <- E. now apply bytes_eqb_eq.
Qed.

Lemma find_puts l : forall fs f, differ l = true -> In f l -> find (titled (frame_id f)) (edited (map Put l) fs) = Some f.
Proof.
  induction l as [|g l IH]; intros fs f D I; [destruct I|]. cbn [differ map edited edited_once] in *.
  apply andb_true_iff in D. destruct D as (Dg & D). destruct I as [<-|I]; [|now apply IH].
  rewrite find_puts_other; [apply find_put_same, titled_self|].
  rewrite <- Dg. clear. induction l as [|h l IH]; [reflexivity|]. cbn [forallb]. rewrite IH, (same_id_sym (frame_id h)). reflexivity.
Qed.

Lemma room_puts l : forall fs room, differ l = true ->
  room_left (map Put l) fs room = room - 10 * zlen (filter (fun f => negb (existsb (titled (frame_id f)) fs)) l).
Proof.
  induction l as [|f l IH]; intros fs room D; [cbn [map room_left filter]; change (zlen []) with 0; lia|].
  cbn [differ map room_left room_change edited_once filter] in *. apply andb_true_iff in D. destruct D as (Df & D).
  rewrite IH by auto.
  assert (E : filter (fun g => negb (existsb (titled (frame_id g)) (put (titled (frame_id f)) f fs))) l
              = filter (fun g => negb (existsb (titled (frame_id g)) fs)) l).
  { clear -Df. induction l as [|g l IH]; [reflexivity|]. cbn [forallb filter] in *. apply andb_true_iff in Df.
    destruct Df as (Dg & Df). apply negb_true_iff in Dg. rewrite IH by auto.
    rewrite !existsb_find, find_put_other by auto using titled_self. reflexivity. }
  rewrite E. destruct (existsb (titled (frame_id f)) fs); cbn [negb]; [lia|]. rewrite zlen_cons. lia.
Qed.
