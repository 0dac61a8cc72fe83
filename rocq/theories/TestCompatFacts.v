(** What compat_test.c needs of the file it is run on. *)
From Verif Require Import BaseFacts UtilsFacts StreamFacts FrameFacts HeaderFacts TagFacts.
From Verif Require Import Tests Spec SpecEdit SpecFile SpecRead SpecSession SpecCompat SpecTests.
From Verif Require Import ListFacts EditFacts HistFacts ClaimFacts FileFacts WriteFacts ReadFacts SessionFacts RewriteFacts CutFacts.
From Verif Require Import KindFacts CompatFacts CompatSessionFacts TestFacts TestRunFacts TestEditFacts.
From Coq Require Import Lia ZifyBool ZifyNat.

Lemma cells_inj a : forall b, cells a = cells b -> a = b.
Proof. induction a as [|x a IH]; intros [|y b] E; try discriminate E; [reflexivity|]. injection E as -> E. f_equal. now apply IH. Qed.

Lemma firstn_cells n l : firstn n (cells l) = cells (firstn n l).
Proof. unfold cells. apply firstn_map. Qed.

Lemma memcmp_begins t e tail n : 0 <= n <= zlen (text_image e) ->
  memcmp_is_0 (Some (cells (text_image t))) (Some (cells (text_image e) ++ tail)) n = Ok true <-> begins_with e n t.
Proof.
  intros B. unfold memcmp_is_0, begins_with. replace (n <? 0) with false by lia. rewrite memcmp_true. unfold zlen in B.
  set (k := Z.to_nat n). assert (Lk : (k <= length (text_image e))%nat) by lia. clearbody k. split.
  - intros (l & ta & tb & L & E1 & E2).
    assert (F1 : firstn k (text_image t) = l).
    { apply cells_inj. rewrite <- firstn_cells, E1, <- L, <- (length_cells l). rewrite firstn_app, Nat.sub_diag, firstn_all. apply app_nil_r. }
    assert (F2 : firstn k (text_image e) = l).
    { apply cells_inj. rewrite <- firstn_cells. transitivity (firstn k (cells (text_image e) ++ tail)).
      - rewrite firstn_app, length_cells. replace (k - length (text_image e))%nat with 0%nat by lia. now rewrite app_nil_r.
      - rewrite E2, <- L, <- (length_cells l). rewrite firstn_app, Nat.sub_diag, firstn_all. apply app_nil_r. }
    congruence.
  - intros E. exists (firstn k (text_image t)), (cells (skipn k (text_image t))), (cells (skipn k (text_image e)) ++ tail).
    split; [rewrite E; apply firstn_length_le; exact Lk|].
    rewrite app_assoc, <- !cells_app. split; [now rewrite firstn_skipn|]. now rewrite E, firstn_skipn.
Qed.

Lemma placed_find id afs : option_map snd (find (fun af : nat * fspec => has_id id (snd af)) afs) = find (titled id) (map snd afs).
Proof. induction afs as [|af afs IH]; [reflexivity|]. cbn [find map]. unfold has_id, titled. destruct (same_id _ id); [reflexivity|]. exact IH. Qed.

Lemma titled_full id f : length id = 4%nat -> forallb (fun c => negb (is_zero c)) id = true -> frame_ok f = true ->
  titled id f = true -> frame_id f = id.
Proof.
  intros L N K T. apply frame_ok_common in K. destruct K as (Lf & _). unfold titled in T.
  rewrite <- same_id_full in T by (auto; lia). now apply bytes_eqb_eq.
Qed.

Lemma content_says c fs get id expected n arg :
  mirrors c fs -> length (lit id) = 4%nat -> forallb (fun c => negb (is_zero c)) (lit id) = true ->
  (forall afs, mirrored c afs -> get (Some c) = Ok (option_map show (find (fun af => has_id (lit id) (snd af)) afs))) ->
  points_to arg (text_image expected) -> 0 <= n <= zlen (text_image expected) ->
  assert_content get c arg n = Ok true <-> shows id expected n fs.
Proof.
  intros (afs & M & <-) L N G (tail & ->) B. unfold assert_content, shows. rewrite (G afs M). cbn [bind].
  rewrite <- placed_find. destruct (find (fun af => has_id (lit id) (snd af)) afs) as [[a f]|] eqn:E; cbn [option_map].
  2:{ split; [discriminate|]. intros (? & ? & Q & _). discriminate Q. }
  apply find_some in E. destruct E as (I & T). cbn [snd] in T.
  assert (Kf : frame_ok f = true).
  { destruct M as (_ & _ & _ & _ & K). rewrite Forall_forall in K. apply K. change f with (snd (a, f)). now apply in_map. }
  pose proof (titled_full (lit id) f L N Kf T) as Ei.
  change (show (a, f)) with (compat_of a f). destruct f as [i fl t|fl la d co|fl mi pt d pic|i fl body].
  - pose proof (contents c afs a _ M I) as C. cbv zeta in C. rewrite C. cbn [bind tc_data snd].
    rewrite memcmp_begins by exact B. split.
    + intros Bw. exists fl, t. cbn [frame_id] in Ei. rewrite Ei. auto.
    + intros (fl' & t' & Q & Bw). injection Q as _ _ ->. exact Bw.
  - pose proof (contents_confused c afs a _ M I) as (C & _). rewrite C. split; [discriminate|]. intros (? & ? & Q & _). discriminate Q.
  - pose proof (contents_confused c afs a _ M I) as (C & _). rewrite C. split; [discriminate|]. intros (? & ? & Q & _). discriminate Q.
  - pose proof (contents_confused c afs a _ M I) as (C & _). rewrite C. split; [discriminate|]. intros (? & ? & Q & _). discriminate Q.
Qed.

Lemma begins_shorter e n t : begins_with e n t -> 0 <= n <= zlen (text_image e) -> n <= zlen (text_image t).
Proof.
  unfold begins_with, zlen. intros E B. apply (f_equal (@length _)) in E. rewrite !firstn_length in E. lia.
Qed.

Lemma begins_self e n : begins_with e n e.
Proof. reflexivity. Qed.

(** ** The four frames *)

Definition new_four : list fspec :=
  [plain_text "TALB" (narrow "Album"); plain_text "TPE1" (narrow "Artist"); plain_text "TIT2" (narrow "Title"); plain_text "TYER" (narrow "0000")].
Definition four_calls : list ccall :=
  [CAlbum (clit "Album") x00; CArtist (clit "Artist") x00; CTitle (clit "Title") x00; CYear (clit "0000") x00].

Lemma four_mean : Forall2 cmeans four_calls new_four.
Proof. unfold four_calls, new_four, plain_text. repeat (constructor; [constructor; pts|]). constructor. Qed.

(** Putting one frame. *)
Lemma find_exists {A} (p : A -> bool) l x : find p l = Some x -> existsb p l = true.
Proof. intros E. rewrite <- find_existsb, E. reflexivity. Qed.

Lemma frames_size_put id f fs g : titled id f = true -> find (titled id) fs = Some g ->
  frames_size (put (titled id) f fs) = frames_size fs - body_size g + body_size f.
Proof.
  intros T. induction fs as [|x fs IH]; intros E; [discriminate E|]. cbn [find put] in *.
  destruct (titled id x).
  - injection E as ->. rewrite !frames_size_cons. lia.
  - rewrite !frames_size_cons, IH by exact E. lia.
Qed.

Lemma text_size i fl t : body_size (FText i fl t) = 1 + zlen (text_image t).
Proof. unfold body_size, frame_body, body_with. unfold zlen. cbn [length app]. lia. Qed.

Lemma four_put fs : shown_before fs -> oks fs -> exists fs', put_frames new_four fs = Some fs'
  /\ frames_size fs' <= frames_size fs
  /\ (forall P, Forall P fs -> Forall P new_four -> Forall P fs')
  /\ Forall (fun f => find (titled (frame_id f)) fs' = Some f) new_four.
Proof.
  intros ((fl1 & t1 & F1 & B1) & (fl2 & t2 & F2 & B2) & (fl3 & t3 & F3 & B3) & (fl4 & t4 & F4 & B4)) K.
  apply begins_shorter in B1, B2, B3, B4; [|vm_compute; split; discriminate..].
  set (g1 := plain_text "TALB" (narrow "Album")). set (g2 := plain_text "TPE1" (narrow "Artist")).
  set (g3 := plain_text "TIT2" (narrow "Title")). set (g4 := plain_text "TYER" (narrow "0000")).
  set (p1 := put (titled (lit "TALB")) g1 fs). set (p2 := put (titled (lit "TPE1")) g2 p1).
  set (p3 := put (titled (lit "TIT2")) g3 p2). set (p4 := put (titled (lit "TYER")) g4 p3).
  assert (H2 : find (titled (lit "TPE1")) p1 = Some (FText (lit "TPE1") fl2 t2)) by (unfold p1; rewrite find_put_other; auto).
  assert (H3 : find (titled (lit "TIT2")) p2 = Some (FText (lit "TIT2") fl3 t3)) by (unfold p2, p1; rewrite !find_put_other; auto).
  assert (H4 : find (titled (lit "TYER")) p3 = Some (FText (lit "TYER") fl4 t4)) by (unfold p3, p2, p1; rewrite !find_put_other; auto).
  exists p4. split; [|split; [|split]].
  - unfold new_four. cbn [put_frames]. fold g1 g2 g3 g4.
    change (frame_ok g1) with true. change (frame_ok g2) with true. change (frame_ok g3) with true. change (frame_ok g4) with true. cbn [andb].
    change (has_id (frame_id g1)) with (titled (lit "TALB")). rewrite (find_exists _ _ _ F1).
    change (put_frame g1 fs) with p1. change (has_id (frame_id g2)) with (titled (lit "TPE1")). rewrite (find_exists _ _ _ H2).
    change (put_frame g2 p1) with p2. change (has_id (frame_id g3)) with (titled (lit "TIT2")). rewrite (find_exists _ _ _ H3).
    change (put_frame g3 p2) with p3. change (has_id (frame_id g4)) with (titled (lit "TYER")). rewrite (find_exists _ _ _ H4).
    reflexivity.
  - unfold p4. rewrite (frames_size_put (lit "TYER") g4 p3 _ eq_refl H4). unfold p3. rewrite (frames_size_put (lit "TIT2") g3 p2 _ eq_refl H3).
    unfold p2. rewrite (frames_size_put (lit "TPE1") g2 p1 _ eq_refl H2). unfold p1. rewrite (frames_size_put (lit "TALB") g1 fs _ eq_refl F1).
    unfold g1, g2, g3, g4, plain_text. rewrite !text_size.
    change (zlen (text_image (narrow "Album"))) with 6. change (zlen (text_image (narrow "Artist"))) with 7.
    change (zlen (text_image (narrow "Title"))) with 6. change (zlen (text_image (narrow "0000"))) with 5. lia.
  - intros P Hf Hg. unfold new_four in Hg. fold g1 g2 g3 g4 in Hg. rewrite Forall_forall in *.
    intros x I. apply put_in in I. destruct I as [->|I]; [apply Hg; cbn; tauto|].
    apply put_in in I. destruct I as [->|I]; [apply Hg; cbn; tauto|].
    apply put_in in I. destruct I as [->|I]; [apply Hg; cbn; tauto|].
    apply put_in in I. destruct I as [->|I]; [apply Hg; cbn; tauto|]. now apply Hf.
  - unfold new_four. fold g1 g2 g3 g4. repeat constructor.
    + change (frame_id g1) with (lit "TALB"). unfold p4, p3, p2, p1. rewrite !find_put_other by reflexivity. now apply find_put_same.
    + change (frame_id g2) with (lit "TPE1"). unfold p4, p3, p2. rewrite !find_put_other by reflexivity. now apply find_put_same.
    + change (frame_id g3) with (lit "TIT2"). unfold p4, p3. rewrite !find_put_other by reflexivity. now apply find_put_same.
    + change (frame_id g4) with (lit "TYER"). unfold p4. now apply find_put_same.
Qed.

Lemma loaded_raw f c : load_tag f = Ok c -> exists raw, ct_raw c = Some raw.
Proof.
  rewrite load_file. intros E. destruct (ID3v2_read_tag_header f) as [[h|]|?|?|]; try discriminate E.
  destruct f as [content|]; [|discriminate E]. unfold load_tag_with_buffer in E.
  repeat match type of E with
  | bind ?o _ = _ => destruct o; try discriminate E; cbn [bind] in E
  end.
  injection E as <-. cbn [ct_raw]. eauto.
Qed.

(** The assertions, before and after. *)
Definition before (tag : ctag) (k : outcome bool) : outcome bool :=
  let* album := to_unicode "Smoke And Shadows" in
  let* artist := to_unicode "Ethereal Darkness" in
  let* title := to_unicode "Rivers" in
  let* n := ID3v2_strlent (clit "Smoke And Shadows") in
  assert! assert_content tag_get_album tag album n in
  let* n := ID3v2_strlent (clit "Ethereal Darkness") in
  assert! assert_content tag_get_artist tag artist n in
  let* n := ID3v2_strlent (clit "Rivers") in
  assert! assert_content tag_get_title tag title n in
  assert! assert_content tag_get_year tag (clit "2019") 4 in
  k.
Definition after (tag : ctag) : outcome bool :=
  let* n := ID3v2_strlent (clit "Album") in
  assert! assert_content tag_get_album tag (clit "Album") n in
  let* n := ID3v2_strlent (clit "Artist") in
  assert! assert_content tag_get_artist tag (clit "Artist") n in
  let* n := ID3v2_strlent (clit "Title") in
  assert! assert_content tag_get_title tag (clit "Title") n in
  assert! assert_content tag_get_year tag (clit "0000") 4 in
  let* _ := free_tag (Some tag) in
  Ok true.

Lemma before_says c fs k : mirrors c fs -> before c k = Ok true <-> shown_before fs /\ k = Ok true.
Proof.
  intros M. unfold before. unicode.
  change (ID3v2_strlent (clit "Smoke And Shadows")) with (Ok 18). change (ID3v2_strlent (clit "Ethereal Darkness")) with (Ok 18).
  change (ID3v2_strlent (clit "Rivers")) with (Ok 7). rewrite !bind_is.
  assert (G := fun afs (H : mirrored c afs) => getters c afs H). cbv zeta in G.
  rewrite !assert_and.
  rewrite (content_says c fs _ "TALB" (wide "Smoke And Shadows")); [|exact M|reflexivity|reflexivity|intros afs Ma; apply (G afs Ma)|pts|vm_compute; split; discriminate].
  rewrite (content_says c fs _ "TPE1" (wide "Ethereal Darkness")); [|exact M|reflexivity|reflexivity|intros afs Ma; apply (G afs Ma)|pts|vm_compute; split; discriminate].
  rewrite (content_says c fs _ "TIT2" (wide "Rivers")); [|exact M|reflexivity|reflexivity|intros afs Ma; apply (G afs Ma)|pts|vm_compute; split; discriminate].
  rewrite (content_says c fs _ "TYER" (narrow "2019")); [|exact M|reflexivity|reflexivity|intros afs Ma; apply (G afs Ma)|pts|vm_compute; split; discriminate].
  unfold shown_before. tauto.
Qed.

Lemma after_says c fs : mirrors c fs -> Forall (fun f => find (titled (frame_id f)) fs = Some f) new_four ->
  (exists raw, ct_raw c = Some raw) -> after c = Ok true.
Proof.
  intros M F (raw & R). unfold after.
  change (ID3v2_strlent (clit "Album")) with (Ok 6). change (ID3v2_strlent (clit "Artist")) with (Ok 7).
  change (ID3v2_strlent (clit "Title")) with (Ok 6). rewrite !bind_is.
  assert (G := fun afs (H : mirrored c afs) => getters c afs H). cbv zeta in G. rewrite !assert_and.
  rewrite (content_says c fs _ "TALB" (narrow "Album")); [|exact M|reflexivity|reflexivity|intros afs Ma; apply (G afs Ma)|pts|vm_compute; split; discriminate].
  rewrite (content_says c fs _ "TPE1" (narrow "Artist")); [|exact M|reflexivity|reflexivity|intros afs Ma; apply (G afs Ma)|pts|vm_compute; split; discriminate].
  rewrite (content_says c fs _ "TIT2" (narrow "Title")); [|exact M|reflexivity|reflexivity|intros afs Ma; apply (G afs Ma)|pts|vm_compute; split; discriminate].
  rewrite (content_says c fs _ "TYER" (narrow "0000")); [|exact M|reflexivity|reflexivity|intros afs Ma; apply (G afs Ma)|pts|vm_compute; split; discriminate].
  unfold new_four in F. inversion_clear F as [|? ? F1 F']. inversion_clear F' as [|? ? F2 F'']. inversion_clear F'' as [|? ? F3 F3'].
  inversion_clear F3' as [|? ? F4 _].
  assert (N : fs <> []) by (intros ->; discriminate F1).
  rewrite (free_loaded c fs raw M N R). cbn [bind].
  split; [exists [x00; x00], (narrow "Album"); split; [exact F1|apply begins_self]|].
  split; [exists [x00; x00], (narrow "Artist"); split; [exact F2|apply begins_self]|].
  split; [exists [x00; x00], (narrow "Title"); split; [exact F3|apply begins_self]|].
  split; [exists [x00; x00], (narrow "0000"); split; [exact F4|apply begins_self]|]. reflexivity.
Qed.

Lemma compat_test_is content c : load_tag (Some content) = Ok c ->
  compat_test (Some content)
  = before c (let* tag := run_ccalls four_calls c in
              let* (file, tag) := set_tag (Some content) (Some tag) in
              let* _ := free_tag (Some tag) in
              let* tag := load_tag file in
              after tag).
Proof.
  intros E. unfold compat_test. cbn [clone_file]. rewrite !bind_is, E, bind_is. unfold before. unicode.
  change (ID3v2_strlent (clit "Smoke And Shadows")) with (Ok 18). change (ID3v2_strlent (clit "Ethereal Darkness")) with (Ok 18).
  change (ID3v2_strlent (clit "Rivers")) with (Ok 7). rewrite !bind_is.
  assert (C : forall (e k k' : outcome bool), k = k' -> (assert! e in k) = (assert! e in k')) by (intros ? ? ? ->; reflexivity).
  do 4 apply C. unfold four_calls. cbn [run_ccalls run_ccall].
  destruct (tag_set_album (clit "Album") x00 (Some c)) as [c1|?|?|]; try reflexivity. rewrite !bind_is.
  destruct (tag_set_artist (clit "Artist") x00 (Some c1)) as [c2|?|?|]; try reflexivity. rewrite !bind_is.
  destruct (tag_set_title (clit "Title") x00 (Some c2)) as [c3|?|?|]; try reflexivity. rewrite !bind_is.
  destruct (tag_set_year (clit "0000") x00 (Some c3)) as [c4|?|?|]; reflexivity.
Qed.

Lemma set_tag_raw f c f' c' : set_tag f (Some c) = Ok (f', c') -> ct_raw c' = ct_raw c.
Proof.
  unfold set_tag. cbn [deref bind]. destruct (ID3v2_write_tag f (Some (ct_tag c))) as [[x [y|]]|?|?|]; cbn [bind deref]; intros E; try discriminate E.
  now injection E as _ <-.
Qed.

Lemma new_four_survive major : known_version major = true -> Forall (fun f => survives major f = true) new_four.
Proof.
  intros V. unfold known_version in V. apply orb_true_iff in V. destruct V as [V|V]; apply beq_true in V; subst major;
    unfold new_four; repeat (constructor; [reflexivity|]); constructor.
Qed.

Lemma compat_tagged major minor flags fs pad sound :
  known_version major = true -> has_extended_header flags = false ->
  Forall (fun f => survives major f = true) fs -> 0 <= pad -> frames_size fs + pad < 2 ^ 28 ->
  compat_test (Some (tagged_file major minor flags fs pad sound)) = Ok true <-> shown_before fs.
Proof.
  intros V X Sv P B. destruct (survives_ok _ _ Sv) as (K & Rd).
  destruct fs as [|f0 fs0].
  { assert (L : load_tag (Some (tagged_file major minor flags [] pad sound)) = Ub NullDeref).
    { destruct (tagged_read major minor flags [] pad sound V X (Forall_nil _) P B) as (t & Et & _ & T & _).
      exact (load_file_gen _ t [] Et T (Forall_nil _)). }
    unfold compat_test. cbn [clone_file]. rewrite bind_is, L. split; [discriminate|]. intros ((? & ? & Q & _) & _). discriminate Q. }
  set (fs := f0 :: fs0) in *. assert (Ne : fs <> []) by discriminate. clearbody fs. clear f0 fs0.
  destruct (session_v1 major minor flags fs pad sound four_calls new_four V X Rd Ne P B four_mean eq_refl) as (c & Ec & M & _ & S).
  cbv zeta in *. rewrite (compat_test_is _ c Ec), (before_says c fs _ M). split; [tauto|]. intros Sh. split; [exact Sh|].
  destruct (four_put fs Sh K) as (fs' & E & Le & Al & F). rewrite E in S.
  destruct S as (c' & R & M' & _ & S).
  destruct S as (c2 & W & M2 & S); [lia|]. destruct S as (c3 & L3 & M3 & _); [apply Al; [exact Sv|now apply new_four_survive]|].
  rewrite R. cbn [bind]. rewrite W. cbn [bind].
  destruct (loaded_raw _ _ Ec) as (raw & Er).
  destruct (set_history four_calls c fs new_four fs' M four_mean E) as (c1 & R1 & _ & Hr & _). rewrite R in R1. injection R1 as <-.
  pose proof (set_tag_raw _ _ _ _ W) as Hr2.
  assert (Ne' : fs' <> []) by (intros ->; inversion F as [|? ? Q _]; discriminate Q).
  rewrite (free_loaded c2 fs' raw M2 Ne') by congruence. cbn [bind]. rewrite L3. cbn [bind].
  apply (after_says c3 fs' M3 F). eapply loaded_raw; eauto.
Qed.

Lemma compat_untagged original : untagged original -> compat_test original = Ub NullDeref.
Proof.
  intros U. destruct original as [content|]; [|reflexivity]. apply untagged_read in U. apply load_file_none in U.
  unfold compat_test. cbn [clone_file]. now rewrite bind_is, U.
Qed.
