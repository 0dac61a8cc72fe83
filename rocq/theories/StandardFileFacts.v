(** What a reader by the standard sees in files before and after the library. *)
From Verif Require Import BaseFacts UtilsFacts StreamFacts FrameFacts HeaderFacts TagFacts.
From Verif Require Import File Calls Spec SpecEdit SpecFile SpecRead SpecSession SpecRewrite SpecStandard.
From Verif Require Import ListFacts EditFacts WriteFacts HistFacts ClaimFacts RoundFacts FileFacts ReadFacts SessionFacts RewriteFacts StandardFacts.
From Coq Require Import Lia ZifyBool ZifyNat.

Lemma simple_not_extended fl : simple_flags fl = true -> has_extended_header fl = false.
Proof. unfold simple_flags, has_extended_header. destruct (Z.testbit (bv fl) 6); [|reflexivity]. rewrite andb_false_r. discriminate. Qed.

Lemma sayable_ok f : sayable f = true -> frame_ok f = true /\ named_well f = true.
Proof. unfold sayable. intros S. apply andb_true_iff in S as (S & _). now apply andb_true_iff in S. Qed.

Lemma own_relabelled s : relabelled s = own (sf_frame s).
Proof. reflexivity. Qed.

Lemma items_seen_all major ss : items_seen major ss = all_of (map (item_in major) ss) (Some []).
Proof.
  induction ss as [|s ss IH]; [reflexivity|]. cbn [items_seen map all_of]. rewrite IH. fold (item_in major s).
  now destruct (item_in major s), (all_of _ _).
Qed.

(** ** Files the library writes *)

Lemma tag_bytes_own maj mi fl n fs : frames_size fs <= n -> oks fs ->
  tag_bytes maj mi fl n fs
  = header_image maj mi fl (zlen (flat_map (sf_image be32) (map own fs)) + (n - frames_size fs)) ++ flat_map (sf_image be32) (map own fs) ++ zeros (n - frames_size fs).
Proof.
  intros L K. unfold tag_bytes. rewrite own_images, images_zlen by auto. do 2 f_equal. lia.
Qed.

Lemma written_items maj mi fl n fs sound :
  known_version maj = true -> simple_flags fl = true -> oks fs ->
  Forall (fun f => well_sized maj be32 (own f)) fs -> frames_size fs <= n < 2 ^ 28 ->
  standard_read (tag_bytes maj mi fl n fs ++ sound) = items_seen maj (map own fs).
Proof.
  intros V F K W L. rewrite tag_bytes_own, <- !app_assoc by (auto; lia). rewrite items_seen_all.
  apply standard_read_frames; auto; try lia.
  - now apply Forall_map.
  - rewrite own_images, images_zlen by auto. lia.
Qed.

Lemma items_own maj fs : Forall (fun f => sayable f = true) fs -> items_seen maj (map own fs) = Some (map meant fs).
Proof. intros S. rewrite items_seen_all, own_items, all_of_some by auto. cbn [option_map]. now rewrite app_nil_r. Qed.

Lemma sayable_oks fs : Forall (fun f => sayable f = true) fs -> oks fs.
Proof. apply Forall_impl. intros f S. now apply sayable_ok. Qed.

Lemma written3 mi fl n fs sound : simple_flags fl = true -> Forall (fun f => sayable f = true) fs -> frames_size fs <= n < 2 ^ 28 ->
  standard_read (tag_bytes x03 mi fl n fs ++ sound) = Some (map meant fs).
Proof.
  intros F S L. rewrite written_items; auto; [now apply items_own|now apply sayable_oks|].
  eapply Forall_impl; [|exact S]. intros f Sf. apply sayable_ok in Sf as (? & ?). now apply own_sized3.
Qed.

Lemma first_large fs : Forall (fun f => body_size f < 128) fs \/
  exists fs1 f fs2, fs = fs1 ++ f :: fs2 /\ Forall (fun f => body_size f < 128) fs1 /\ 128 <= body_size f.
Proof.
  induction fs as [|f fs [IH|(fs1 & g & fs2 & -> & S & L)]]; [now left| |].
  - destruct (Z.lt_ge_cases (body_size f) 128); [left; now constructor|]. right. exists [], f, fs. now repeat split.
  - destruct (Z.lt_ge_cases (body_size f) 128); [right; exists (f :: fs1), g, fs2; repeat split; auto|].
    right. exists [], f, (fs1 ++ g :: fs2). now repeat split.
Qed.

Lemma written4 mi fl n fs sound : simple_flags fl = true -> Forall (fun f => sayable f = true) fs -> frames_size fs <= n < 2 ^ 28 ->
  (standard_read (tag_bytes x04 mi fl n fs ++ sound) = Some (map meant fs) <-> Forall (fun f => body_size f < 128) fs).
Proof.
  intros F S L. pose proof (sayable_oks _ S) as K. split.
  2: { intros B. rewrite written_items; auto; [now apply items_own|].
       rewrite Forall_forall in *. intros f I. destruct (sayable_ok f (S f I)) as (? & ?). now apply own_sized4, B. }
  intros R. destruct (first_large fs) as [|(fs1 & f & fs2 & -> & B1 & Bf)]; [assumption|exfalso]. revert R.
  rewrite tag_bytes_own by (auto; lia). rewrite <- !app_assoc, (app_assoc (flat_map _ _)).
  rewrite standard_read_tag; auto.
  2: { rewrite zlen_app. f_equal. unfold zeros. rewrite zlen_repeat. lia. }
  2: { rewrite own_images, images_zlen by auto. lia. }
  apply Forall_app in S as (S1 & S2). inversion S2 as [|? ? Sf S3]; subst.
  assert (W1 : Forall (well_sized x04 be32) (map own fs1)).
  { apply Forall_map. rewrite Forall_forall in *. intros g I. destruct (sayable_ok g (S1 g I)) as (? & ?). now apply own_sized4, B1. }
  rewrite map_app, flat_map_app, <- app_assoc. pose proof (well_sized_count _ _ _ W1) as C.
  set (k := Z.to_nat _).
  assert (Ck : (length (map own fs1) <= k)%nat).
  { unfold k. rewrite zlen_app. pose proof (zlen_nonneg (flat_map (sf_image be32) (map own (f :: fs2)))). lia. }
  clearbody k. rewrite items_prefix by (auto; lia). rewrite own_items, all_of_some by auto.
  replace (S k - length (map own fs1))%nat with (Datatypes.S (k - length (map own fs1))) by lia.
  set (j := (k - _)%nat). clearbody j. clear Ck k.
  cbn [map flat_map]. rewrite own_image. unfold frame_image. rewrite <- !app_assoc.
  destruct (sayable_ok f Sf) as (Kf & Nf). destruct (ok_lengths f Kf) as (Li & Lf & Lb).
  pose proof Nf as Nf'. unfold named_well in Nf'. apply andb_true_iff in Nf' as (Nc & _).
  rewrite items_step by auto. unfold size_of_frame. change (Byte.eqb x04 x04) with true. cbv iota.
  destruct (below_128 (be32 (body_size f))) eqn:Eb; [|discriminate].
  destruct (be32_sizes (body_size f) ltac:(change (2 ^ 31) with 2147483648 in *; lia) Eb) as (_ & M). specialize (M Bf).
  set (m := synchsafe_value _) in *. destruct (_ && _) eqn:Em; [|discriminate].
  assert (Mm : 1 <= m) by lia. unfold body_size in M, Bf.
  rewrite firstn_app. replace (Z.to_nat m - length (frame_body f))%nat with O by (unfold zlen in M; lia). cbn [firstn]. rewrite app_nil_r.
  pose proof (item_cut x04 f m Sf ltac:(unfold body_size; lia)) as Cut.
  destruct (item_of _ _ _ _) as [x|]; [|discriminate]. destruct (read_items _ _ _) as [xs|]; [|discriminate].
  cbn [option_map]. rewrite map_app. cbn [map]. intros R. injection R as R. apply app_inv_head in R. congruence.
Qed.

(** ** Edits *)

Lemma run_session_written content major minor flags fs pad sound cs es :
  content = tagged_file major minor flags fs pad sound ->
  known_version major = true -> simple_flags flags = true ->
  Forall (fun f => frame_ok f = true /\ readable f = true) fs ->
  0 <= pad -> frames_size fs + pad < 2 ^ 28 ->
  Forall2 means cs es -> all_proper es fs = true ->
  0 <= room_left es fs pad -> frames_size (edited es fs) + room_left es fs pad < 2 ^ 28 ->
  run_session cs (Some content) = Ok (Some (tag_bytes major minor flags (frames_size (edited es fs) + room_left es fs pad) (edited es fs) ++ sound)).
Proof.
  intros -> V F K P B M A R N. pose proof (frames_size_nonneg (edited es fs)).
  destruct (session major minor flags fs pad sound cs es V (simple_not_extended _ F) K P B M A) as (t & t' & E1 & E2 & E3).
  { change (2 ^ 31) with 2147483648. lia. }
  replace (0 <=? room_left es fs pad) with true in E3 by lia.
  unfold run_session. rewrite E1. cbn [bind]. rewrite E2. cbn [bind]. rewrite E3. reflexivity.
Qed.

Lemma own_file major minor flags fs pad sound :
  tagged_file major minor flags fs pad sound = standard_file major minor flags (map own fs) pad sound.
Proof.
  assert (E : sf_size (map own fs) = frames_size fs).
  { induction fs as [|f fs IH]; [reflexivity|]. cbn [map sf_size frames_size fold_right].
    fold (frames_size fs) (sf_size (map own fs)). now rewrite own_body, IH. }
  unfold tagged_file, standard_file. now rewrite own_images, E.
Qed.

Lemma sf_images_zlen sf ss : (forall n, length (sf n) = 4%nat) ->
  Forall (fun s => length (frame_id (sf_frame s)) = 4%nat /\ length (frame_flags (sf_frame s)) = 2%nat) ss ->
  zlen (flat_map (sf_image sf) ss) = sf_size ss.
Proof.
  intros L. induction 1 as [|s ss (Li & Lf) _ IH]; [reflexivity|]. cbn [flat_map sf_size fold_right]. rewrite zlen_app.
  fold (sf_size ss). rewrite IH. unfold sf_image. rewrite !zlen_app.
  assert (zlen (frame_id (sf_frame s)) = 4) by (unfold zlen; lia). assert (zlen (frame_flags (sf_frame s)) = 2) by (unfold zlen; lia).
  assert (zlen (sf (zlen (sf_body s))) = 4) by (unfold zlen at 1; rewrite L; reflexivity). lia.
Qed.

(** Frames with the size as the version wants it. *)
Lemma native_sized major s : known_version major = true ->
  length (frame_id (sf_frame s)) = 4%nat -> length (frame_flags (sf_frame s)) = 2%nat -> forallb id_char (frame_id (sf_frame s)) = true ->
  1 <= zlen (sf_body s) < 2 ^ 28 -> well_sized major (size_field_of major) s.
Proof.
  intros V Li Lf C B. unfold well_sized. repeat split; auto; try lia; [apply size_field_length|].
  unfold size_of_frame, size_field_of. destruct (Byte.eqb major x04).
  - rewrite below_synchsafe32 by lia. f_equal. apply synchsafe_value_synchsafe32. lia.
  - rewrite be_value_be32. f_equal. apply Z.mod_small. change (2 ^ 32) with 4294967296. change (2 ^ 28) with 268435456 in B. lia.
Qed.

Lemma standard_file_read major minor flags ss pad sound :
  known_version major = true -> simple_flags flags = true ->
  Forall (fun s => length (frame_id (sf_frame s)) = 4%nat /\ length (frame_flags (sf_frame s)) = 2%nat
                   /\ forallb id_char (frame_id (sf_frame s)) = true /\ 1 <= zlen (sf_body s)) ss ->
  0 <= pad -> sf_size ss + pad < 2 ^ 28 ->
  standard_read (standard_file major minor flags ss pad sound) = items_seen major ss.
Proof.
  intros V F W P B.
  assert (Z : zlen (flat_map (sf_image (size_field_of major)) ss) = sf_size ss).
  { apply sf_images_zlen; [apply size_field_length|]. eapply Forall_impl; [|exact W]. cbn beta. tauto. }
  unfold standard_file. rewrite <- Z in *. rewrite items_seen_all. apply standard_read_frames; auto.
  rewrite Z in B. clear Z. induction W as [|s ss (Li & Lf & C & Bs) W IH]; constructor.
  - apply native_sized; auto. cbn [sf_size fold_right] in B. fold (sf_size ss) in B.
    assert (0 <= sf_size ss); [|lia]. clear. induction ss as [|s ss IH]; [cbn; lia|]. cbn [sf_size fold_right]. fold (sf_size ss). pose proof (zlen_nonneg (sf_body s)). lia.
  - apply IH. cbn [sf_size fold_right] in B. fold (sf_size ss) in B. pose proof (zlen_nonneg (sf_body s)). lia.
Qed.

Lemma meant_id f : item_id (meant f) = frame_id f.
Proof. now destruct f. Qed.

Lemma put_map {A B} (g : A -> B) p q a l : (forall x, q (g x) = p x) -> map g (put p a l) = put q (g a) (map g l).
Proof. intros H. induction l as [|x l IH]; [reflexivity|]. cbn [put map]. rewrite H. destruct (p x); cbn [map]; congruence. Qed.

Lemma put_Forall {A} (P : A -> Prop) p a l : P a -> Forall P l -> Forall P (put p a l).
Proof. intros Pa. induction 1; cbn [put]; [now repeat constructor|]. destruct (p x); now constructor. Qed.

(** ** Comments whose strings are encoded differently *)

Lemma put_split {A} p (a : A) l : exists l1 l2, put p a l = l1 ++ a :: l2 /\ forall b, put p b l = l1 ++ b :: l2.
Proof.
  induction l as [|x l (l1 & l2 & E & H)]; [exists [], []; now split|]. cbn [put]. destruct (p x).
  - exists [], l. now split.
  - exists (x :: l1), l2. split; [now rewrite E|]. intros b. now rewrite H.
Qed.

Lemma items_put major p f x l : Forall (fun f => sayable f = true) l -> item_in major (own f) = x ->
  items_seen major (map own (put (titled p) f l)) = option_map (fun x => put (fun y => same_id (item_id y) p) x (map meant l)) x.
Proof.
  intros S <-. induction S as [|g l Sg S IH].
  - cbn [put map items_seen]. fold (item_in major (own f)). now destruct (item_in major (own f)).
  - cbn [put map]. rewrite meant_id. change (titled p g) with (same_id (frame_id g) p). destruct (same_id (frame_id g) p).
    + cbn [map items_seen]. fold (item_in major (own f)). rewrite items_own by auto. now destruct (item_in major (own f)).
    + cbn [map items_seen]. rewrite IH. rewrite own_body. cbn [own sf_frame]. rewrite item_meant by auto. now destruct (item_in major (own f)).
Qed.

(** A description with a byte order mark, labelled as ISO-8859-1. *)
Lemma item_bom_iso major fl lang be us c : plain_flags fl = true -> length lang = 3%nat -> text_ok (Utf16 be us) = true -> text_ok (Iso c) = true ->
  exists s t, item_of major (lit "COMM") fl (frame_body (FComment fl lang (Utf16 be us) (Iso c)))
              = Some (IComment lang (map bv (bom_bytes be ++ s)) t).
Proof.
  intros P L Kd Kc. unfold item_of. cbn [frame_body frame_encoding text_encoding body_with app].
  rewrite P. cbn [negb].
  destruct lang as [|a [|b [|e [|]]]]; try discriminate L. cbn [app skipn firstn].
  change (bytes_eqb (lit "COMM") (lit "TXXX")) with false. change (id_starts (lit "COMM") "T") with false. change (bytes_eqb (lit "COMM") (lit "COMM")) with true.
  change (coding_of major x00) with (Some Latin1). cbv iota.
  unfold text_image at 1. cbn [text_bytes text_end]. rewrite <- !app_assoc. cbn [read_text].
  assert (Z : forall u r, exists s q, before_zero (u ++ x00 :: x00 :: r) = (s, Some q)).
  { clear. induction u as [|a u IH]; intros r; [eexists; eexists; reflexivity|]. cbn [app before_zero].
    destruct (is_zero a); [eexists; eexists; reflexivity|]. destruct (IH r) as (s & q & ->). eauto. }
  destruct (Z (flat_map (fun u => [fst u; snd u]) us) (text_image (Iso c))) as (s & q & E).
  assert (E' : before_zero (bom_bytes be ++ flat_map (fun u => [fst u; snd u]) us ++ [x00; x00] ++ text_image (Iso c)) = (bom_bytes be ++ s, Some q)).
  { destruct be; cbn [bom_bytes app before_zero]; rewrite E; reflexivity. }
  cbn [app] in E'. cbn [app]. rewrite E'. destruct (before_zero q) as (t & q'). cbn [option_map fst]. eauto.
Qed.

(** No description: the byte order mark is the description, and its terminator
    the comment. *)
Lemma item_set_comment major lang c : length lang = 3%nat ->
  item_of major (lit "COMM") [x00; x00] (frame_body (FComment [x00; x00] lang (Utf16 false []) (Iso c))) = Some (IComment lang [255; 254] []).
Proof. intros L. destruct lang as [|a [|b [|e [|]]]]; try discriminate L. reflexivity. Qed.

(** A description without byte order mark, labelled as UTF-16. *)
Lemma item_iso_utf major fl lang d be us : plain_flags fl = true -> length lang = 3%nat -> text_ok (Iso d) = true ->
  item_of major (lit "COMM") fl (frame_body (FComment fl lang (Iso d) (Utf16 be us))) = None.
Proof.
  intros P L K. unfold item_of. cbn [frame_body frame_encoding text_encoding body_with app].
  rewrite P. cbn [negb].
  destruct lang as [|a [|b [|e [|]]]]; try discriminate L. cbn [app skipn firstn].
  change (bytes_eqb (lit "COMM") (lit "TXXX")) with false. change (id_starts (lit "COMM") "T") with false. change (bytes_eqb (lit "COMM") (lit "COMM")) with true.
  change (coding_of major x01) with (Some Utf16Bom). cbv iota.
  unfold text_image at 1. cbn [text_bytes text_end]. cbn [text_ok] in K. apply andb_true_iff in K as (_ & K). apply negb_true_iff in K.
  assert (E : read_text Utf16Bom ((d ++ [x00]) ++ text_image (Utf16 be us)) = None); [|now rewrite E].
  destruct d as [|x [|y d]]; cbn [app].
  - unfold text_image. cbn [text_bytes]. rewrite <- app_assoc. destruct be; reflexivity.
  - cbn [read_text]. change (Byte.eqb x00 xff) with false. change (Byte.eqb x00 xfe) with false. now rewrite !andb_false_r.
  - cbn [read_text]. unfold starts_with_bom in K. replace (_ || _) with false; [reflexivity|]. symmetry. now rewrite orb_comm.
Qed.

(** ** Edits, as a reader by the standard sees them *)

Lemma edit_session3 minor flags fs pad sound cs es :
  simple_flags flags = true -> Forall (fun f => frame_ok f = true /\ readable f = true) fs -> 0 <= pad -> frames_size fs + pad < 2 ^ 28 ->
  Forall2 means cs es -> all_proper es fs = true ->
  0 <= room_left es fs pad -> frames_size (edited es fs) + room_left es fs pad < 2 ^ 28 ->
  Forall (fun f => sayable f = true) (edited es fs) ->
  exists file, run_session cs (Some (tagged_file x03 minor flags fs pad sound)) = Ok (Some file)
    /\ standard_read file = Some (map meant (edited es fs)).
Proof.
  intros F K P B M A R N S. eexists. split; [eapply run_session_written; eauto|]. apply written3; auto. lia.
Qed.

Lemma edit_session4 minor flags fs pad sound cs es :
  simple_flags flags = true -> Forall (fun f => frame_ok f = true /\ readable f = true) fs -> 0 <= pad -> frames_size fs + pad < 2 ^ 28 ->
  Forall2 means cs es -> all_proper es fs = true ->
  0 <= room_left es fs pad -> frames_size (edited es fs) + room_left es fs pad < 2 ^ 28 ->
  Forall (fun f => sayable f = true) (edited es fs) ->
  exists file, run_session cs (Some (tagged_file x04 minor flags fs pad sound)) = Ok (Some file)
    /\ (standard_read file = Some (map meant (edited es fs)) <-> Forall (fun f => body_size f < 128) (edited es fs)).
Proof.
  intros F K P B M A R N S. eexists. split; [eapply run_session_written; eauto|]. apply written4; auto. lia.
Qed.

Lemma put_session major minor flags fs pad sound c f :
  simple_flags flags = true -> Forall (fun f => sayable f = true /\ readable f = true) fs -> 0 <= pad -> frames_size fs + pad < 2 ^ 28 ->
  means c (Put f) -> frame_ok f = true -> named_well f = true ->
  let fs' := edited [Put f] fs in
  let room := room_left [Put f] fs pad in
  0 <= room -> frames_size fs' + room < 2 ^ 28 ->
  major = x03 \/ major = x04 /\ Forall (fun f => body_size f < 128) fs' ->
  exists file, run_session [c] (Some (tagged_file major minor flags fs pad sound)) = Ok (Some file)
    /\ standard_read file = option_map (fun x => put (fun y => same_id (item_id y) (frame_id f)) x (map meant fs))
                                       (item_of major (frame_id f) (frame_flags f) (frame_body f)).
Proof.
  intros F K P B M Kf Nf fs' room R N V.
  assert (S : Forall (fun f => sayable f = true) fs) by (eapply Forall_impl; [|exact K]; cbn beta; tauto).
  assert (V' : known_version major = true) by (destruct V as [->|(-> & _)]; reflexivity).
  assert (W : Forall (fun f => frame_ok f = true /\ named_well f = true) fs').
  { unfold fs'. cbn [edited edited_once]. apply put_Forall; [auto|]. eapply Forall_impl; [|exact S]. intros g Sg. now apply sayable_ok. }
  eexists. split.
  - eapply run_session_written; eauto.
    + eapply Forall_impl; [|exact K]. cbn beta. intros g (Sg & ?). split; [now apply sayable_ok|assumption].
    + cbn [all_proper]. unfold proper. cbn [edit_ok victim_of]. now rewrite Kf.
  - rewrite written_items; auto.
    + cbn [edited edited_once]. rewrite (items_put major (frame_id f) f _ fs S eq_refl). unfold item_in. now rewrite own_body.
    + eapply Forall_impl; [|exact W]. cbn beta. tauto.
    + destruct V as [->|(-> & Sm)].
      * eapply Forall_impl; [|exact W]. cbn beta. intros g (? & ?). now apply own_sized3.
      * rewrite Forall_forall in *. intros g I. destruct (W g I). apply own_sized4; auto.
    + fold fs' room. lia.
Qed.

Lemma comment_named f : (match f with FComment _ _ _ _ => True | _ => False end) -> named_well f = true.
Proof.
  destruct f as [|fl lang d c| |]; try tauto. intros _. unfold named_well. change (forallb id_char (frame_id _)) with true. cbn [andb].
  unfold body_size. cbn [frame_body frame_encoding body_with app]. rewrite zlen_cons. pose proof (zlen_nonneg (lang ++ text_image d ++ text_image c)). lia.
Qed.

Lemma set_comment_session major minor flags fs pad sound la co l t :
  simple_flags flags = true -> Forall (fun f => sayable f = true /\ readable f = true) fs -> 0 <= pad -> frames_size fs + pad < 2 ^ 28 ->
  points_to la l -> points_to co (text_image t) ->
  let f := FComment [x00; x00] l (Utf16 false []) t in
  frame_ok f = true ->
  let fs' := edited [Put f] fs in
  let room := room_left [Put f] fs pad in
  0 <= room -> frames_size fs' + room < 2 ^ 28 ->
  major = x03 \/ major = x04 /\ Forall (fun f => body_size f < 128) fs' ->
  let seen := match t with Iso _ => IComment l [255; 254] [] | Utf16 be us => IComment l [] (map (unit_of be) us) end in
  exists file, run_session [SetComment la co] (Some (tagged_file major minor flags fs pad sound)) = Ok (Some file)
    /\ standard_read file = Some (put (fun y => same_id (item_id y) (lit "COMM")) seen (map meant fs)).
Proof.
  intros F K P B Pl Pc f Kf fs' room R N V seen.
  destruct (put_session major minor flags fs pad sound (SetComment la co) f F K P B (MComment _ _ _ _ Pl Pc) Kf (comment_named f I) R N V) as (file & E & S).
  exists file. split; [exact E|]. rewrite S.
  assert (L : length l = 3%nat) by (apply (frame_ok_kind _ Kf)).
  unfold f, seen. cbn [frame_id frame_flags]. destruct t as [c|be us].
  - now rewrite item_set_comment.
  - pose proof (item_meant major f) as M. unfold f in M. cbn [frame_id frame_flags meant wtext_of map] in M. rewrite M; [reflexivity|].
    unfold sayable. fold f. rewrite Kf, (comment_named f I). reflexivity.
Qed.

Lemma iso_utf_session major minor flags fs pad sound k fl l d be us :
  simple_flags flags = true -> Forall (fun f => sayable f = true /\ readable f = true) fs -> 0 <= pad -> frames_size fs + pad < 2 ^ 28 ->
  let f := FComment fl l (Iso d) (Utf16 be us) in
  means k (Put f) -> frame_ok f = true -> plain_flags fl = true ->
  let fs' := edited [Put f] fs in
  let room := room_left [Put f] fs pad in
  0 <= room -> frames_size fs' + room < 2 ^ 28 ->
  major = x03 \/ major = x04 /\ Forall (fun f => body_size f < 128) fs' ->
  exists file, run_session [k] (Some (tagged_file major minor flags fs pad sound)) = Ok (Some file) /\ standard_read file = None.
Proof.
  intros F K P B f M Kf Pf fs' room R N V.
  destruct (put_session major minor flags fs pad sound k f F K P B M Kf (comment_named f I) R N V) as (file & E & S).
  exists file. split; [exact E|]. rewrite S. unfold f. cbn [frame_id frame_flags]. pose proof (frame_ok_kind _ Kf) as (L & Kd & _).
  now rewrite item_iso_utf.
Qed.

Lemma utf_iso_session major minor flags fs pad sound k fl l be us c :
  simple_flags flags = true -> Forall (fun f => sayable f = true /\ readable f = true) fs -> 0 <= pad -> frames_size fs + pad < 2 ^ 28 ->
  let f := FComment fl l (Utf16 be us) (Iso c) in
  means k (Put f) -> frame_ok f = true -> plain_flags fl = true ->
  let fs' := edited [Put f] fs in
  let room := room_left [Put f] fs pad in
  0 <= room -> frames_size fs' + room < 2 ^ 28 ->
  major = x03 \/ major = x04 /\ Forall (fun f => body_size f < 128) fs' ->
  exists file s t, run_session [k] (Some (tagged_file major minor flags fs pad sound)) = Ok (Some file)
    /\ standard_read file = Some (put (fun y => same_id (item_id y) (lit "COMM")) (IComment l (map bv (bom_bytes be ++ s)) t) (map meant fs)).
Proof.
  intros F K P B f M Kf Pf fs' room R N V.
  destruct (put_session major minor flags fs pad sound k f F K P B M Kf (comment_named f I) R N V) as (file & E & S).
  pose proof (frame_ok_kind _ Kf) as (L & Kd & Kc). destruct (item_bom_iso major fl l be us c Pf L Kd Kc) as (s & t & Es).
  exists file, s, t. split; [exact E|]. rewrite S. unfold f. cbn [frame_id frame_flags]. now rewrite Es.
Qed.

(** ** Files of other programs *)

Lemma sf_size_nonneg ss : 0 <= sf_size ss.
Proof. induction ss as [|s ss IH]; [cbn; lia|]. cbn [sf_size fold_right]. fold (sf_size ss). pose proof (zlen_nonneg (sf_body s)). lia. Qed.

Lemma body_with_zlen e f : zlen (body_with e f) = body_size f.
Proof. unfold body_size, frame_body. destruct f; cbn [body_with]; rewrite ?zlen_app; reflexivity. Qed.

Lemma accepted_parts s : accepted s = true ->
  frame_ok (sf_frame s) = true /\ readable (sf_frame s) = true /\ forallb id_char (frame_id (sf_frame s)) = true
  /\ ((exists id fl t, sf_frame s = FText id fl t) \/ sf_more s = []).
Proof.
  unfold accepted. intros A. repeat match goal with H : _ && _ = true |- _ => apply andb_true_iff in H as (? & ?) end. repeat split; auto.
  destruct (sf_frame s); [left; eauto| | |]; right; destruct (sf_more s); auto; discriminate.
Qed.

Lemma accepted_lengths s : accepted s = true ->
  length (frame_id (sf_frame s)) = 4%nat /\ length (frame_flags (sf_frame s)) = 2%nat
  /\ forallb id_char (frame_id (sf_frame s)) = true /\ 1 <= zlen (sf_body s).
Proof.
  intros A. destruct (accepted_parts s A) as (K & R & C & _). destruct (ok_lengths _ K) as (? & ? & _). repeat split; auto.
  unfold sf_body. rewrite zlen_app, body_with_zlen. pose proof (zlen_nonneg (sf_more s)). unfold body_size.
  destruct (sf_frame s) as [|fl l d c| |id fl body]; cbn [frame_body frame_encoding body_with app] in *; rewrite ?zlen_cons.
  1-3: match goal with |- context [zlen ?l] => match goal with |- 1 <= 1 + zlen l + _ => pose proof (zlen_nonneg l) end end; lia.
  unfold frame_body. cbn [body_with]. destruct body; [discriminate|]. rewrite zlen_cons. pose proof (zlen_nonneg body). lia.
Qed.

Lemma frame_foreign ver sz s rest : accepted s = true -> length sz = 4%nat -> declared_size ver sz = zlen (sf_body s) ->
  frame_read ver (frame_id (sf_frame s) ++ sz ++ frame_flags (sf_frame s) ++ sf_body s) 0 rest (Some (frame_of (sf_frame s))).
Proof.
  intros A Ls D. destruct (accepted_parts s A) as (K & R & C & M). pose proof (frame_ok_common _ K) as (Hi & Hf & _). pose proof (frame_ok_kind _ K) as Hk.
  assert (N0 : cut_off 0 rest) by (now left). destruct s as [enc f more]. unfold sf_body in *. cbn [sf_frame sf_more sf_enc] in *.
  destruct f as [id fl t|fl lang d c|fl m ty d pic|id fl body]; cbn [frame_id frame_flags body_with] in *.
  2-4: destruct M as [(? & ? & ? & M)|M]; [discriminate M|]; subst more; rewrite app_nil_r in *.
  - rewrite <- !app_assoc in *. apply ReadText; auto; try tauto. rewrite D, zlen_app. cbn. lia.
  - apply ReadComment; auto; tauto.
  - assert (P : 0 < zlen pic). { destruct pic; [discriminate|]. rewrite zlen_cons. pose proof (zlen_nonneg pic). lia. }
    pose proof (ReadPicture ver (lit "APIC") sz fl enc m ty d pic 0 rest eq_refl Ls Hf eq_refl
      (proj1 Hk) (proj2 Hk)) as Q. cbv zeta in Q. change (Z.of_nat 0) with 0 in Q. rewrite Z.add_0_r in Q. cbn [repeat] in Q.
    rewrite app_nil_r in Q.
    assert (D' : declared_size ver sz = body_size (FPicture fl m ty d pic)) by (rewrite D; now rewrite <- (body_with_zlen enc)).
    rewrite D' in Q. unfold frame_of. cbn [frame_id frame_flags]. apply Q; auto. rewrite body_size_picture. lia.
  - destruct Hk as (K1 & K2 & K3 & K4).
    pose proof (ReadOther ver id sz fl body 0 rest Hi Ls Hf K1 K2 K3 K4) as Q. rewrite D in Q. cbn [repeat] in Q.
    rewrite app_nil_r in Q. unfold frame_of. cbn [frame_id frame_flags]. rewrite body_size_other. apply Q; auto. lia.
Qed.

Lemma frames_foreign major pad ss : forall pos limit, known_version major = true -> Forall (fun s => accepted s = true) ss ->
  0 <= pad -> 10 <= pos -> pos + sf_size ss + pad = limit + 10 -> sf_size ss < 2 ^ 28 ->
  frames_read (bv major) limit 0 pos (flat_map (sf_image (size_field_of major)) ss ++ zeros pad) (map frame_of (map sf_frame ss)) (pos + sf_size ss).
Proof.
  induction ss as [|s ss IH]; intros pos limit V A P Q L B.
  - change (sf_size []) with 0 in *. rewrite Z.add_0_r in *. cbn [flat_map app map].
    destruct (Z.le_gt_cases limit pos) as [G|G]; [now constructor|].
    destruct (zeros_split pad ltac:(lia)) as (r & ->). apply ReadStop; [exact G|]. constructor.
  - inversion A as [|? ? As A']; subst. destruct (accepted_lengths s As) as (Li & Lf & _ & Bs).
    cbn [sf_size fold_right] in *. fold (sf_size ss) in *. pose proof (sf_size_nonneg ss). cbn [flat_map map]. rewrite <- app_assoc.
    apply ReadFrame with (gap := 0%nat); [lia| |].
    + apply frame_foreign; auto; [apply size_field_length|]. rewrite (declared_size_of major); auto; [|lia].
      unfold known_version in V. apply orb_prop in V. destruct V as [V|V]; apply beq_true in V; now subst major.
    + cbn [Nat.min]. change (Z.of_nat 0) with 0. rewrite Z.add_0_r. cbn [Nat.sub].
      assert (Z : zlen (sf_image (size_field_of major) s) = 10 + zlen (sf_body s)).
      { pose proof (sf_images_zlen (size_field_of major) [s] (size_field_length major)) as Z. cbn [flat_map sf_size fold_right] in Z.
        rewrite app_nil_r in Z. rewrite Z by (repeat constructor; auto). lia. }
      rewrite Z. replace (pos + (10 + zlen (sf_body s) + sf_size ss)) with (pos + (10 + zlen (sf_body s)) + sf_size ss) by lia.
      apply IH; auto; lia.
Qed.

Lemma accepted_images major ss : Forall (fun s => accepted s = true) ss -> zlen (flat_map (sf_image (size_field_of major)) ss) = sf_size ss.
Proof.
  intros A. apply sf_images_zlen; [apply size_field_length|]. eapply Forall_impl; [|exact A]. intros s As. destruct (accepted_lengths s As) as (? & ? & _). auto.
Qed.

Lemma file_foreign major minor flags ss pad sound :
  known_version major = true -> simple_flags flags = true -> Forall (fun s => accepted s = true) ss -> 0 <= pad -> sf_size ss + pad < 2 ^ 28 ->
  let n := sf_size ss + pad in
  let content := standard_file major minor flags ss pad sound in
  file_read content (Some (mkTH (lit "ID3") major minor flags n 0, map frame_of (map sf_frame ss), pad)) /\ audio content = sound.
Proof.
  intros V F A P B n content. pose proof (sf_size_nonneg ss). pose proof (accepted_images major ss A) as Zi.
  set (tail := flat_map (sf_image (size_field_of major)) ss ++ zeros pad).
  assert (Zt : zlen tail = n). { unfold tail. rewrite zlen_app, Zi. unfold zeros. rewrite zlen_repeat. lia. }
  assert (S : content = (header_image major minor flags n ++ tail) ++ sound).
  { unfold content, standard_file, tail. now rewrite <- !app_assoc. }
  assert (Z : zlen (header_image major minor flags n ++ tail) = 10 + n) by (rewrite zlen_app, Zt; reflexivity).
  assert (E : tag_length content = Some (10 + n)).
  { rewrite S. unfold header_image, synchsafe32. cbn [app lit]. cbn -[synchsafe_value known_version is_id3 Z.add]. change (is_id3 _ _ _) with true. rewrite V. cbn [andb]. do 2 f_equal.
    apply (synchsafe_value_synchsafe32 n). lia. }
  split; [split|].
  - rewrite S. unfold header_image, synchsafe32. cbn -[known_version is_id3 has_extended_header]. rewrite (simple_not_extended _ F). apply andb_false_r.
  - rewrite E, S. rewrite firstn_app_exact by (unfold zlen in Z; lia). rewrite app_length.
    replace (Z.to_nat (10 + n) - _)%nat with O by (unfold zlen in Z; lia).
    replace pad with (zlen (header_image major minor flags n ++ tail) + Z.of_nat 0 - (10 + sf_size ss)) by lia.
    assert (Sv : synchsafe_value (synchsafe32 n) = n) by (apply synchsafe_value_synchsafe32; lia).
    rewrite <- Sv at 2. apply ReadPlain with (body := tail); auto; [now apply simple_not_extended|].
    rewrite Sv. apply frames_foreign; auto; lia.
  - unfold audio. rewrite E, S. rewrite skipn_app, skipn_all2 by (unfold zlen in Z; lia).
    replace (Z.to_nat (10 + n) - _)%nat with 0%nat by (unfold zlen in Z; lia). reflexivity.
Qed.

Lemma frames_size_less ss : Forall (fun s => accepted s = true) ss -> frames_size (map sf_frame ss) <= sf_size ss.
Proof.
  induction 1 as [|s ss _ _ IH]; [cbn; lia|]. cbn [map frames_size sf_size fold_right]. fold (sf_size ss). fold (frames_size (map sf_frame ss)).
  unfold sf_body. rewrite zlen_app, body_with_zlen. pose proof (zlen_nonneg (sf_more s)). lia.
Qed.

Lemma accepted_oks ss : Forall (fun s => accepted s = true) ss -> oks (map sf_frame ss).
Proof. intros A. apply Forall_map. eapply Forall_impl; [|exact A]. intros s As. now apply accepted_parts. Qed.

Lemma rewrite_foreign major minor flags ss pad sound :
  known_version major = true -> simple_flags flags = true -> Forall (fun s => accepted s = true) ss -> 0 <= pad -> sf_size ss + pad < 2 ^ 28 ->
  run_session [] (Some (standard_file major minor flags ss pad sound))
  = Ok (Some (tag_bytes major minor flags (sf_size ss + pad) (map sf_frame ss) ++ sound)).
Proof.
  intros V F A P B. destruct (file_foreign major minor flags ss pad sound V F A P B) as (R & Au). cbv zeta in *.
  pose proof (frames_size_less ss A). pose proof (frames_size_nonneg (map sf_frame ss)).
  destruct (any_session _ _ _ _ _ _ _ [] [] R (accepted_oks ss A) B (Forall2_nil _) eq_refl) as (t & t' & E1 & E2 & E3).
  { cbn [edited room_left]. change (2 ^ 31) with 2147483648. lia. }
  cbn [edited room_left] in E3. replace (0 <=? _) with true in E3 by lia. rewrite Au in E3.
  replace (frames_size (map sf_frame ss) + (sf_size ss + pad - frames_size (map sf_frame ss))) with (sf_size ss + pad) in E3 by lia.
  unfold run_session. rewrite E1. cbn [bind]. rewrite E2. cbn [bind]. rewrite E3. reflexivity.
Qed.
