(** What a reader by the standard sees in a file that the library has read and
    written again. *)
From Verif Require Import BaseFacts UtilsFacts StreamFacts FrameFacts HeaderFacts TagFacts.
From Verif Require Import File Calls Spec SpecEdit SpecFile SpecRead SpecSession SpecRewrite SpecStandard SpecRewritten.
From Verif Require Import ListFacts EditFacts WriteFacts HistFacts ClaimFacts RoundFacts FileFacts ReadFacts SessionFacts RewriteFacts StandardFacts StandardFileFacts.
From Coq Require Import Lia ZifyBool ZifyNat.

(** Frames whose size field is the same in both versions. *)
Definition short (major : byte) (fs : list fspec) : Prop := major = x03 \/ major = x04 /\ Forall (fun f => body_size f < 128) fs.

Lemma seen_foreign major minor flags ss pad sound :
  known_version major = true -> simple_flags flags = true -> Forall (fun s => accepted s = true) ss -> 0 <= pad -> sf_size ss + pad < 2 ^ 28 ->
  exists file, run_session [] (Some (standard_file major minor flags ss pad sound)) = Ok (Some file)
    /\ standard_read (standard_file major minor flags ss pad sound) = items_seen major ss
    /\ (major = x03 \/ major = x04 /\ Forall (fun s => body_size (sf_frame s) < 128) ss ->
        standard_read file = items_seen major (map relabelled ss)).
Proof.
  intros V F A P B. eexists. split; [now apply rewrite_foreign|]. split.
  - apply standard_file_read; auto. eapply Forall_impl; [|exact A]. intros s As. now apply accepted_lengths.
  - intros D. replace (map relabelled ss) with (map own (map sf_frame ss)) by (rewrite map_map; reflexivity).
    pose proof (frames_size_less ss A). apply written_items; auto; [now apply accepted_oks| |lia].
    apply Forall_map. rewrite Forall_forall in *. intros s I. destruct (accepted_parts s (A s I)) as (K & R & C & _).
    assert (W : named_well (sf_frame s) = true).
    { unfold named_well. rewrite C. cbn [andb]. assert (Aw : accepted (relabelled s) = true).
      { unfold accepted, relabelled. cbn [sf_frame sf_more]. rewrite K, R, C. now destruct (sf_frame s). }
      apply accepted_lengths in Aw as (_ & _ & _ & Q). rewrite own_relabelled, own_body in Q. unfold body_size. lia. }
    destruct D as [->|(-> & D)]; [now apply own_sized3|]. apply own_sized4; auto.
Qed.

(** ** Files that stay as they are *)

Lemma small_fields n : 0 <= n < 128 -> be32 n = synchsafe32 n.
Proof.
  intros N. unfold be32, synchsafe32. change (2 ^ 24) with 16777216. change (2 ^ 16) with 65536. change (2 ^ 8) with 256. change (2 ^ 7) with 128. change (2 ^ 14) with 16384. change (2 ^ 21) with 2097152.
  rewrite !Z.div_small, !Z.mod_small by lia. reflexivity.
Qed.

Lemma fields_agree major a b : known_version major = true -> 0 <= b <= a -> a < 2 ^ 28 ->
  (size_field_of major a = be32 b <-> a = b /\ (major = x03 \/ major = x04 /\ b < 128)).
Proof.
  intros V N B. change (2 ^ 28) with 268435456 in B. unfold size_field_of. unfold known_version in V.
  destruct (Byte.eqb major x04) eqn:E.
  - apply beq_true in E. subst major. split.
    + intros Q. assert (L : below_128 (be32 b) = true) by (rewrite <- Q; apply below_synchsafe32; lia).
      destruct (be32_sizes b ltac:(change (2 ^ 31) with 2147483648; lia) L) as (S1 & S2).
      rewrite <- Q in S1, S2. rewrite synchsafe_value_synchsafe32 in S1, S2 by (change (2 ^ 28) with 268435456; lia).
      assert (X : a = b /\ b < 128) by lia. tauto.
    + intros (-> & [X|(_ & X)]); [discriminate X|]. symmetry. apply small_fields. lia.
  - rewrite orb_false_r in V. apply beq_true in V. subst major. split.
    + intros Q. apply (f_equal be_value) in Q. rewrite !be_value_be32 in Q. change (2 ^ 32) with 4294967296 in Q. rewrite !Z.mod_small in Q by lia. auto.
    + intros (-> & _). reflexivity.
Qed.

Definition kept_frame (major : byte) (s : sframe) : Prop :=
  sf_body s = frame_body (sf_frame s) /\ (major = x03 \/ major = x04 /\ body_size (sf_frame s) < 128).

Lemma app_parts {A} (a b c d : list A) : length a = length c -> a ++ b = c ++ d -> a = c /\ b = d.
Proof. revert c. induction a as [|x a IH]; intros [|y c] L E; try discriminate L; [now split|]. injection L as L. injection E as -> E. destruct (IH c L E) as (-> & ->). now split. Qed.

Lemma images_kept major ss : known_version major = true -> Forall (fun s => accepted s = true) ss -> sf_size ss < 2 ^ 28 -> forall r1 r2,
  length r1 = (length r2 - Z.to_nat (sf_size ss - frames_size (map sf_frame ss)))%nat ->
  (flat_map (sf_image (size_field_of major)) ss ++ r1 = images be32 (map sf_frame ss) ++ r2
   <-> Forall (kept_frame major) ss /\ r1 = r2).
Proof.
  intros V. induction 1 as [|s ss As A IH]; intros B r1 r2 L.
  - cbn [flat_map map images app]. split; [intros ->; now split|now intros (_ & ->)].
  - cbn [sf_size map frames_size fold_right] in *. fold (sf_size ss) in *. fold (frames_size (map sf_frame ss)) in *.
    pose proof (frames_size_less ss A). pose proof (frames_size_nonneg (map sf_frame ss)).
    destruct (accepted_parts s As) as (K & _). destruct (ok_lengths _ K) as (Li & Lf & _).
    assert (Zs : zlen (sf_body s) = body_size (sf_frame s) + zlen (sf_more s)) by (unfold sf_body; now rewrite zlen_app, body_with_zlen).
    pose proof (body_size_nonneg (sf_frame s)). pose proof (zlen_nonneg (sf_more s)).
    assert (D : size_field_of major (zlen (sf_body s)) = be32 (body_size (sf_frame s)) <->
                zlen (sf_body s) = body_size (sf_frame s) /\ (major = x03 \/ major = x04 /\ body_size (sf_frame s) < 128))
      by (apply fields_agree; auto; lia).
    cbn [flat_map map]. rewrite images_cons. unfold sf_image at 1, frame_image. rewrite <- !app_assoc. split.
    + intros E. apply app_parts in E as (_ & E); [|reflexivity]. apply app_parts in E as (E1 & E); [|now rewrite size_field_length].
      apply app_parts in E as (_ & E); [|reflexivity]. apply D in E1 as (E1 & E2).
      apply app_parts in E as (E3 & E); [|unfold body_size, zlen in E1; lia].
      apply IH in E as (E4 & E5); [|lia|replace (sf_size ss - frames_size (map sf_frame ss)) with (10 + zlen (sf_body s) + sf_size ss - (10 + body_size (sf_frame s) + frames_size (map sf_frame ss))) by lia; exact L].
      split; [|exact E5]. constructor; [|exact E4]. now split.
    + intros (Q & ->). inversion Q as [|? ? (Q1 & Q2) Q3]; subst. f_equal.
      assert (E1 : zlen (sf_body s) = body_size (sf_frame s)) by (rewrite Q1; reflexivity).
      replace (size_field_of major (zlen (sf_body s))) with (be32 (body_size (sf_frame s))) by (symmetry; apply D; auto).
      rewrite Q1. do 3 f_equal. apply IH; auto; [lia|].
      replace (sf_size ss - frames_size (map sf_frame ss)) with (10 + zlen (sf_body s) + sf_size ss - (10 + body_size (sf_frame s) + frames_size (map sf_frame ss))) by lia. exact L.
Qed.

Lemma unchanged_iff major minor flags ss pad sound :
  known_version major = true -> simple_flags flags = true -> Forall (fun s => accepted s = true) ss -> 0 <= pad -> sf_size ss + pad < 2 ^ 28 ->
  let content := standard_file major minor flags ss pad sound in
  (run_session [] (Some content) = Ok (Some content)
   <-> Forall (fun s => sf_body s = frame_body (sf_frame s) /\ (major = x03 \/ major = x04 /\ body_size (sf_frame s) < 128)) ss).
Proof.
  intros V F A P B content. unfold content. rewrite rewrite_foreign by auto. unfold standard_file, tag_bytes. rewrite <- !app_assoc.
  pose proof (frames_size_less ss A). pose proof (frames_size_nonneg (map sf_frame ss)).
  set (h := header_image _ _ _ _). set (z1 := zeros pad). set (z2 := zeros (_ - _)).
  assert (L : length z1 = (length z2 - Z.to_nat (sf_size ss - frames_size (map sf_frame ss)))%nat) by (unfold z1, z2, zeros; rewrite !repeat_length; lia).
  pose proof (images_kept major ss V A ltac:(lia) z1 z2 L) as I. change (kept_frame major) with (fun s => sf_body s = frame_body (sf_frame s) /\ (major = x03 \/ major = x04 /\ body_size (sf_frame s) < 128)) in I.
  split.
  - intros E. injection E as E. rewrite !app_assoc in E. apply app_inv_tail in E. symmetry in E. now apply I in E.
  - intros Q. do 3 f_equal. rewrite !app_assoc. f_equal. symmetry. apply I. split; [exact Q|].
    unfold z1, z2. f_equal. clear - Q. induction Q as [|s ss (Q & _) _ IH]; [cbn; lia|].
    cbn [map frames_size sf_size fold_right]. fold (sf_size ss). fold (frames_size (map sf_frame ss)). rewrite Q. fold (body_size (sf_frame s)). lia.
Qed.

(** ** v2.4: large frames *)

Lemma large_foreign minor flags fs pad sound :
  simple_flags flags = true -> Forall (fun f => sayable f = true /\ readable f = true) fs -> 0 <= pad -> frames_size fs + pad < 2 ^ 28 ->
  let content := tagged_file x04 minor flags fs pad sound in
  exists file, run_session [] (Some content) = Ok (Some file) /\ standard_read content = Some (map meant fs)
    /\ (standard_read file = standard_read content <-> Forall (fun f => body_size f < 128) fs).
Proof.
  intros F K P B content. pose proof (frames_size_nonneg fs).
  assert (S : Forall (fun f => sayable f = true) fs) by (eapply Forall_impl; [|exact K]; cbn beta; tauto).
  assert (E : standard_read content = Some (map meant fs)).
  { unfold content. rewrite own_file, standard_file_read; auto.
    - now apply items_own.
    - apply Forall_map. eapply Forall_impl; [|exact S]. intros f Sf. destruct (sayable_ok f Sf) as (Kf & N). destruct (ok_lengths f Kf) as (? & ? & _).
      unfold named_well in N. apply andb_true_iff in N as (N1 & N2). rewrite own_body. cbn [own sf_frame]. unfold body_size in N2. repeat split; auto; lia.
    - replace (sf_size (map own fs)) with (frames_size fs); [exact B|]. clear. induction fs as [|f fs IH]; [reflexivity|].
      cbn [map frames_size sf_size fold_right]. fold (sf_size (map own fs)). fold (frames_size fs). rewrite own_body, IH. reflexivity. }
  eexists. split; [|split; [exact E|]].
  - unfold content. apply (run_session_written _ x04 minor flags fs pad sound [] []); auto.
    eapply Forall_impl; [|exact K]. cbn beta. intros f (Sf & ?). split; [now apply sayable_ok|assumption].
  - rewrite E. cbn [edited room_left]. apply written4; auto. lia.
Qed.

(** ** v2.4: texts the library does not know *)

Lemma units_one p : 1 <= zlen (units_of p) <= 2.
Proof. unfold units_of. destruct (p <? 65536); unfold zlen; cbn; lia. Qed.

Lemma utf8_shorter : forall n l w, (length l <= n)%nat -> utf8 l = Some w ->
  zlen w <= zlen l /\ (forallb (fun b => bv b <? 128) l = false -> zlen w < zlen l).
Proof.
  induction n as [|n IH]; intros l w L E.
  - destruct l; [|cbn in L; lia]. injection E as <-. unfold zlen. cbn. split; [lia|discriminate].
  - destruct l as [|a l]; [injection E as <-; unfold zlen; cbn; split; [lia|discriminate]|].
    cbn [utf8] in E. cbn [length] in L. cbn [forallb]. destruct (bv a <? 128) eqn:Ea.
    { unfold put_before in E. destruct (utf8 l) as [w'|] eqn:E'; [|discriminate]. injection E as <-. 
      destruct (IH l w' ltac:(lia) E') as (I1 & I2). unfold units_of. replace (bv a <? 65536) with true by lia. cbn [app]. rewrite !zlen_cons. cbn [andb].
      split; [lia|]. intros Q. specialize (I2 Q). lia. }
    cbn [andb]. destruct l as [|b l]; [discriminate|]. cbn [length] in L. destruct (negb (follows b)); [discriminate|].
    assert (One : forall p l0 w0, (length l0 <= n)%nat -> put_before p (utf8 l0) = Some w0 -> zlen w0 <= 2 + zlen l0 /\ (p < 65536 -> zlen w0 <= 1 + zlen l0)).
    { intros p l0 w0 L0 E0. unfold put_before in E0. destruct (utf8 l0) as [w'|] eqn:E'; [|discriminate]. injection E0 as <-.
      destruct (IH l0 w' L0 E') as (I1 & _). rewrite zlen_app. pose proof (units_one p). split; [lia|]. intros Q. unfold units_of. replace (p <? 65536) with true by lia. rewrite zlen_cons, zlen_nil. lia. }
    assert (Lo : forall x, 0 <= low x < 64) by (intros x; unfold low; lia).
    destruct ((194 <=? bv a) && (bv a <? 224)).
    { pose proof (Lo b). apply One in E as (_ & E); [|lia]. rewrite !zlen_cons. specialize (E ltac:(pose proof (Z.mod_pos_bound (bv a) 32 ltac:(lia)); lia)). lia. }
    destruct l as [|c l]; [discriminate|]. cbn [length] in L. destruct (negb (follows c)); [discriminate|]. pose proof (Lo b). pose proof (Lo c).
    destruct ((224 <=? bv a) && (bv a <? 240)).
    { cbv zeta in E. destruct (_ || _); [discriminate|]. apply One in E as (E & _); [|lia]. rewrite !zlen_cons. lia. }
    destruct l as [|d l]; [discriminate|]. cbn [length] in L. cbv zeta in E. destruct (_ && _); [|discriminate]. apply One in E as (E & _); [|lia]. rewrite !zlen_cons. lia.
Qed.

Lemma utf8_ascii l : forallb (fun b => bv b <? 128) l = true -> utf8 l = Some (map bv l).
Proof.
  induction l as [|a l IH]; intros A; [reflexivity|]. cbn [forallb] in A. apply andb_true_iff in A as (Aa & A). cbn [utf8]. rewrite Aa, IH by exact A.
  unfold put_before, units_of. cbn [option_map]. replace (bv a <? 65536) with true by lia. reflexivity.
Qed.

Lemma utf8_same l w : utf8 l = Some w -> (w = map bv l <-> forallb (fun b => bv b <? 128) l = true).
Proof.
  intros E. destruct (utf8_shorter (length l) l w (le_n _) E) as (_ & S). split.
  - intros ->. destruct (forallb _ l) eqn:F; [reflexivity|]. specialize (S eq_refl). rewrite zlen_map in S. lia.
  - intros A. rewrite utf8_ascii in E by exact A. congruence.
Qed.

Lemma text_item major id fl enc c l : plain_flags fl = true -> id_starts id "T" = true -> bytes_eqb id (lit "TXXX") = false ->
  coding_of major enc = Some c -> item_of major id fl (enc :: l) = option_map (IText id) (read_values major c l).
Proof. intros P T N C. unfold item_of. now rewrite P, N, T, C. Qed.

Lemma utf8_item id fl u w : plain_flags fl = true -> id_starts id "T" = true -> bytes_eqb id (lit "TXXX") = false ->
  text_ok (Iso u) = true -> utf8 u = Some w ->
  let s := mkSF x03 (FText id fl (Iso u)) [] in
  item_of x04 id fl (sf_body s) = Some (IText id [w])
  /\ item_of x04 id fl (sf_body (relabelled s)) = Some (IText id [map bv u])
  /\ (w = map bv u <-> forallb (fun b => bv b <? 128) u = true).
Proof.
  intros P T N K U s. cbn [text_ok] in K. pose proof K as K'. apply andb_true_iff in K' as (Kz & _). split; [|split; [|now apply utf8_same]].
  - unfold s, sf_body. cbn [sf_enc sf_frame sf_more body_with app]. rewrite app_nil_r, (text_item _ _ _ _ Utf8) by auto.
    unfold read_values. change (Byte.eqb x04 x04) with true. cbv iota. cbn [read_texts read_text]. unfold text_image. cbn [text_bytes text_end].
    rewrite before_zero_end by exact Kz. now rewrite U.
  - unfold s. rewrite own_relabelled, own_body. cbn [sf_frame]. unfold frame_body. cbn [frame_encoding text_encoding body_with app].
    rewrite (text_item _ _ _ _ Latin1) by auto. pose proof (values_image x04 (Iso u) K) as Vi. cbn [coding_for] in Vi. now rewrite Vi.
Qed.

Lemma values_item id fl t more : plain_flags fl = true -> id_starts id "T" = true -> bytes_eqb id (lit "TXXX") = false -> text_ok t = true -> more <> [] ->
  let s := mkSF (text_encoding t) (FText id fl t) more in
  item_of x04 id fl (sf_body (relabelled s)) = Some (IText id [wtext_of t])
  /\ forall x, item_of x04 id fl (sf_body s) = Some x -> exists v vs, x = IText id (wtext_of t :: v :: vs).
Proof.
  intros P T N K M s. split.
  - unfold s. rewrite own_relabelled, own_body. cbn [sf_frame]. unfold frame_body. cbn [frame_encoding body_with app].
    rewrite (text_item _ _ _ _ _ _ P T N (coding_text x04 t)). now rewrite values_image.
  - unfold s, sf_body. cbn [sf_enc sf_frame sf_more body_with app]. rewrite (text_item _ _ _ _ _ _ P T N (coding_text x04 t)).
    unfold read_values. change (Byte.eqb x04 x04) with true. cbv iota. cbn [read_texts]. rewrite read_image by exact K.
    destruct more as [|b more]; [congruence|]. intros x E. destruct (read_texts _ _ (b :: more)) as [[|v vs]|] eqn:R; [|injection E as <-; eauto|discriminate].
    exfalso. destruct (length _) as [|k]; [discriminate R|]. cbn [read_texts] in R.
    destruct (read_text _ (b :: more)) as [(t', [[|]|])|]; try discriminate R. destruct (read_texts _ _ _); discriminate R.
Qed.

Lemma wide_end l r : forallb (fun b => negb (is_zero b)) l = true ->
  before_zero_unit (flat_map (fun b => [x00; b]) l ++ x00 :: x00 :: r) = (map (fun b => (x00, b)) l, Some r).
Proof.
  induction l as [|b l IH]; intros F; [reflexivity|]. cbn [forallb] in F. apply andb_true_iff in F as (Fb & F). apply negb_true_iff in Fb.
  cbn [flat_map app before_zero_unit map]. change (is_zero x00) with true. cbn [andb]. now rewrite Fb, IH.
Qed.

Lemma be_item id fl b l : plain_flags fl = true -> id_starts id "T" = true -> bytes_eqb id (lit "TXXX") = false ->
  forallb (fun b => negb (is_zero b)) (b :: l) = true ->
  let s := mkSF x02 (FText id fl (Iso [])) (b :: flat_map (fun b => [x00; b]) l ++ [x00; x00]) in
  sf_body s = x02 :: flat_map (fun b => [x00; b]) (b :: l) ++ [x00; x00]
  /\ item_of x04 id fl (sf_body s) = Some (IText id [map bv (b :: l)])
  /\ item_of x04 id fl (sf_body (relabelled s)) = Some (IText id [[]]).
Proof.
  intros P T N F s. assert (E : sf_body s = x02 :: flat_map (fun b => [x00; b]) (b :: l) ++ [x00; x00]) by reflexivity.
  split; [exact E|]. split.
  - rewrite E, (text_item _ _ _ _ Utf16Be) by auto. unfold read_values. change (Byte.eqb x04 x04) with true. cbv iota. cbn [read_texts read_text].
    rewrite wide_end by exact F. cbn [option_map]. rewrite map_map. reflexivity.
  - unfold s. rewrite own_relabelled, own_body. cbn [sf_frame]. unfold frame_body. cbn [frame_encoding text_encoding body_with app].
    rewrite (text_item _ _ _ _ Latin1) by auto. reflexivity.
Qed.

(** ** User-defined texts *)

Lemma user_body major fl t more : plain_flags fl = true -> text_ok t = true ->
  item_of major (lit "TXXX") fl (text_encoding t :: text_image t ++ more) = option_map (fun x => IUser (wtext_of t) (fst x)) (read_text (coding_for t) more).
Proof.
  intros P K. unfold item_of. rewrite P. cbn [negb]. change (bytes_eqb (lit "TXXX") (lit "TXXX")) with true. cbv iota.
  now rewrite coding_text, read_image.
Qed.

Lemma user_item major fl t more : plain_flags fl = true -> text_ok t = true ->
  let s := mkSF (text_encoding t) (FText (lit "TXXX") fl t) more in
  item_of major (lit "TXXX") fl (sf_body s) = option_map (fun x => IUser (wtext_of t) (fst x)) (read_text (coding_for t) more)
  /\ item_of major (lit "TXXX") fl (sf_body (relabelled s)) = Some (IUser (wtext_of t) []).
Proof.
  intros P K s. split; [unfold s, sf_body; cbn [sf_enc sf_frame sf_more body_with app]; now apply user_body|].
  unfold s, relabelled, sf_body. cbn [sf_enc sf_frame sf_more body_with frame_encoding app]. rewrite user_body by auto. now destruct t.
Qed.

Lemma user_value major fl t v : plain_flags fl = true -> text_ok t = true -> text_ok v = true -> is_iso t = is_iso v ->
  let s := mkSF (text_encoding t) (FText (lit "TXXX") fl t) (text_image v) in
  item_of major (lit "TXXX") fl (sf_body s) = Some (IUser (wtext_of t) (wtext_of v))
  /\ item_of major (lit "TXXX") fl (sf_body (relabelled s)) = Some (IUser (wtext_of t) []).
Proof.
  intros P K Kv I s. destruct (user_item major fl t (text_image v) P K) as (E1 & E2). split; [|exact E2].
  fold s in E1. rewrite E1, (iso_coding t v I), read_image_all by exact Kv. reflexivity.
Qed.

(** ** One frame among others *)

Lemma stored_well_cases major f : stored_well major f = true -> major = x03 \/ major = x04 /\ body_size f < 128.
Proof.
  unfold stored_well. intros W. apply orb_prop in W as [W|W]; [left; now apply beq_true|]. apply andb_true_iff in W as (W & L).
  right. split; [now apply beq_true|lia].
Qed.

Lemma items_seen_app major a b : items_seen major (a ++ b) =
  match items_seen major a, items_seen major b with Some x, Some y => Some (x ++ y) | _, _ => None end.
Proof.
  induction a as [|s a IH]; [cbn; now destruct (items_seen major b)|]. cbn [app items_seen]. rewrite IH.
  destruct (item_of _ _ _ _); [|reflexivity]. destruct (items_seen major a); [|reflexivity]. now destruct (items_seen major b).
Qed.

Lemma becomes_items major s x y : accepted s = true -> stored_well major (sf_frame s) = true ->
  item_of major (frame_id (sf_frame s)) (frame_flags (sf_frame s)) (sf_body s) = Some x ->
  item_of major (frame_id (sf_frame s)) (frame_flags (sf_frame s)) (sf_body (relabelled s)) = Some y ->
  becomes major s x y.
Proof.
  intros A W X Y minor flags fs1 fs2 pad sound F Q ss P B content.
  assert (V : known_version major = true) by (destruct (stored_well_cases _ _ W) as [->|(-> & _)]; reflexivity).
  rewrite forallb_forall in Q.
  assert (Q1 : forall f, In f (fs1 ++ fs2) -> sayable f = true /\ readable f = true /\ stored_well major f = true).
  { intros f I. specialize (Q f I). apply andb_true_iff in Q as (Q & ?). apply andb_true_iff in Q as (? & ?). auto. }
  assert (S1 : Forall (fun f => sayable f = true) fs1) by (apply Forall_forall; intros f I; apply Q1, in_or_app; now left).
  assert (S2 : Forall (fun f => sayable f = true) fs2) by (apply Forall_forall; intros f I; apply Q1, in_or_app; now right).
  assert (O : forall f, In f (fs1 ++ fs2) -> accepted (own f) = true).
  { intros f I. destruct (Q1 f I) as (Sf & Rf & _). destruct (sayable_ok f Sf) as (Kf & Nf). unfold named_well in Nf. apply andb_true_iff in Nf as (Nf & _).
    unfold accepted, own. cbn [sf_frame sf_more]. rewrite Kf, Rf, Nf. now destruct f. }
  assert (Ass : Forall (fun s => accepted s = true) ss).
  { unfold ss. apply Forall_app. split; [|apply Forall_app; split; [now repeat constructor|]]; apply Forall_map, Forall_forall; intros f I; apply O, in_or_app; auto. }
  destruct (seen_foreign major minor flags ss pad sound V F Ass P B) as (file & R & E1 & E2).
  split.
  - unfold content. rewrite E1. unfold ss. rewrite !items_seen_app, !items_own by auto. cbn [items_seen]. now rewrite X.
  - exists file. split; [exact R|]. rewrite E2.
    + unfold ss. rewrite !map_app, !map_map. cbn [map]. change (fun x : fspec => relabelled (own x)) with own.
      rewrite !items_seen_app, !items_own by auto. cbn [items_seen]. change (sf_frame (relabelled s)) with (sf_frame s). now rewrite Y.
    + destruct (stored_well_cases _ _ W) as [->|(-> & L)]; [now left|]. right. split; [reflexivity|].
      assert (G : forall f, In f (fs1 ++ fs2) -> body_size f < 128).
      { intros f I. destruct (Q1 f I) as (_ & _ & Wf). apply stored_well_cases in Wf as [Wf|(_ & Wf)]; [discriminate Wf|exact Wf]. }
      unfold ss. apply Forall_app. split; [|apply Forall_app; split; [now repeat constructor|]]; apply Forall_map, Forall_forall; intros f I; apply G, in_or_app; auto.
Qed.

Lemma utf8_becomes id fl u w :
  let s := mkSF x03 (FText id fl (Iso u)) [] in
  accepted s = true -> body_size (sf_frame s) < 128 -> plain_flags fl = true -> bytes_eqb id (lit "TXXX") = false -> utf8 u = Some w ->
  becomes x04 s (IText id [w]) (IText id [map bv u]) /\ (w = map bv u <-> forallb (fun b => bv b <? 128) u = true).
Proof.
  intros s A L P N U. destruct (accepted_parts s A) as (K & _). pose proof (frame_ok_kind _ K) as (T & Kt).
  destruct (utf8_item id fl u w P T N Kt U) as (E1 & E2 & E3). split; [|exact E3]. apply becomes_items; auto.
  unfold stored_well. replace (body_size _ <? 128) with true by lia. reflexivity.
Qed.

Lemma be_becomes id fl b l :
  let s := mkSF x02 (FText id fl (Iso [])) (b :: flat_map (fun b => [x00; b]) l ++ [x00; x00]) in
  accepted s = true -> plain_flags fl = true -> bytes_eqb id (lit "TXXX") = false -> forallb (fun b => negb (is_zero b)) (b :: l) = true ->
  sf_body s = x02 :: flat_map (fun b => [x00; b]) (b :: l) ++ [x00; x00]
  /\ becomes x04 s (IText id [map bv (b :: l)]) (IText id [[]]).
Proof.
  intros s A P N F. destruct (accepted_parts s A) as (K & _). pose proof (frame_ok_kind _ K) as (T & _).
  destruct (be_item id fl b l P T N F) as (E1 & E2 & E3). split; [exact E1|]. apply becomes_items; auto.
Qed.

Lemma values_becomes id fl t more :
  let s := mkSF (text_encoding t) (FText id fl t) more in
  accepted s = true -> body_size (sf_frame s) < 128 -> plain_flags fl = true -> bytes_eqb id (lit "TXXX") = false -> more <> [] ->
  forall x, item_of x04 id fl (sf_body s) = Some x ->
  (exists v vs, x = IText id (wtext_of t :: v :: vs)) /\ becomes x04 s x (IText id [wtext_of t]).
Proof.
  intros s A L P N M x E. destruct (accepted_parts s A) as (K & _). pose proof (frame_ok_kind _ K) as (T & Kt).
  destruct (values_item id fl t more P T N Kt M) as (E1 & E2). split; [now apply E2|]. apply becomes_items; auto.
  unfold stored_well. replace (body_size _ <? 128) with true by lia. reflexivity.
Qed.

Lemma user_becomes major fl t v :
  let s := mkSF (text_encoding t) (FText (lit "TXXX") fl t) (text_image v) in
  accepted s = true -> stored_well major (sf_frame s) = true -> plain_flags fl = true -> text_ok v = true -> is_iso t = is_iso v ->
  becomes major s (IUser (wtext_of t) (wtext_of v)) (IUser (wtext_of t) []).
Proof.
  intros s A W P Kv I. destruct (accepted_parts s A) as (K & _). pose proof (frame_ok_kind _ K) as (_ & Kt).
  destruct (user_value major fl t v P Kt Kv I) as (E1 & E2). now apply becomes_items.
Qed.

(** ** Writing a tag to any file *)

Lemma write3 content t fs mi fl n ext :
  announces_extended content = false -> tag_has t (map frame_of fs) -> Forall (fun f => sayable f = true) fs ->
  t_header t = mkTH (lit "ID3") x03 mi fl n ext -> simple_flags fl = true ->
  frames_size fs <= n -> n < 2 ^ 28 -> 2048 - 2 ^ 31 < t_padding t < 2 ^ 31 ->
  exists file t', ID3v2_write_tag (Some content) (Some t) = Ok (Some file, t') /\ standard_read file = Some (map meant fs).
Proof.
  intros X T S H F L B P. do 2 eexists. split; [eapply write_file; eauto using sayable_oks|]. apply written3; auto.
Qed.

Lemma write4 content t fs mi fl n ext :
  announces_extended content = false -> tag_has t (map frame_of fs) -> Forall (fun f => sayable f = true) fs ->
  t_header t = mkTH (lit "ID3") x04 mi fl n ext -> simple_flags fl = true ->
  frames_size fs <= n -> n < 2 ^ 28 -> 2048 - 2 ^ 31 < t_padding t < 2 ^ 31 ->
  exists file t', ID3v2_write_tag (Some content) (Some t) = Ok (Some file, t')
    /\ (standard_read file = Some (map meant fs) <-> Forall (fun f => body_size f < 128) fs).
Proof.
  intros X T S H F L B P. do 2 eexists. split; [eapply write_file; eauto using sayable_oks|]. apply written4; auto.
Qed.

(** Both versions, before. *)
Lemma tagged_read major minor flags fs pad sound :
  known_version major = true -> simple_flags flags = true -> Forall (fun f => sayable f = true) fs -> 0 <= pad -> frames_size fs + pad < 2 ^ 28 ->
  standard_read (tagged_file major minor flags fs pad sound) = Some (map meant fs).
Proof.
  intros V F S P B. rewrite own_file, standard_file_read; auto.
  - now apply items_own.
  - apply Forall_map. eapply Forall_impl; [|exact S]. intros f Sf. destruct (sayable_ok f Sf) as (Kf & N). destruct (ok_lengths f Kf) as (? & ? & _).
    unfold named_well in N. apply andb_true_iff in N as (N1 & N2). rewrite own_body. cbn [own sf_frame]. unfold body_size in N2. repeat split; auto; lia.
  - replace (sf_size (map own fs)) with (frames_size fs); [exact B|]. clear. induction fs as [|f fs IH]; [reflexivity|].
    cbn [map frames_size sf_size fold_right]. fold (sf_size (map own fs)). fold (frames_size fs). rewrite own_body, IH. reflexivity.
Qed.
