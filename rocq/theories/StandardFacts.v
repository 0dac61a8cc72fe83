(** What a reader by the standard sees in the frames of the library. *)
From Verif Require Import File Spec SpecFile SpecEdit SpecStandard.
From Verif Require Export RoundFacts.

(** ** Strings *)

Lemma before_zero_end s r : forallb (fun c => negb (is_zero c)) s = true -> before_zero (s ++ x00 :: r) = (s, Some r).
Proof.
  induction s as [|b s IH]; intros F; [reflexivity|]. cbn [forallb] in F. apply andb_true_iff in F as (Fb & F).
  cbn [app before_zero]. apply negb_true_iff in Fb. now rewrite Fb, IH.
Qed.
Lemma before_zero_open s : forallb (fun c => negb (is_zero c)) s = true -> before_zero s = (s, None).
Proof.
  induction s as [|b s IH]; intros F; [reflexivity|]. cbn [forallb] in F. apply andb_true_iff in F as (Fb & F).
  cbn [before_zero]. apply negb_true_iff in Fb. now rewrite Fb, IH.
Qed.
Lemma before_unit_end us r : forallb (fun u => negb (is_zero (fst u) && is_zero (snd u))) us = true ->
  before_zero_unit (flat_map (fun u => [fst u; snd u]) us ++ x00 :: x00 :: r) = (us, Some r).
Proof.
  induction us as [|[a b] us IH]; intros F; [reflexivity|]. cbn [forallb fst snd] in F. apply andb_true_iff in F as (Fb & F).
  cbn [flat_map app before_zero_unit fst snd]. apply negb_true_iff in Fb. now rewrite Fb, IH.
Qed.

Definition coding_for (t : text) : coding := match t with Iso _ => Latin1 | Utf16 _ _ => Utf16Bom end.

Lemma coding_text major t : coding_of major (text_encoding t) = Some (coding_for t).
Proof. now destruct t. Qed.

Lemma read_image t r : text_ok t = true -> read_text (coding_for t) (text_image t ++ r) = Some (wtext_of t, Some r).
Proof.
  unfold text_image. destruct t as [s|be us]; cbn [text_ok coding_for text_bytes text_end wtext_of read_text]; intros K.
  - apply andb_true_iff in K as (K & _). rewrite <- app_assoc. cbn [app]. now rewrite before_zero_end.
  - rewrite <- !app_assoc. destruct be; cbn [bom_bytes app Byte.eqb]; rewrite before_unit_end by exact K; reflexivity.
Qed.
Lemma read_image_all t : text_ok t = true -> read_text (coding_for t) (text_image t) = Some (wtext_of t, Some []).
Proof. intros K. rewrite <- (app_nil_r (text_image t)). now apply read_image. Qed.

Lemma values_image major t : text_ok t = true -> read_values major (coding_for t) (text_image t) = Some [wtext_of t].
Proof. intros K. unfold read_values. cbn [read_texts]. rewrite read_image_all by exact K. now destruct (Byte.eqb major x04). Qed.

Lemma iso_coding t u : is_iso t = is_iso u -> coding_for t = coding_for u.
Proof. destruct t, u; cbn; congruence. Qed.

(** ** Frames *)

Lemma body_cons f : 1 <= body_size f -> exists e l, frame_body f = e :: l.
Proof. unfold body_size. destruct (frame_body f); [cbn; lia|eauto]. Qed.

Lemma starts_not_same id c s : id_starts id c = false -> match lit s with x :: _ => x = c | [] => True end -> id <> [] -> bytes_eqb id (lit s) = false.
Proof.
  destruct id as [|x id]; [congruence|]. cbn [id_starts]. intros E M _. destruct (lit s) as [|y l]; [reflexivity|]. subst y. cbn [bytes_eqb]. now rewrite E.
Qed.

Lemma item_meant major f : sayable f = true -> item_of major (frame_id f) (frame_flags f) (frame_body f) = Some (meant f).
Proof.
  unfold sayable, frame_ok, named_well. intros K. unfold item_of.
  destruct f as [id fl t|fl lang d c|fl m ty d pic|id fl body]; cbn [frame_id frame_flags] in *;
    repeat match goal with H : _ && _ = true |- _ => apply andb_true_iff in H as (? & ?) end;
    try match goal with H : plain_flags _ = true |- _ => rewrite H end.
  - cbn [negb frame_body frame_encoding body_with app meant]. match goal with H : negb (bytes_eqb _ _) = true |- _ => apply negb_true_iff in H; rewrite H end.
    match goal with H : id_starts id _ = true |- _ => rewrite H end. rewrite coding_text, values_image; auto.
  - cbn [negb frame_body frame_encoding body_with app meant]. rewrite coding_text.
    match goal with H : len_is lang 3 = true |- _ => apply Nat.eqb_eq in H; rename H into L end.
    destruct lang as [|a [|b [|e [|]]]]; try discriminate L. cbn [app skipn firstn].
    match goal with H : Bool.eqb _ _ = true |- _ => apply eqb_prop in H; rename H into I end.
    change (bytes_eqb (lit "COMM") (lit "TXXX")) with false. change (id_starts (lit "COMM") "T") with false. change (bytes_eqb (lit "COMM") (lit "COMM")) with true. cbv iota.
    rewrite <- (iso_coding d c I). rewrite read_image by assumption. rewrite (iso_coding d c I), read_image_all by assumption. reflexivity.
  - cbn [negb frame_body frame_encoding body_with app meant]. destruct m as [s|]; [|discriminate].
    change (bytes_eqb (lit "APIC") (lit "TXXX")) with false. change (id_starts (lit "APIC") "T") with false. change (bytes_eqb (lit "APIC") (lit "COMM")) with false.
    change (bytes_eqb (lit "APIC") (lit "APIC")) with true. cbv iota. rewrite coding_text. unfold text_image at 1. cbn [text_bytes text_end]. rewrite <- app_assoc. cbn [app].
    rewrite before_zero_end by (match goal with H : text_ok (Iso s) = true |- _ => cbn in H; apply andb_true_iff in H; tauto end).
    rewrite read_image by assumption. reflexivity.
  - destruct (plain_flags fl); [|reflexivity]. cbn [negb frame_body body_with meant]. destruct body as [|e l]; [discriminate|].
    repeat match goal with H : negb _ = true |- _ => apply negb_true_iff in H end.
    assert (id <> []) by (intros ->; discriminate).
    rewrite (starts_not_same id "T" "TXXX"), (starts_not_same id "C" "COMM"), (starts_not_same id "A" "APIC") by (auto; reflexivity).
    now match goal with H : id_starts id "T" = false |- _ => rewrite H end.
Qed.

(** ** Sizes *)

Lemma below_synchsafe32 n : 0 <= n -> below_128 (synchsafe32 n) = true.
Proof.
  intros N. unfold below_128, synchsafe32. cbn [forallb].
  assert (B : forall x, (bv (zb (x mod 128)) <? 128) = true) by (intros x; rewrite bv_zb; lia).
  now rewrite !B.
Qed.

(** A size written as a plain number and read as a synchsafe one. *)
Lemma be32_sizes n : 0 <= n < 2 ^ 31 -> below_128 (be32 n) = true ->
  (n < 128 -> synchsafe_value (be32 n) = n) /\ (128 <= n -> synchsafe_value (be32 n) <= n - 128).
Proof.
  change (2 ^ 31) with 2147483648. unfold below_128, be32. cbn [forallb]. intros N B.
  repeat (apply andb_true_iff in B as (? & B)). rewrite !bv_zb in *.
  rewrite synchsafe_sum by (rewrite !bv_zb; lia). rewrite !bv_zb.
  change (2 ^ 24) with 16777216 in *. change (2 ^ 16) with 65536 in *. change (2 ^ 8) with 256 in *. change (2 ^ 7) with 128. change (2 ^ 14) with 16384. change (2 ^ 21) with 2097152.
  lia.
Qed.

(** ** Tags *)

Lemma id_not_zeros id l : length id = 4%nat -> forallb id_char id = true -> forallb is_zero (id ++ l) = false.
Proof.
  destruct id as [|a id]; [discriminate|]. intros _. cbn [forallb app]. intros E. apply andb_true_iff in E as (E & _).
  unfold id_char in E. unfold is_zero. destruct (Byte.eqb a x00) eqn:Z; [|reflexivity]. apply Byte.byte_dec_bl in Z. subst a. discriminate.
Qed.

Lemma items_step fuel major id sz fl l : length id = 4%nat -> length sz = 4%nat -> length fl = 2%nat -> forallb id_char id = true ->
  read_items (S fuel) major (id ++ sz ++ fl ++ l) =
    match size_of_frame major sz with
    | Some m =>
        if (1 <=? m) && (m <=? zlen l) then
          match item_of major id fl (firstn (Z.to_nat m) l) with
          | Some x => option_map (cons x) (read_items fuel major (skipn (Z.to_nat m) l))
          | None => None
          end
        else None
    | None => None
    end.
Proof.
  intros Li Ls Lf C. pose proof (id_not_zeros id (sz ++ fl ++ l) Li C) as Z.
  cbn [read_items]. rewrite Z. clear Z.
  destruct id as [|i1 [|i2 [|i3 [|i4 [|]]]]]; try discriminate Li. destruct sz as [|s1 [|s2 [|s3 [|s4 [|]]]]]; try discriminate Ls.
  destruct fl as [|f1 [|f2 [|]]]; try discriminate Lf. cbn [app]. rewrite C. cbn [andb]. reflexivity.
Qed.

Lemma items_zeros fuel major n : read_items (S fuel) major (zeros n) = Some [].
Proof.
  cbn [read_items]. replace (forallb is_zero (zeros n)) with true; [reflexivity|].
  unfold zeros. symmetry. apply forallb_forall. intros b I. apply repeat_spec in I. now subst b.
Qed.

(** Readable frames, whatever is in them. *)
Definition well_sized (major : byte) (sf : Z -> list byte) (s : sframe) : Prop :=
  length (frame_id (sf_frame s)) = 4%nat /\ length (frame_flags (sf_frame s)) = 2%nat /\ forallb id_char (frame_id (sf_frame s)) = true /\
  1 <= zlen (sf_body s) /\ length (sf (zlen (sf_body s))) = 4%nat /\ size_of_frame major (sf (zlen (sf_body s))) = Some (zlen (sf_body s)).

Definition item_in (major : byte) (s : sframe) : option item := item_of major (frame_id (sf_frame s)) (frame_flags (sf_frame s)) (sf_body s).

Fixpoint all_of {A} (l : list (option A)) (k : option (list A)) : option (list A) :=
  match l with
  | [] => k
  | Some a :: l => option_map (cons a) (all_of l k)
  | None :: _ => None
  end.

Lemma items_prefix major sf ss rest fuel : Forall (well_sized major sf) ss -> (length ss <= fuel)%nat ->
  read_items fuel major (flat_map (sf_image sf) ss ++ rest) = all_of (map (item_in major) ss) (read_items (fuel - length ss) major rest).
Proof.
  intros W. revert fuel. induction W as [|s ss (Li & Lf & C & B & Ls & Sz) W IH]; intros fuel F.
  - cbn [length]. now rewrite Nat.sub_0_r.
  - cbn [length] in *. destruct fuel as [|fuel]; [lia|]. cbn [flat_map map all_of]. unfold sf_image at 1. rewrite <- !app_assoc.
    rewrite items_step, Sz by auto. rewrite zlen_app. pose proof (zlen_nonneg (flat_map (sf_image sf) ss ++ rest)).
    replace ((1 <=? zlen (sf_body s)) && _) with true by lia.
    unfold zlen at 1 2. rewrite Nat2Z.id, firstn_app, firstn_all, Nat.sub_diag, skipn_app, skipn_all, Nat.sub_diag. cbn [firstn skipn]. rewrite app_nil_r. cbn [app].
    change (item_of major _ _ (sf_body s)) with (item_in major s). destruct (item_in major s); [|reflexivity].
    rewrite IH by lia. reflexivity.
Qed.

Lemma well_sized_count major sf ss : Forall (well_sized major sf) ss -> Z.of_nat (length ss) <= zlen (flat_map (sf_image sf) ss).
Proof.
  induction 1 as [|s ss (Li & _) _ IH]; [cbn; lia|]. cbn [flat_map length]. unfold sf_image at 1. rewrite !zlen_app.
  unfold zlen in *. lia.
Qed.

Lemma standard_read_tag major minor flags n l sound : known_version major = true -> simple_flags flags = true -> zlen l = n -> n < 2 ^ 28 ->
  standard_read (header_image major minor flags n ++ l ++ sound) = read_items (S (Z.to_nat n)) major l.
Proof.
  intros V F L B. pose proof (zlen_nonneg l).
  unfold header_image. change (lit "ID3") with ["I"; "D"; "3"]%byte. unfold synchsafe32. cbn [app standard_read].
  fold (synchsafe32 n). rewrite V, F. rewrite below_synchsafe32 by lia. rewrite synchsafe_value_synchsafe32 by lia.
  rewrite zlen_app. pose proof (zlen_nonneg sound). replace (n <=? zlen l + zlen sound) with true by lia. cbn [is_id3 Byte.eqb andb].
  assert (E : Z.to_nat n = length l) by (unfold zlen in L; lia). rewrite E, firstn_app, firstn_all, Nat.sub_diag. cbn [firstn]. now rewrite app_nil_r.
Qed.

Lemma standard_read_frames major minor flags sf ss pad sound :
  known_version major = true -> simple_flags flags = true -> Forall (well_sized major sf) ss -> 0 <= pad ->
  zlen (flat_map (sf_image sf) ss) + pad < 2 ^ 28 ->
  standard_read (header_image major minor flags (zlen (flat_map (sf_image sf) ss) + pad) ++ flat_map (sf_image sf) ss ++ zeros pad ++ sound) =
  all_of (map (item_in major) ss) (Some []).
Proof.
  intros V F W P B. rewrite (app_assoc (flat_map _ ss)). rewrite standard_read_tag; auto.
  2: { rewrite zlen_app. f_equal. unfold zeros. rewrite zlen_repeat. lia. }
  pose proof (well_sized_count _ _ _ W) as C. rewrite items_prefix by (auto; lia).
  set (k := Z.to_nat _) in *. replace (S k - length ss)%nat with (S (k - length ss)) by lia. now rewrite items_zeros.
Qed.

(** ** The library's frames *)

Lemma own_body f : sf_body (own f) = frame_body f.
Proof. apply app_nil_r. Qed.
Lemma own_image sf f : sf_image sf (own f) = frame_image sf f.
Proof. unfold sf_image, frame_image, body_size. now rewrite own_body. Qed.
Lemma own_images sf fs : flat_map (sf_image sf) (map own fs) = images sf fs.
Proof. unfold images. induction fs as [|f fs IH]; [reflexivity|]. cbn [map flat_map]. now rewrite own_image, IH. Qed.

Lemma ok_lengths f : frame_ok f = true -> length (frame_id f) = 4%nat /\ length (frame_flags f) = 2%nat /\ body_size f + 10 < 2 ^ 31.
Proof. unfold frame_ok, len_is. intros K. repeat (apply andb_true_iff in K as (K & ?)). apply Nat.eqb_eq in K. match goal with H : Nat.eqb _ 2 = true |- _ => apply Nat.eqb_eq in H end. repeat split; auto. lia. Qed.

Lemma own_sized3 f : frame_ok f = true -> named_well f = true -> well_sized x03 be32 (own f).
Proof.
  intros K W. destruct (ok_lengths f K) as (Li & Lf & B). unfold named_well in W. apply andb_true_iff in W as (C & P).
  unfold well_sized. rewrite own_body. cbn [own sf_frame]. fold (body_size f). repeat split; auto; try lia.
  unfold size_of_frame. change (Byte.eqb x03 x04) with false. cbv iota. rewrite be_value_be32. f_equal. apply Z.mod_small. change (2 ^ 32) with 4294967296. change (2 ^ 31) with 2147483648 in B. lia.
Qed.
Lemma own_sized4 f : frame_ok f = true -> named_well f = true -> body_size f < 128 -> well_sized x04 be32 (own f).
Proof.
  intros K W S. destruct (ok_lengths f K) as (Li & Lf & B). unfold named_well in W. apply andb_true_iff in W as (C & P).
  unfold well_sized. rewrite own_body. cbn [own sf_frame]. fold (body_size f). repeat split; auto; try lia.
  unfold size_of_frame. change (Byte.eqb x04 x04) with true. cbv iota.
  assert (E : below_128 (be32 (body_size f)) = true).
  { unfold below_128, be32. cbn [forallb]. rewrite !bv_zb. change (2 ^ 24) with 16777216. change (2 ^ 16) with 65536. change (2 ^ 8) with 256. lia. }
  rewrite E. f_equal. apply be32_sizes; auto. change (2 ^ 31) with 2147483648. lia.
Qed.

Lemma all_of_app {A} (l m : list (option A)) k : all_of (l ++ m) k = all_of l (all_of m k).
Proof. induction l as [|[a|] l IH]; cbn [app all_of]; [reflexivity|now rewrite IH|reflexivity]. Qed.
Lemma all_of_some {A} (l : list A) k : all_of (map Some l) k = option_map (app l) k.
Proof. induction l as [|a l IH]; cbn [map all_of]; [now destruct k|]. rewrite IH. now destruct k. Qed.
Lemma all_of_some_inv {A} (l : list (option A)) x : all_of l (Some []) = Some x -> l = map Some x.
Proof.
  revert x. induction l as [|[a|] l IH]; cbn [all_of]; intros x E; [now injection E as <-| |discriminate].
  destruct (all_of l (Some [])) as [y|]; [|discriminate]. injection E as <-. cbn [map]. f_equal. now apply IH.
Qed.

Lemma own_items major fs : Forall (fun f => sayable f = true) fs -> map (item_in major) (map own fs) = map Some (map meant fs).
Proof.
  induction 1 as [|f fs S _ IH]; [reflexivity|]. cbn [map]. f_equal; [|exact IH]. unfold item_in. rewrite own_body. now apply item_meant.
Qed.

(** ** Frames that are cut off *)

Definition cost (c : coding) (v : wtext) : Z := match c with Utf16Bom => 4 + 2 * zlen v | _ => 1 + zlen v end.
Definition library_coding (c : coding) : bool := match c with Latin1 | Utf16Bom => true | _ => false end.

Lemma before_zero_cost l s r : before_zero l = (s, Some r) -> zlen l = zlen s + 1 + zlen r.
Proof.
  revert s r. induction l as [|b l IH]; cbn [before_zero]; intros s r E; [discriminate|].
  destruct (is_zero b); [injection E as <- <-; rewrite zlen_cons, zlen_nil; lia|].
  destruct (before_zero l) as (s', r'). injection E as <- ->. rewrite !zlen_cons, (IH s' r) by reflexivity. lia.
Qed.
Lemma before_zero_most l s r : before_zero l = (s, r) -> zlen s <= zlen l.
Proof.
  revert s r. induction l as [|b l IH]; cbn [before_zero]; intros s r E; [injection E as <- <-; lia|].
  pose proof (zlen_nonneg l). destruct (is_zero b); [injection E as <- <-; rewrite zlen_cons, zlen_nil; lia|].
  destruct (before_zero l) as (s', r') eqn:El. injection E as <- ->. rewrite !zlen_cons. pose proof (IH s' r eq_refl). lia.
Qed.
Lemma unit_ind (P : list byte -> Prop) : P [] -> (forall a, P [a]) -> (forall a b l, P l -> P (a :: b :: l)) -> forall l, P l.
Proof. intros N O T l. assert (H : P l /\ forall a, P (a :: l)); [|apply H]. induction l as [|a l (IH & IH1)]; split; auto. Qed.
Lemma before_unit_cost l : forall s r, before_zero_unit l = (s, Some r) -> zlen l = 2 * zlen s + 2 + zlen r.
Proof.
  induction l as [|a|a b l IH] using unit_ind; cbn [before_zero_unit]; intros s r E; try discriminate.
  destruct (is_zero a && is_zero b); [injection E as <- <-; unfold zlen; cbn [length]; lia|].
  destruct (before_zero_unit l) as (s', r'). injection E as <- ->. rewrite !zlen_cons, (IH s' r) by reflexivity. lia.
Qed.
Lemma before_unit_most l : forall s r, before_zero_unit l = (s, r) -> 2 * zlen s <= zlen l.
Proof.
  induction l as [|a|a b l IH] using unit_ind; cbn [before_zero_unit]; intros s r E.
  - injection E as <- <-. unfold zlen; cbn [length]; lia.
  - injection E as <- <-. unfold zlen; cbn [length]; lia.
  - pose proof (zlen_nonneg l). destruct (is_zero a && is_zero b); [injection E as <- <-; unfold zlen; cbn [length]; lia|].
    destruct (before_zero_unit l) as (s', r') eqn:El. injection E as <- ->. rewrite !zlen_cons. pose proof (IH s' r eq_refl). lia.
Qed.

Lemma text_cost c l v r : library_coding c = true -> read_text c l = Some (v, Some r) -> zlen l = cost c v + zlen r.
Proof.
  destruct c; try discriminate; intros _; cbn [read_text cost].
  - destruct (before_zero l) as (s, r') eqn:E. intros X. injection X as <- ->. rewrite zlen_map, (before_zero_cost _ _ _ E). lia.
  - destruct l as [|a [|b l]]; try discriminate. destruct (_ || _); [|discriminate].
    destruct (before_zero_unit l) as (s, r') eqn:E. intros X. injection X as <- ->. rewrite !zlen_cons, zlen_map, (before_unit_cost _ _ _ E). lia.
Qed.
Lemma text_most c l v r : library_coding c = true -> read_text c l = Some (v, r) -> cost c v <= zlen l + 4.
Proof.
  destruct c; try discriminate; intros _; cbn [read_text cost].
  - destruct (before_zero l) as (s, r') eqn:E. intros X. injection X as <- <-. rewrite zlen_map. pose proof (before_zero_most _ _ _ E). lia.
  - destruct l as [|a [|b l]]; try discriminate; [intros X; injection X as <- <-; unfold zlen; cbn [length]; lia|]. destruct (_ || _); [|discriminate].
    destruct (before_zero_unit l) as (s, r') eqn:E. intros X. injection X as <- <-. rewrite !zlen_cons, zlen_map. pose proof (before_unit_most _ _ _ E). lia.
Qed.
Lemma image_cost t : zlen (text_image t) = cost (coding_for t) (wtext_of t).
Proof.
  unfold text_image. rewrite zlen_app. destruct t as [s|be us]; cbn [text_bytes text_end coding_for cost wtext_of].
  - rewrite zlen_map, zlen_cons, zlen_nil. lia.
  - rewrite zlen_app, zlen_units, zlen_map. destruct be; cbn [bom_bytes]; rewrite !zlen_cons, !zlen_nil; lia.
Qed.
Lemma coding_for_library t : library_coding (coding_for t) = true.
Proof. now destruct t. Qed.

Lemma firstn_cons_z {A} (a : A) l m : 1 <= m -> firstn (Z.to_nat m) (a :: l) = a :: firstn (Z.to_nat (m - 1)) l.
Proof. intros M. replace (Z.to_nat m) with (S (Z.to_nat (m - 1))) by lia. reflexivity. Qed.
Lemma zlen_firstn {A} (l : list A) m : 0 <= m <= zlen l -> zlen (firstn (Z.to_nat m) l) = m.
Proof. unfold zlen. intros M. rewrite firstn_length. lia. Qed.

Lemma values_cost major c l v : library_coding c = true -> read_values major c l = Some [v] -> cost c v <= zlen l + 4.
Proof.
  intros L. unfold read_values. destruct (Byte.eqb major x04).
  - cbn [read_texts]. destruct (read_text c l) as [(t, [[|b r]|])|] eqn:E; try discriminate.
    + intros X. injection X as <-. eapply text_most; eauto.
    + destruct (read_texts (length l) c (b :: r)) as [[|]|] eqn:F; try discriminate. 
      intros X. exfalso. destruct (length l); [discriminate|]. cbn [read_texts] in F.
      destruct (read_text c (b :: r)) as [(t', [[|]|])|]; try discriminate. destruct (read_texts _ _ _); discriminate.
    + intros X. injection X as <-. eapply text_most; eauto.
  - destruct (read_text c l) as [(t, r)|] eqn:E; [|discriminate]. intros X. injection X as <-. eapply text_most; eauto.
Qed.

Lemma item_cut major f m : sayable f = true -> 1 <= m <= body_size f - 5 ->
  item_of major (frame_id f) (frame_flags f) (firstn (Z.to_nat m) (frame_body f)) <> Some (meant f).
Proof.
  intros S M. assert (Z : zlen (firstn (Z.to_nat m) (frame_body f)) = m) by (apply zlen_firstn; unfold body_size in M; lia).
  destruct (body_cons f ltac:(lia)) as (e & l & B).
  unfold sayable, frame_ok, named_well in S. unfold item_of. unfold body_size in M.
  destruct f as [id fl t|fl lang d c|fl mt ty d pic|id fl body]; cbn [frame_id frame_flags] in *;
    repeat match goal with H : _ && _ = true |- _ => apply andb_true_iff in H as (? & ?) end;
    try match goal with H : plain_flags _ = true |- _ => rewrite H end; cbn [negb].
  - rewrite B in *. cbn [frame_body frame_encoding body_with app] in B. injection B as <- <-. rewrite firstn_cons_z in * by lia.
    rewrite zlen_cons in *.
    match goal with H : negb (bytes_eqb _ _) = true |- _ => apply negb_true_iff in H; rewrite H end.
    match goal with H : id_starts id _ = true |- _ => rewrite H end. rewrite coding_text. cbn [meant]. intros X.
    destruct (read_values _ _ _) as [vs|] eqn:V; [|discriminate]. injection X as ->.
    apply values_cost in V; [|apply coding_for_library]. rewrite image_cost in M. lia.
  - rewrite B in *. cbn [frame_body frame_encoding body_with app] in B. injection B as <- <-. rewrite firstn_cons_z in * by lia.
    rewrite zlen_cons in *. rewrite coding_text. set (q := firstn _ _) in *.
    change (bytes_eqb (lit "COMM") (lit "TXXX")) with false. change (id_starts (lit "COMM") "T") with false. change (bytes_eqb (lit "COMM") (lit "COMM")) with true. cbv iota.
    cbn [meant]. intros X. destruct (read_text _ (skipn 3 q)) as [(a, [r|])|] eqn:V; try discriminate.
    destruct (read_text _ r) as [(u, r')|] eqn:W; [|discriminate]. cbn [option_map fst] in X.
    assert (X1 : firstn 3 q = lang) by (exact (f_equal (fun x => match x with Some (IComment y _ _) => y | _ => [] end) X)). injection X as _ -> ->.
    apply text_cost in V; [|apply coding_for_library]. apply text_most in W; [|apply coding_for_library].
    match goal with H : Bool.eqb _ _ = true |- _ => apply eqb_prop in H; rename H into I end.
    match goal with H : len_is lang 3 = true |- _ => apply Nat.eqb_eq in H; rename H into L end.
    rewrite !zlen_app, !image_cost, (iso_coding d c I) in M. 
    assert (zlen (skipn 3 q) <= zlen q) by (unfold zlen; rewrite skipn_length; lia).
    assert (zlen q = 3 + zlen (skipn 3 q)).
    { rewrite <- (firstn_skipn 3 q) at 1. rewrite zlen_app, X1. unfold zlen at 1. lia. }
    unfold zlen at 1 in M. rewrite L in M. lia.
  - rewrite B in *. cbn [frame_body frame_encoding body_with app] in B. injection B as <- <-. rewrite firstn_cons_z in * by lia.
    rewrite zlen_cons in *. rewrite coding_text. set (q := firstn _ _) in *. destruct mt as [s|]; [|discriminate].
    change (bytes_eqb (lit "APIC") (lit "TXXX")) with false. change (id_starts (lit "APIC") "T") with false. change (bytes_eqb (lit "APIC") (lit "COMM")) with false.
    change (bytes_eqb (lit "APIC") (lit "APIC")) with true. cbv iota. cbn [meant wtext_of]. intros X.
    destruct (before_zero q) as (mi & [[|k r]|]) eqn:Q; try discriminate. apply before_zero_cost in Q.
    destruct (read_text _ r) as [(a, [r'|])|] eqn:V; try discriminate. injection X as X1 -> -> ->.
    apply text_cost in V; [|apply coding_for_library]. rewrite zlen_app, zlen_cons, zlen_app, !image_cost in M. cbn [coding_for cost wtext_of] in M.
    rewrite <- X1 in M. rewrite zlen_map in M. rewrite zlen_cons in Q. lia.
  - cbn [frame_body body_with] in *. subst body.
    assert (X : forall x, Some (IOther id fl x) = Some (IOther id fl (e :: l)) -> zlen x = zlen (e :: l)) by congruence.
    cbn [meant]. destruct (plain_flags fl); cbn [negb]; [|intros Y; apply X in Y; lia].
    rewrite firstn_cons_z in * by lia.
    repeat match goal with H : negb _ = true |- _ => apply negb_true_iff in H end.
    assert (id <> []) by (intros ->; discriminate).
    rewrite (starts_not_same id "T" "TXXX"), (starts_not_same id "C" "COMM"), (starts_not_same id "A" "APIC") by (auto; reflexivity).
    match goal with H : id_starts id "T" = false |- _ => rewrite H end. intros Y. apply X in Y. lia.
Qed.
