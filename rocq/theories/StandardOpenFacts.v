(** Texts without terminator, which the standard allows. *)
From Verif Require Import BaseFacts UtilsFacts StreamFacts FrameFacts HeaderFacts TagFacts ParseFacts.
From Verif Require Import File Calls Spec SpecEdit SpecFile SpecRead SpecSession SpecRewrite SpecStandard SpecRewritten.
From Verif Require Import ListFacts EditFacts WriteFacts HistFacts ClaimFacts RoundFacts FileFacts ReadFacts SessionFacts RewriteFacts StandardFacts StandardFileFacts StandardKeepFacts.
From Coq Require Import Lia ZifyBool ZifyNat.

Lemma app_same_length {A} (a b c d : list A) : length a = length c -> a ++ b = c ++ d -> a = c /\ b = d.
Proof. revert c. induction a as [|x a IH]; intros [|y c] L E; try discriminate L; [now split|]. injection E as -> E. destruct (IH c) as (-> & ->); auto. Qed.

Lemma frame_read_det ver u g r f u' g' r' f' : zlen (u ++ r) < 2 ^ 31 ->
  frame_read ver u g r f -> frame_read ver u' g' r' f' -> u ++ r = u' ++ r' -> u = u' /\ r = r' /\ f = f'.
Proof.
  intros L H H' E. assert (F : fits [] (ahead (u ++ r) 0)) by (unfold fits; rewrite zlen_ahead; unfold zlen in *; cbn [length]; lia).
  pose proof (frame_read_complete ver u g r f [] 0 H F) as P. rewrite E in F, P.
  rewrite (frame_read_complete ver u' g' r' f' [] 0 H' F) in P. rewrite !Nat.min_0_r, !ahead_O in P. cbn [app] in P.
  apply (f_equal (fun o => match o with Ok (f, s) => Some (f, cs_cursor s) | _ => None end)) in P. cbn [at_pos cs_cursor] in P.
  assert (P1 : f' = f) by congruence. assert (P2 : zlen (cells u') = zlen (cells u)) by congruence.
  rewrite !zlen_cells in P2. destruct (app_same_length u r u' r') as (? & ?); auto. unfold zlen in P2. lia.
Qed.

(** The frames before are read; the one without terminator is not. *)
Lemma no_frames_read major s rest ss : forall pos limit fs fin, known_version major = true -> Forall (fun s => accepted s = true) ss ->
  length (frame_id (sf_frame s)) = 4%nat -> length (frame_flags (sf_frame s)) = 2%nat ->
  id_starts (frame_id (sf_frame s)) "T" = true -> forall enc u, sf_body s = enc :: u -> u <> [] -> unterminated u ->
  pos + sf_size ss < limit ->
  sf_size ss < 2 ^ 28 -> zlen (sf_body s) < 2 ^ 28 -> zlen rest < 2 ^ 29 ->
  ~ frames_read (bv major) limit 0 pos (flat_map (sf_image (size_field_of major)) ss ++ sf_image (size_field_of major) s ++ rest) fs fin.
Proof.
  induction ss as [|s1 ss IH]; intros pos limit fs fin V A Li Lf T enc u Eu Nu U Ps B Bs Br R.
  - change (sf_size []) with 0 in *. cbn [flat_map app] in R.
    assert (X : exists f, exists used gap r, frame_read (bv major) used gap r f /\ used ++ r = sf_image (size_field_of major) s ++ rest).
    { inversion R; subst; [lia|eauto 10|]. eauto 10. }
    destruct X as (f & used & gap & r & X & E).
    assert (Zs : zlen (sf_image (size_field_of major) s) = 10 + zlen (sf_body s)).
    { unfold sf_image. rewrite !zlen_app. pose proof (size_field_length major (zlen (sf_body s))). unfold zlen in *. lia. }
    assert (F : fits [] (ahead (used ++ r) 0)).
    { unfold fits. rewrite E, zlen_ahead, zlen_app, Zs. change (zlen (@nil cell)) with 0. lia. }
    pose proof (frame_read_complete _ _ _ _ _ [] 0 X F) as Q. rewrite E in Q, F.
    rewrite ahead_O in Q, F. unfold sf_image in Q, F. rewrite Eu in Q, F. rewrite cells_app in Q, F.
    change (enc :: u) with ([enc] ++ u) in Q, F.
    rewrite text_unterminated in Q; auto. 1: discriminate Q. 1: apply size_field_length.
    rewrite (declared_size_of major); [now rewrite zlen_app|..]; auto.
    + unfold known_version in V. apply orb_prop in V. destruct V as [V|V]; apply beq_true in V; now subst major.
    + change ([enc] ++ u) with (enc :: u). rewrite <- Eu. pose proof (zlen_nonneg (sf_body s)). lia.
  - inversion A as [|? ? As A']; subst. destruct (accepted_lengths s1 As) as (Li1 & Lf1 & _ & Bs1).
    cbn [sf_size fold_right] in *. fold (sf_size ss) in *. pose proof (sf_size_nonneg ss). cbn [flat_map] in R. rewrite <- app_assoc in R.
    set (tail := flat_map (sf_image (size_field_of major)) ss ++ sf_image (size_field_of major) s ++ rest) in *.
    assert (G : frame_read (bv major) (sf_image (size_field_of major) s1) 0 tail (Some (frame_of (sf_frame s1)))).
    { apply frame_foreign; auto; [apply size_field_length|]. rewrite (declared_size_of major); auto; [|lia].
      unfold known_version in V. apply orb_prop in V. destruct V as [V|V]; apply beq_true in V; now subst major. }
    assert (Z1 : zlen (sf_image (size_field_of major) s1) = 10 + zlen (sf_body s1)).
    { unfold sf_image. rewrite !zlen_app. pose proof (size_field_length major (zlen (sf_body s1))). unfold zlen in *. lia. }
    assert (L : zlen (sf_image (size_field_of major) s1 ++ tail) < 2 ^ 31).
    { rewrite zlen_app, Z1. unfold tail. rewrite !zlen_app. pose proof (accepted_images major ss A') as Zi. rewrite Zi.
      unfold sf_image at 1. rewrite !zlen_app. pose proof (size_field_length major (zlen (sf_body s))). unfold zlen in *. lia. }
    inversion R as [|? ? ? ? H0|? ? used gap r f fs' ? Hp Hf Hr]; subst.
    + lia.
    + destruct (frame_read_det _ _ _ _ _ _ _ _ _ L G H0 eq_refl) as (_ & _ & X). discriminate X.
    + destruct (frame_read_det _ _ _ _ _ _ _ _ _ L G Hf ltac:(congruence)) as (Eu1 & Et & _). subst used r.
      cbn [Nat.sub] in Hr. rewrite Nat.min_0_r in Hr. change (Z.of_nat 0) with 0 in Hr.
      eapply (IH _ _ _ _ V A' Li Lf T enc u Eu Nu U); [| | | |exact Hr]; lia.
Qed.

(** A frame of these bytes. *)
Lemma open_file major minor flags ss1 ss2 id fl enc u pad sound :
  known_version major = true -> simple_flags flags = true -> Forall (fun s => accepted s = true) (ss1 ++ ss2) ->
  length id = 4%nat -> forallb id_char id = true -> id_starts id "T" = true -> length fl = 2%nat -> u <> [] -> unterminated u ->
  let ss := ss1 ++ mkSF x00 (FOther id fl (enc :: u)) [] :: ss2 in
  0 <= pad -> sf_size ss + pad < 2 ^ 28 ->
  let content := standard_file major minor flags ss pad sound in
  standard_read content = items_seen major ss /\ exists e, ID3v2_read_tag (Some content) = Ub e.
Proof.
  intros V F A Li C T Lf Nu U ss P B content. apply Forall_app in A as (A1 & A2).
  set (s := mkSF x00 (FOther id fl (enc :: u)) []) in *.
  assert (Sb : sf_body s = enc :: u) by apply app_nil_r.
  assert (W : Forall (fun s => length (frame_id (sf_frame s)) = 4%nat /\ length (frame_flags (sf_frame s)) = 2%nat
                   /\ forallb id_char (frame_id (sf_frame s)) = true /\ 1 <= zlen (sf_body s)) ss).
  { apply Forall_app. split; [|constructor].
    - eapply Forall_impl; [|exact A1]. intros x Ax. now apply accepted_lengths.
    - rewrite Sb, zlen_cons. pose proof (zlen_nonneg u). cbn [s sf_frame frame_id frame_flags]. repeat split; auto; lia.
    - eapply Forall_impl; [|exact A2]. intros x Ax. now apply accepted_lengths. }
  split; [now apply standard_file_read|].
  destruct (read_file_exactly content) as [(r & t & R & _)|(_ & R)]; [exfalso|exact R].
  assert (Z : zlen (flat_map (sf_image (size_field_of major)) ss) = sf_size ss).
  { apply sf_images_zlen; [apply size_field_length|]. eapply Forall_impl; [|exact W]. cbn beta. tauto. }
  set (n := sf_size ss + pad) in *. pose proof (sf_size_nonneg ss).
  set (tail := flat_map (sf_image (size_field_of major)) ss ++ zeros pad).
  assert (Zt : zlen tail = n). { unfold tail. rewrite zlen_app, Z. unfold zeros. rewrite zlen_repeat. lia. }
  assert (S : content = (header_image major minor flags n ++ tail) ++ sound).
  { unfold content, standard_file, tail. now rewrite <- !app_assoc. }
  assert (Zh : zlen (header_image major minor flags n ++ tail) = 10 + n) by (rewrite zlen_app, Zt; reflexivity).
  assert (E : tag_length content = Some (10 + n)).
  { rewrite S. unfold header_image, synchsafe32. cbn [app lit]. cbn -[synchsafe_value known_version is_id3 Z.add]. change (is_id3 _ _ _) with true. rewrite V. cbn [andb]. do 2 f_equal.
    apply (synchsafe_value_synchsafe32 n). lia. }
  destruct R as (_ & R). rewrite E, S in R. rewrite firstn_app_exact in R by (unfold zlen in Zh; lia). rewrite app_length in R.
  replace (Z.to_nat (10 + n) - _)%nat with O in R by (unfold zlen in Zh; lia).
  assert (Sv : synchsafe_value (synchsafe32 n) = n) by (apply synchsafe_value_synchsafe32; lia).
  assert (No : forall fs fin, ~ frames_read (bv major) n 0 10 tail fs fin).
  { intros fs fin. unfold tail, ss. rewrite flat_map_app. cbn [flat_map]. rewrite <- !app_assoc.
    assert (Ss : sf_size ss = sf_size ss1 + (10 + zlen (sf_body s) + sf_size ss2)).
    { unfold ss. clear. induction ss1 as [|a l IH]; [reflexivity|]. cbn [app sf_size fold_right]. fold (sf_size (l ++ s :: ss2)) (sf_size l). lia. }
    pose proof (sf_size_nonneg ss1). pose proof (sf_size_nonneg ss2). assert (2 <= zlen (sf_body s)).
    { rewrite Sb, zlen_cons. destruct u; [congruence|]. rewrite zlen_cons. pose proof (zlen_nonneg u). lia. }
    eapply no_frames_read with (enc := enc) (u := u); auto; try lia.
    rewrite zlen_app, (accepted_images major ss2 A2). unfold zeros. rewrite zlen_repeat. lia. }
  inversion R as [Hn|tl Ht Hv _|mj mi' fl' sz body fs fin Hl Ls Kv Hx Hf|mj mi' fl' sz ext body fs fin Hl Ls Le Kv Hx]; subst.
  - apply (Hn [] ([major; minor; flags] ++ synchsafe32 n ++ tail)). rewrite app_nil_r. reflexivity.
  - unfold header_image in Ht. rewrite <- !app_assoc in Ht. apply app_inv_head in Ht. subst tl. cbn [app] in Hv. congruence.
  - unfold header_image in Hl. rewrite <- !app_assoc in Hl. apply app_inv_head in Hl.
    apply (app_same_length [major; minor; flags] _ [mj; mi'; fl'] _ eq_refl) in Hl as (Hh & Hl). injection Hh as <- <- <-.
    apply app_same_length in Hl as (<- & <-); [|now rewrite Ls].
    rewrite Sv in Hf. now apply No in Hf.
  - unfold header_image in Hl. rewrite <- !app_assoc in Hl. apply app_inv_head in Hl.
    apply (app_same_length [major; minor; flags] _ [mj; mi'; fl'] _ eq_refl) in Hl as (Hh & Hl). injection Hh as <- <- <-. rewrite (simple_not_extended _ F) in Hx. discriminate Hx.
Qed.

Lemma nozero_before l : forallb (fun b => negb (is_zero b)) l = true -> before_zero l = (l, None).
Proof. induction l as [|b l IH]; [reflexivity|]. cbn [forallb before_zero]. intros H. apply andb_true_iff in H as (H1 & H2). destruct (is_zero b); [discriminate H1|]. now rewrite IH. Qed.

Lemma open_latin1 major minor flags ss1 ss2 id fl u pad sound xs ys :
  known_version major = true -> simple_flags flags = true -> Forall (fun s => accepted s = true) (ss1 ++ ss2) ->
  length id = 4%nat -> forallb id_char id = true -> id_starts id "T" = true -> bytes_eqb id (lit "TXXX") = false ->
  length fl = 2%nat -> plain_flags fl = true ->
  u <> [] -> forallb (fun b => negb (is_zero b)) u = true -> starts_with_bom u = false ->
  let ss := ss1 ++ mkSF x00 (FOther id fl (x00 :: u)) [] :: ss2 in
  0 <= pad -> sf_size ss + pad < 2 ^ 28 ->
  items_seen major ss1 = Some xs -> items_seen major ss2 = Some ys ->
  let content := standard_file major minor flags ss pad sound in
  standard_read content = Some (xs ++ IText id [map bv u] :: ys) /\ exists e, ID3v2_read_tag (Some content) = Ub e.
Proof.
  intros V F A Li C T X Lf Pf Nu Nz Nb ss P B E1 E2 content.
  destruct (open_file major minor flags ss1 ss2 id fl x00 u pad sound V F A Li C T Lf Nu (or_introl (conj Nz Nb)) P B) as (R & U).
  split; [|exact U]. etransitivity; [exact R|]. unfold ss. rewrite items_seen_app, E1. cbn [items_seen sf_frame frame_id frame_flags].
  assert (I : item_of major id fl (sf_body (mkSF x00 (FOther id fl (x00 :: u)) [])) = Some (IText id [map bv u])).
  { unfold sf_body. cbn [sf_frame sf_enc sf_more body_with]. rewrite app_nil_r. unfold item_of. rewrite Pf, X, T. cbn [negb coding_of].
    change (coding_of major x00) with (Some Latin1). unfold read_values. cbn [read_texts read_text]. rewrite nozero_before by exact Nz.
    now destruct (Byte.eqb major x04). }
  now rewrite I, E2.
Qed.
