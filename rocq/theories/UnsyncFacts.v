(** Lemmas for C82: tags that are unsynchronised. *)
From Verif Require Import File Calls Spec SpecEdit SpecFile SpecRead SpecRewrite SpecSession SpecUnsync UtilsFacts HistFacts FrameFacts ParseFacts FileFacts ReadFacts RewriteFacts CutFacts SpecStandard StandardFacts TestMainFacts.
From Coq Require Import Lia ZifyBool ZifyNat.
Ltac Zify.zify_post_hook ::= Z.div_mod_to_equations.

(** ** The scheme *)

Lemma unsynced_plain l : no_ff l = true -> forall r, unsynced (l ++ r) = l ++ unsynced r.
Proof.
  induction l as [|b l IH]; intros H r; [reflexivity|]. cbn [no_ff forallb] in H. apply andb_prop in H. destruct H as (H1 & H2).
  cbn [app unsynced]. destruct (Byte.eqb b xff); [discriminate H1|]. f_equal. now apply IH.
Qed.

Lemma unsynced_same l : no_ff l = true -> unsynced l = l.
Proof. intros H. rewrite <- (app_nil_r l) at 1. rewrite unsynced_plain by exact H. now rewrite app_nil_r. Qed.

Lemma unsynced_grows l : zlen l <= zlen (unsynced l).
Proof.
  induction l as [|b l IH]; [apply Z.le_refl|]. cbn [unsynced]. destruct (Byte.eqb b xff).
  - destruct l as [|c l]; [vm_compute; discriminate|]. destruct (_ || _); rewrite !zlen_cons in *; lia.
  - rewrite !zlen_cons. lia.
Qed.

Lemma eqb_true b c : Byte.eqb b c = true -> b = c.
Proof. apply Byte.byte_dec_bl. Qed.

Lemma resynced_unsynced l : resynced (unsynced l) = l.
Proof.
  assert (H : forall n l, (length l <= n)%nat -> resynced (unsynced l) = l).
  { clear l. induction n as [|n IH]; intros l L; [destruct l; [reflexivity|cbn in L; lia]|].
    destruct l as [|b l]; [reflexivity|]. cbn [length] in L. cbn [unsynced].
    destruct (Byte.eqb b xff) eqn:Eb.
    - apply eqb_true in Eb. subst b. destruct l as [|c l]; [reflexivity|].
      destruct ((224 <=? bv c) || is_zero c) eqn:Ec.
      + change (resynced (xff :: x00 :: unsynced (c :: l))) with (xff :: resynced (unsynced (c :: l))). f_equal. apply IH. lia.
      + assert (U : exists m, unsynced (c :: l) = c :: m).
        { cbn [unsynced]. destruct (Byte.eqb c xff) eqn:F; [|eauto]. apply eqb_true in F. subst c. discriminate Ec. }
        destruct U as (m & U). pose proof (IH (c :: l) ltac:(cbn [length] in *; lia)) as R. rewrite U in *.
        change (resynced (xff :: c :: m)) with (xff :: (if is_zero c then resynced m else resynced (c :: m))).
        apply orb_false_iff in Ec. destruct Ec as (_ & ->). f_equal. exact R.
    - pose proof (IH l ltac:(lia)) as R.
      destruct (unsynced l) as [|c m] eqn:U; [cbn [resynced] in *; now subst l|].
      change (resynced (b :: c :: m)) with (b :: (if Byte.eqb b xff && is_zero c then resynced m else resynced (c :: m))).
      rewrite Eb. cbn [andb]. f_equal. exact R. }
  now apply (H (length l)).
Qed.

Lemma unsynced_head l b m : unsynced l = b :: m -> exists l', l = b :: l'.
Proof.
  destruct l as [|a l]; [discriminate|]. cbn [unsynced]. destruct (Byte.eqb a xff) eqn:E.
  - apply eqb_true in E. subst a. destruct l as [|c l]; [intros H; injection H as <- _; eauto|].
    destruct (_ || _); intros H; injection H as <- _; eauto.
  - intros H. injection H as <- _. eauto.
Qed.

Lemma unsynced_quiet l pre b post : unsynced l = pre ++ [xff; b] ++ post -> bv b < 224.
Proof.
  revert pre. induction l as [|a l IH]; intros pre E; [destruct pre; discriminate E|].
  cbn [unsynced] in E. destruct (Byte.eqb a xff) eqn:Ea.
  - apply eqb_true in Ea. subst a. destruct l as [|c l].
    + destruct pre as [|x [|y pre]]; cbn [app] in E; injection E; intros; subst; try discriminate; [vm_compute; reflexivity|].
      destruct pre; discriminate.
    + destruct ((224 <=? bv c) || is_zero c) eqn:Ec.
      * destruct pre as [|x [|y pre]]; cbn [app] in E.
        -- injection E as <- _. vm_compute. reflexivity.
        -- injection E as _ E _. discriminate E.
        -- injection E as _ _ E. exact (IH pre E).
      * destruct pre as [|x pre]; cbn [app] in E.
        -- injection E as E. change (unsynced (c :: l) = b :: post) in E. apply unsynced_head in E. destruct E as (l' & E). injection E as -> _. lia.
        -- injection E as _ E. exact (IH pre E).
  - destruct pre as [|x pre]; cbn [app] in E; injection E; intros E1 E2.
    + subst a. discriminate Ea.
    + exact (IH pre E1).
Qed.

(** ** Frames that are read one after the other *)

Lemma pieces_read ver limit pad (us : list (list byte * frame)) : forall pos,
  (forall u g, In (u, g) us -> 10 < zlen u /\ forall rest, frame_read ver u 0 rest (Some g)) ->
  limit = pos - 10 + zlen (flat_map fst us) + pad -> 0 <= pad ->
  frames_read ver limit 0 pos (flat_map fst us ++ zeros pad) (map snd us) (pos + zlen (flat_map fst us)).
Proof.
  induction us as [|(u & g) us IH]; intros pos H L P.
  - cbn [flat_map app map] in *. change (zlen (@nil byte)) with 0 in *. rewrite Z.add_0_r.
    destruct (Z.le_gt_cases limit pos) as [Q|Q]; [now constructor|].
    destruct (zeros_split pad ltac:(lia)) as (r & ->). apply ReadStop; [exact Q|]. constructor.
  - cbn [flat_map map fst snd] in *. rewrite <- app_assoc. rewrite !zlen_app in *.
    destruct (H u g (or_introl eq_refl)) as (Zu & R). pose proof (zlen_nonneg (flat_map fst us)).
    apply ReadFrame with (gap := 0%nat); [lia|apply R|]. cbn [Nat.min Nat.sub]. change (Z.of_nat 0) with 0. rewrite Z.add_0_r.
    rewrite Z.add_assoc. apply IH; [|lia|exact P]. intros v k I. apply H. now right.
Qed.

Lemma header_announces major minor flags n l : known_version major = true -> 0 <= n < 2 ^ 28 ->
  announces_extended (header_image major minor flags n ++ l) = has_extended_header flags
  /\ tag_length (header_image major minor flags n ++ l) = Some (10 + n).
Proof.
  intros V N. unfold header_image.
  remember (synchsafe32 n) as s eqn:Es. assert (Ls : length s = 4%nat) by (subst s; reflexivity).
  pose proof (synchsafe_value_synchsafe32 n N) as Sv. rewrite <- Es in Sv.
  destruct s as [|s3 [|s2 [|s1 [|s0 [|? ?]]]]]; try discriminate Ls. split.
  - change (known_version major && has_extended_header flags = has_extended_header flags). now rewrite V.
  - change ((if known_version major then Some (10 + synchsafe_value [s3; s2; s1; s0]) else None) = Some (10 + n)).
    now rewrite V, Sv.
Qed.

(** A file of a header and a body that is read. *)
Lemma body_read major minor flags body sound gs fin :
  known_version major = true -> has_extended_header flags = false -> zlen body < 2 ^ 28 ->
  frames_read (bv major) (zlen body) 0 10 body gs fin ->
  file_read (header_image major minor flags (zlen body) ++ body ++ sound)
    (Some (mkTH (lit "ID3") major minor flags (zlen body) 0, gs, 10 + zlen body - fin)).
Proof.
  intros V X B R. pose proof (zlen_nonneg body).
  destruct (header_announces major minor flags (zlen body) (body ++ sound) V ltac:(lia)) as (A & T).
  split; [now rewrite A|]. rewrite T.
  assert (Zh : zlen (header_image major minor flags (zlen body)) = 10) by reflexivity.
  rewrite app_assoc. set (hb := header_image major minor flags (zlen body) ++ body).
  assert (Zl : zlen hb = 10 + zlen body) by (unfold hb; rewrite zlen_app; lia).
  rewrite firstn_app_exact by (unfold zlen in *; lia). rewrite app_length.
  replace (Z.to_nat (10 + zlen body) - _)%nat with O by (unfold zlen in *; lia).
  replace (10 + zlen body - fin) with (zlen hb + Z.of_nat 0 - fin) by lia.
  assert (Sv : synchsafe_value (synchsafe32 (zlen body)) = zlen body) by (apply synchsafe_value_synchsafe32; lia).
  rewrite <- Sv at 1. apply ReadPlain with (body := body); auto.
  now rewrite Sv.
Qed.

(** ** Version 2.4 *)

Lemma no_ff_app a b : no_ff (a ++ b) = no_ff a && no_ff b.
Proof. apply forallb_app. Qed.

Lemma zlen_ge {A} (a b : list A) : zlen a <= zlen (a ++ b).
Proof. rewrite zlen_app. pose proof (zlen_nonneg b). lia. Qed.

Lemma image_no_ff s : no_ff s = true -> no_ff (text_image (Iso s)) = true.
Proof. intros H. unfold text_image, text_bytes, text_end. rewrite no_ff_app, H. reflexivity. Qed.

Lemma unsynced_nonempty l : l <> [] -> unsynced l <> [].
Proof. intros H E. apply H. rewrite <- (resynced_unsynced l), E. reflexivity. Qed.

Lemma mistaken_read f rest : frame_ok f = true -> readable f = true -> usual f = true -> zlen (unsynced (frame_body f)) < 2 ^ 28 ->
  10 < zlen (unsynced_image f) /\ frame_read 4 (unsynced_image f) 0 rest (Some (frame_of (mistaken f))).
Proof.
  intros K Rd U B. pose proof (frame_ok_common _ K) as (Hi & Hf & _). pose proof (frame_ok_kind _ K) as Hk.
  assert (N0 : cut_off 0 rest) by (now left).
  unfold unsynced_image. cbv zeta. pose proof (zlen_nonneg (unsynced (frame_body f))) as Zn.
  pose proof (declared_synchsafe (zlen (unsynced (frame_body f))) ltac:(lia)) as D.
  set (n := zlen (unsynced (frame_body f))) in *.
  remember (synchsafe32 n) as sz eqn:Es. assert (Ls : length sz = 4%nat) by (subst sz; reflexivity). clear Es.
  assert (G : forall m : list byte, zlen (frame_id f ++ sz ++ frame_flags f ++ m) = 10 + zlen m).
  { intros m. rewrite !zlen_app. unfold zlen at 1 2 3. rewrite Hi, Hf, Ls. lia. }
  rewrite G. fold n.
  destruct f as [id fl t|fl lang d c|fl m ty d pic|id fl body]; cbn [frame_id frame_flags mistaken usual readable] in *;
    unfold frame_body, body_with in *; cbn [frame_encoding] in *.
  - set (l := [text_encoding t] ++ text_image t) in *.
    assert (Q : exists enc junk, unsynced l = [enc] ++ text_image (mistaken_text t) ++ junk /\ text_ok (mistaken_text t) = true).
    { destruct Hk as (_ & Ht). unfold l. clear - U Ht.
      destruct t as [s|be units]; cbn [usual mistaken_text] in *.
      - exists x00, []. split; [|exact Ht]. rewrite app_nil_r. apply unsynced_same. cbn [text_encoding].
        rewrite no_ff_app, image_no_ff by exact U. reflexivity.
      - apply andb_prop in U. destruct U as (U1 & U2). cbn [text_encoding].
        assert (U3 : unsynced (flat_units units ++ [x00; x00]) = flat_units units ++ [x00; x00]).
        { apply unsynced_same. now rewrite no_ff_app, U1. }
        unfold text_image at 1, text_bytes, text_end. fold (flat_units units).
        destruct be; cbn [bom_bytes].
        + exists x01. destruct units as [|(hi & lo) us].
          * exists [x00]. split; reflexivity.
          * cbn [flat_units flat_map fst snd app] in *. fold (flat_units us) in *.
            change (unsynced (x01 :: xfe :: xff :: hi :: lo :: flat_units us ++ [x00; x00]))
              with (x01 :: xfe :: (if (224 <=? bv hi) || is_zero hi then xff :: x00 :: unsynced (hi :: lo :: flat_units us ++ [x00; x00])
                                   else xff :: unsynced (hi :: lo :: flat_units us ++ [x00; x00]))).
            rewrite U3. cbn [negb orb] in U2. replace (224 <=? bv hi) with false by lia. cbn [orb].
            destruct (is_zero hi) eqn:Eh.
            -- apply eqb_true in Eh. subst hi. exists (lo :: flat_units us ++ [x00; x00]). split; reflexivity.
            -- exists []. split; [|exact Ht]. unfold text_image, text_bytes, text_end, bom_bytes. cbn [flat_map fst snd app].
               rewrite app_nil_r. reflexivity.
        + exists x01, (xfe :: flat_units units ++ [x00; x00]). split; [|reflexivity].
          change (unsynced ([x01] ++ ([xff; xfe] ++ flat_units units) ++ [x00; x00]))
            with (x01 :: xff :: x00 :: unsynced ([xfe] ++ flat_units units ++ [x00; x00])).
          rewrite unsynced_plain by reflexivity. now rewrite U3. }
    destruct Q as (enc & junk & Q & Qk). unfold n in *. rewrite Q in *. split.
    { rewrite !zlen_app. pose proof (zlen_nonneg (text_image (mistaken_text t))). pose proof (zlen_nonneg junk).
      change (zlen [enc]) with 1. lia. }
    apply ReadText; auto; try tauto. rewrite D, zlen_app. change (zlen [enc]) with 1. lia.
  - destruct d as [d|]; [|discriminate U]. destruct c as [c|]; [|discriminate U].
    apply andb_prop in U. destruct U as (U & U3). apply andb_prop in U. destruct U as (U1 & U2).
    assert (Q : unsynced ([text_encoding (Iso c)] ++ lang ++ text_image (Iso d) ++ text_image (Iso c))
      = [text_encoding (Iso c)] ++ lang ++ text_image (Iso d) ++ text_image (Iso c)).
    { apply unsynced_same. cbn [text_encoding]. rewrite !no_ff_app, U1, !image_no_ff by assumption. reflexivity. }
    unfold n in *. rewrite Q in *.
    split; [|apply ReadComment; auto; tauto].
    rewrite !zlen_app. pose proof (zlen_nonneg lang). pose proof (zlen_nonneg (text_image (Iso d))). pose proof (zlen_nonneg (text_image (Iso c))).
    change (zlen [text_encoding (Iso c)]) with 1. lia.
  - destruct m as [m|]; [|discriminate U]. destruct d as [d|]; [|discriminate U].
    apply andb_prop in U. destruct U as (U & U3). apply andb_prop in U. destruct U as (U1 & U2).
    assert (Q : unsynced ([text_encoding (Iso d)] ++ text_image (Iso m) ++ [ty] ++ text_image (Iso d) ++ pic)
      = [text_encoding (Iso d)] ++ text_image (Iso m) ++ [ty] ++ text_image (Iso d) ++ unsynced pic).
    { rewrite !unsynced_plain; auto using image_no_ff. cbn [no_ff forallb]. now rewrite U2. }
    unfold n in *. rewrite Q in *.
    assert (P : 0 < zlen (unsynced pic)).
    { destruct (unsynced pic) eqn:E; [exfalso|rewrite zlen_cons; pose proof (zlen_nonneg l); lia].
      apply (unsynced_nonempty pic); [|exact E]. intros ->. discriminate Rd. }
    pose proof (zlen_nonneg (text_image (Iso d))). pose proof (zlen_nonneg (text_image (Iso m))).
    rewrite !zlen_app in *. change (zlen [text_encoding (Iso d)]) with 1 in *. change (zlen [ty]) with 1 in *.
    split; [lia|].
    pose proof (ReadPicture 4 (lit "APIC") sz fl (text_encoding (Iso d)) (Iso m) ty (Iso d) (unsynced pic) 0 rest eq_refl Ls Hf eq_refl
      (proj1 Hk) (proj2 Hk)) as R. cbv zeta in R. change (Z.of_nat 0) with 0 in R. rewrite Z.add_0_r in R. cbn [repeat] in R.
    rewrite app_nil_r in R.
    assert (D' : declared_size 4 sz = body_size (FPicture fl (Iso m) ty (Iso d) (unsynced pic))).
    { rewrite D. symmetry. rewrite body_size_picture. lia. }
    unfold frame_of. cbn [frame_id frame_flags]. rewrite <- D'. apply R; auto. rewrite D. lia.
  - destruct Hk as (K1 & K2 & K3 & K4).
    assert (P : 0 < n).
    { unfold n. destruct (unsynced body) eqn:E; [exfalso|rewrite zlen_cons; pose proof (zlen_nonneg l); lia].
      apply (unsynced_nonempty body); [|exact E]. intros ->. discriminate Rd. }
    split; [lia|].
    pose proof (ReadOther 4 id sz fl (unsynced body) 0 rest Hi Ls Hf K1 K2 K3 K4) as R. rewrite D in R. cbn [repeat] in R.
    rewrite app_nil_r in R. unfold frame_of. cbn [frame_id frame_flags]. rewrite body_size_other. apply R; auto. unfold n. lia.
Qed.

Lemma flat_map_map {A B C} (f : B -> list C) (g : A -> B) l : flat_map f (map g l) = flat_map (fun x => f (g x)) l.
Proof. induction l as [|a l IH]; [reflexivity|]. cbn [map flat_map]. now rewrite IH. Qed.

Lemma tag24_read minor flags fs pad sound :
  Forall (fun f => frame_ok f = true /\ readable f = true /\ usual f = true) fs -> has_extended_header flags = false ->
  0 <= pad -> zlen (flat_map unsynced_image fs) + pad < 2 ^ 28 ->
  file_read (unsynced_tag minor flags fs pad sound)
    (Some (mkTH (lit "ID3") x04 minor flags (zlen (flat_map unsynced_image fs) + pad) 0, map frame_of (map mistaken fs), pad)).
Proof.
  intros K X P B. unfold unsynced_tag. cbv zeta.
  set (l := flat_map unsynced_image fs) in *.
  assert (Zp : zlen (zeros pad) = pad) by (unfold zeros, zlen; rewrite repeat_length; lia).
  assert (Zb : zlen (l ++ zeros pad) = zlen l + pad) by (rewrite zlen_app; lia).
  pose proof (body_read x04 minor flags (l ++ zeros pad) sound (map frame_of (map mistaken fs)) (10 + zlen l) eq_refl X ltac:(lia)) as R.
  rewrite Zb in R. replace (10 + (zlen l + pad) - (10 + zlen l)) with pad in R by lia. rewrite <- app_assoc in R. apply R. clear R.
  set (us := map (fun f => (unsynced_image f, frame_of (mistaken f))) fs).
  assert (E1 : flat_map fst us = l) by (unfold us; now rewrite flat_map_map).
  assert (E2 : map snd us = map frame_of (map mistaken fs)) by (unfold us; now rewrite !map_map).
  rewrite <- E2, <- E1. rewrite <- E1 in Zb.
  apply pieces_read; [|lia|exact P].
  intros u g I. unfold us in I. apply in_map_iff in I. destruct I as (f & E & I). injection E as <- <-.
  rewrite Forall_forall in K. destruct (K f I) as (K1 & K2 & K3).
  assert (Lf : zlen (unsynced (frame_body f)) <= zlen l).
  { apply in_split in I. destruct I as (f1 & f2 & I). unfold l. rewrite I, flat_map_app, zlen_app. cbn [flat_map].
    unfold unsynced_image at 2. cbv zeta. rewrite !zlen_app.
    pose proof (zlen_nonneg (flat_map unsynced_image f1)). pose proof (zlen_nonneg (flat_map unsynced_image f2)).
    pose proof (zlen_nonneg (frame_id f)). pose proof (zlen_nonneg (frame_flags f)).
    pose proof (zlen_nonneg (synchsafe32 (zlen (unsynced (frame_body f))))). lia. }
  assert (B' : zlen (unsynced (frame_body f)) < 2 ^ 28) by lia.
  split; [now destruct (mistaken_read f [] K1 K2 K3 B')|]. intros rest. now destruct (mistaken_read f rest K1 K2 K3 B').
Qed.

(** ** Version 2.3 *)

Section V23.
  Variables (minor flags : byte) (id fl : list byte) (units : list (byte * byte)) (sound : list byte).
  Let f := FText id fl (Utf16 false units).
  Hypothesis K : frame_ok f = true.
  Hypothesis F : no_ff (id ++ be32 (body_size f) ++ fl ++ flat_units units) = true.
  Hypothesis X : has_extended_header flags = false.

  Let head := id ++ be32 (body_size f) ++ fl ++ [x01] ++ text_image (Iso [xff]) ++ [xfe] ++ flat_units units ++ [x00].

  Lemma first_unsynced r : unsynced (frame_image be32 f ++ r) = head ++ [x00] ++ unsynced r.
  Proof.
    pose proof F as F'. rewrite !no_ff_app in F'.
    apply andb_prop in F'. destruct F' as (F1 & F'). apply andb_prop in F'. destruct F' as (F2 & F').
    apply andb_prop in F'. destruct F' as (F3 & F4).
    unfold frame_image, head, f, frame_body, body_with. cbn [frame_id frame_flags frame_encoding text_encoding].
    unfold f in F2. rewrite <- !app_assoc.
    rewrite (unsynced_plain id) by exact F1. f_equal. rewrite (unsynced_plain (be32 _)) by exact F2. f_equal.
    rewrite (unsynced_plain fl) by exact F3. f_equal. unfold text_image at 1, text_bytes, text_end, bom_bytes. fold (flat_units units).
    rewrite <- !app_assoc.
    change (unsynced ([x01] ++ [xff; xfe] ++ flat_units units ++ [x00; x00] ++ r))
      with (x01 :: xff :: x00 :: unsynced ([xfe] ++ flat_units units ++ [x00; x00] ++ r)).
    rewrite (unsynced_plain [xfe]) by reflexivity. rewrite (unsynced_plain (flat_units units)) by exact F4.
    rewrite (unsynced_plain [x00; x00]) by reflexivity. reflexivity.
  Qed.

  Lemma flat_units_zlen us : zlen (flat_units us) = 2 * zlen us.
  Proof. induction us as [|u us IH]; [reflexivity|]. cbn [flat_units flat_map app]. rewrite !zlen_cons. unfold flat_units in IH. lia. Qed.

  Lemma first_size : body_size f = 5 + 2 * zlen units.
  Proof.
    unfold f. rewrite body_size_text. unfold text_image, text_bytes, text_end, bom_bytes. fold (flat_units units).
    rewrite !zlen_app, flat_units_zlen. change (zlen [xff; xfe]) with 2. change (zlen [x00; x00]) with 2. lia.
  Qed.

  Lemma head_zlen : zlen head = 15 + 2 * zlen units.
  Proof.
    pose proof (frame_ok_common _ K) as (Hi & Hf & _). unfold head. rewrite !zlen_app, flat_units_zlen.
    unfold f in Hi, Hf. cbn [frame_id frame_flags] in Hi, Hf.
    unfold zlen at 1 2 3. rewrite Hi, Hf. change (length (be32 (body_size f))) with 4%nat.
    change (zlen [x01]) with 1. change (zlen (text_image (Iso [xff]))) with 2. change (zlen [xfe]) with 1. change (zlen [x00]) with 1. lia.
  Qed.

  Lemma first_read rest : frame_read 3 head 0 rest (Some (frame_of (FText id fl (Iso [xff])))).
  Proof.
    pose proof (frame_ok_common _ K) as (Hi & Hf & Hb). pose proof (frame_ok_kind _ K) as (Hk & _).
    pose proof first_size as S. pose proof (zlen_nonneg units).
    apply (ReadText 3 id (be32 (body_size f)) fl x01 (Iso [xff]) ([xfe] ++ flat_units units ++ [x00]) 0 rest); auto; try reflexivity.
    - rewrite declared_be32 by lia. rewrite S, !zlen_app, flat_units_zlen. change (zlen (text_image (Iso [xff]))) with 2.
      change (zlen [xfe]) with 1. change (zlen [x00]) with 1. lia.
    - now left.
  Qed.

  Lemma only_read pad : 0 <= pad -> 16 + 2 * zlen units + pad < 2 ^ 28 ->
    file_read (unsynced_file minor flags (frame_image be32 f ++ zeros pad) sound)
      (Some (mkTH (lit "ID3") x03 minor flags (16 + 2 * zlen units + pad) 0, [frame_of (FText id fl (Iso [xff]))], pad + 1)).
  Proof.
    intros P B. unfold unsynced_file.
    assert (Uz : unsynced (zeros pad) = zeros pad).
    { apply unsynced_same. unfold zeros, no_ff. apply forallb_forall. intros b I. apply repeat_spec in I. now subst b. }
    pose proof (first_unsynced (zeros pad)) as E. rewrite Uz in E. rewrite E.
    assert (Zp : zlen (zeros pad) = pad) by (unfold zeros, zlen; rewrite repeat_length; lia).
    assert (Zb : zlen (head ++ [x00] ++ zeros pad) = 16 + 2 * zlen units + pad).
    { rewrite !zlen_app, head_zlen, Zp. change (zlen [x00]) with 1. lia. }
    pose proof (body_read x03 minor flags (head ++ [x00] ++ zeros pad) sound [frame_of (FText id fl (Iso [xff]))] (10 + zlen head) eq_refl X) as R.
    rewrite Zb in R. replace (10 + (16 + 2 * zlen units + pad) - (10 + zlen head)) with (pad + 1) in R by (rewrite head_zlen; lia).
    rewrite Zb. apply R; [exact B|]. clear R.
    pose proof (zlen_nonneg units).
    apply ReadFrame with (gap := 0%nat); [lia|apply first_read|]. cbn [Nat.min Nat.sub]. change (Z.of_nat 0) with 0. rewrite Z.add_0_r.
    destruct (Z.le_gt_cases (16 + 2 * zlen units + pad) (10 + zlen head)) as [Q|Q]; [now constructor|].
    apply ReadStop; [exact Q|]. rewrite head_zlen in Q. destruct (zeros_split pad ltac:(lia)) as (r & ->).
    apply (ReadPadding 3 ([x00] ++ r)).
  Qed.

  Lemma be_value4 a b c d : be_value [a; b; c; d] = bv a * 2 ^ 24 + bv b * 2 ^ 16 + bv c * 2 ^ 8 + bv d.
  Proof. unfold be_value. cbn. lia. Qed.

  Lemma next_read i1 i2 i3 i4 m pad : forallb id_char [i1; i2; i3; i4] = true -> (6 <= length m)%nat ->
    let body := frame_image be32 f ++ ([i1; i2; i3; i4] ++ m) ++ zeros pad in
    zlen (unsynced body) < 2 ^ 28 ->
    exists g, file_read (unsynced_file minor flags body sound)
        (Some (mkTH (lit "ID3") x03 minor flags (zlen (unsynced body)) 0, [frame_of (FText id fl (Iso [xff])); g], 0))
      /\ fh_id (f_hdr g) = cells [x00; i1; i2; i3] /\ 3 * 2 ^ 28 <= fh_size (f_hdr g) < 2 ^ 31 - 10 /\ cut_frame g.
  Proof.
    intros Ic Lm body B. change (2 ^ 28) with 268435456 in *. change (2 ^ 31) with 2147483648.
    assert (E : unsynced body = head ++ [x00] ++ [i1; i2; i3; i4] ++ unsynced (m ++ zeros pad)).
    { unfold body. rewrite <- app_assoc. rewrite first_unsynced. f_equal. f_equal. apply unsynced_plain.
      cbn [forallb] in Ic. unfold no_ff. cbn [forallb].
      assert (G : forall i, id_char i = true -> negb (Byte.eqb i xff) = true).
      { intros i H. destruct (Byte.eqb i xff) eqn:Q; [|reflexivity]. apply eqb_true in Q. subst i. discriminate H. }
      repeat (apply andb_prop in Ic; let H := fresh in destruct Ic as (H & Ic); rewrite (G _ H)). reflexivity. }
    set (w := unsynced (m ++ zeros pad)) in *.
    assert (Lw : 6 <= zlen w).
    { pose proof (unsynced_grows (m ++ zeros pad)) as G. fold w in G. rewrite zlen_app in G. pose proof (zlen_nonneg (zeros pad)).
      unfold zlen at 1 in G. lia. }
    destruct w as [|s1 [|s2 [|s3 [|f1 [|f2 w]]]]]; try (exfalso; vm_compute in Lw; now apply Lw).
    pose proof (zlen_nonneg w). pose proof (zlen_nonneg units).
    assert (Zb : zlen (unsynced body) = 26 + 2 * zlen units + zlen w - 1).
    { rewrite E. rewrite !zlen_app, head_zlen, !zlen_cons. change (zlen (@nil byte)) with 0. lia. }
    set (n := declared_size 3 [i4; s1; s2; s3]).
    assert (Hn : 3 * 268435456 <= n < 1543503872).
    { unfold n, declared_size. change (3 =? 4) with false. cbv iota. rewrite be_value4.
      assert (I4 : 48 <= bv i4 <= 90).
      { cbn [forallb] in Ic. repeat (apply andb_prop in Ic; let H := fresh "H" in destruct Ic as (H & Ic)).
        match goal with Q : id_char i4 = true |- _ => unfold id_char in Q; lia end. }
      pose proof (bv_range s1). pose proof (bv_range s2). pose proof (bv_range s3).
      rewrite to_i32_id; change (2 ^ 31) with 2147483648; change (2 ^ 24) with 16777216; change (2 ^ 16) with 65536; change (2 ^ 8) with 256; lia. }
    set (gap := Z.to_nat (n - zlen w)).
    set (g := mkFrame (mkFH (cells [x00; i1; i2; i3]) n (cells [f1; f2])) (DRaw (cells w ++ repeat None gap))).
    assert (Hg : (0 < gap)%nat) by (unfold gap; lia).
    exists g. split; [|split; [reflexivity|split; [cbn [g f_hdr fh_size]; lia|]]].
    2:{ right. cbn [g f_data]. apply in_or_app. right. destruct gap; [lia|]. now left. }
    assert (Gr : frame_read 3 ([x00; i1; i2; i3] ++ [i4; s1; s2; s3] ++ [f1; f2] ++ w) gap [] (Some g)).
    { apply ReadOther; auto.
      - cbn [forallb] in *. apply andb_prop in Ic. destruct Ic as (I1 & _). unfold is_zero at 2. destruct (Byte.eqb i1 x00) eqn:Q; [|now rewrite !andb_false_r || reflexivity].
        apply eqb_true in Q. subst i1. discriminate I1.
      - fold n. unfold gap. lia.
      - now right. }
    unfold unsynced_file. fold body.
    replace 0 with (10 + zlen (unsynced body) - (10 + zlen (unsynced body))) at 2 by lia.
    apply body_read; auto. rewrite E at 2.
    apply ReadFrame with (gap := 0%nat); [lia|apply first_read|]. cbn [Nat.min Nat.sub]. change (Z.of_nat 0) with 0. rewrite Z.add_0_r.
    rewrite <- (app_nil_r ([x00] ++ _)).
    apply (ReadFrame 3 (zlen (unsynced body)) 0 (10 + zlen head) ([x00] ++ [i1; i2; i3; i4] ++ s1 :: s2 :: s3 :: f1 :: f2 :: w) gap []).
    - rewrite Zb, head_zlen. rewrite !zlen_cons in Lw. lia.
    - exact Gr.
    - rewrite Nat.min_0_r. change (Z.of_nat 0) with 0.
      replace (10 + zlen head + _ + 0) with (10 + zlen (unsynced body)) by (rewrite E, zlen_app; lia).
      constructor. lia.
  Qed.
End V23.

(** ** The claims *)

Lemma mistaken_text_ok t : text_ok t = true -> text_ok (mistaken_text t) = true.
Proof.
  destruct t as [s|[|] units]; intros H; cbn [mistaken_text]; [exact H| |reflexivity].
  destruct units as [|(hi & lo) us]; [exact H|]. destruct (is_zero hi); [reflexivity|exact H].
Qed.

Lemma mistaken_text_size t : zlen (text_image (mistaken_text t)) <= zlen (text_image t).
Proof.
  destruct t as [s|[|] units]; cbn [mistaken_text]; [lia| |].
  - destruct units as [|(hi & lo) us]; [lia|]. destruct (is_zero hi); [|lia].
    unfold text_image, text_bytes, text_end. rewrite !zlen_app. cbn [flat_map]. rewrite !zlen_app.
    pose proof (zlen_nonneg (flat_map (fun u : byte * byte => [fst u; snd u]) us)). change (zlen (@nil byte)) with 0.
    change (zlen [fst (hi, lo); snd (hi, lo)]) with 2. lia.
  - unfold text_image, text_bytes, text_end, bom_bytes. rewrite !zlen_app.
    pose proof (zlen_nonneg (flat_map (fun u : byte * byte => [fst u; snd u]) units)).
    change (zlen [xff]) with 1. change (zlen [x00]) with 1. change (zlen [x00; x00]) with 2. change (zlen [xff; xfe]) with 2. lia.
Qed.

Lemma unsynced_app_le a b : zlen a + zlen (unsynced b) <= zlen (unsynced (a ++ b)).
Proof.
  induction a as [|x a IH]; [cbn [app]; change (zlen (@nil byte)) with 0; lia|].
  cbn [app unsynced]. rewrite zlen_cons. destruct (Byte.eqb x xff).
  - destruct (a ++ b) as [|c m] eqn:E; [|destruct (_ || _); rewrite ?zlen_cons in *; lia].
    apply app_eq_nil in E. destruct E as (-> & ->). vm_compute. discriminate.
  - rewrite zlen_cons. lia.
Qed.

Lemma mistaken_size f : body_size (mistaken f) <= zlen (unsynced (frame_body f)).
Proof.
  pose proof (unsynced_grows (frame_body f)) as G. fold (body_size f) in G.
  destruct f as [id fl t|fl lang d c|fl m ty d pic|id fl body]; cbn [mistaken].
  - rewrite body_size_text in *. pose proof (mistaken_text_size t). lia.
  - exact G.
  - clear G. rewrite body_size_picture. unfold frame_body, body_with. rewrite !app_assoc.
    eapply Z.le_trans; [|apply unsynced_app_le]. rewrite !zlen_app. change (zlen [ty]) with 1.
    change (zlen [frame_encoding (FPicture fl m ty d pic)]) with 1. lia.
  - rewrite body_size_other. apply Z.le_refl.
Qed.

Lemma mistaken_ok f : frame_ok f = true -> zlen (unsynced (frame_body f)) < 2 ^ 28 -> frame_ok (mistaken f) = true.
Proof.
  intros K B. pose proof (mistaken_size f) as S. change (2 ^ 28) with 268435456 in B.
  assert (Q : body_size (mistaken f) + 10 <? 2 ^ 31 = true) by (change (2 ^ 31) with 2147483648; lia).
  destruct f as [id fl t|fl lang d c|fl m ty d pic|id fl body]; cbn [mistaken] in *; [|exact K| |];
    unfold frame_ok in *; cbn [frame_id frame_flags] in *; rewrite Q; apply andb_prop in K; destruct K as (K & K2);
    apply andb_prop in K; destruct K as (K & _); rewrite K; cbn [andb]; auto.
  apply andb_prop in K2. destruct K2 as (K2 & K3). rewrite K2. now apply mistaken_text_ok.
Qed.

Lemma read_of content h gs pad : file_read content (Some (h, gs, pad)) ->
  exists t, ID3v2_read_tag (Some content) = Ok (Some t) /\ t_header t = h /\ tag_has t gs /\ t_padding t = pad.
Proof.
  intros R. destruct (read_file_exactly content) as [(r & ot & R' & E & Sh)|(N & _)]; [|now apply N in R].
  pose proof (file_read_once _ _ _ R R') as <-. destruct ot as [t|]; [|destruct Sh]. exists t. destruct Sh as (S1 & S2 & S3). auto.
Qed.

Lemma cons_same {A} (a b : A) l m : a :: l = b :: m -> a = b /\ l = m.
Proof. intros E. now injection E. Qed.

Lemma unsynced_v24 minor flags fs pad sound :
  Forall (fun f => frame_ok f = true /\ readable f = true /\ usual f = true) fs -> has_extended_header flags = false ->
  0 <= pad -> let n := zlen (flat_map unsynced_image fs) + pad in n < 2 ^ 28 ->
  let content := unsynced_tag minor flags fs pad sound in
  (exists t, ID3v2_read_tag (Some content) = Ok (Some t) /\ t_header t = mkTH (lit "ID3") x04 minor flags n 0
     /\ tag_has t (map frame_of (map mistaken fs)) /\ t_padding t = pad)
  /\ run_session [] (Some content) = Ok (Some (tag_bytes x04 minor flags n (map mistaken fs) ++ sound)).
Proof.
  intros K X P n B content. pose proof (tag24_read minor flags fs pad sound K X P B) as R. fold content n in R.
  split; [now apply read_of|].
  pose proof (zlen_nonneg (flat_map unsynced_image fs)) as Zn.
  destruct (header_announces x04 minor flags n (flat_map unsynced_image fs ++ zeros pad ++ sound) eq_refl ltac:(unfold n in *; lia)) as (_ & T).
  assert (Ec : content = header_image x04 minor flags n ++ flat_map unsynced_image fs ++ zeros pad ++ sound) by reflexivity.
  rewrite <- Ec in T.
  assert (A : audio content = sound).
  { unfold audio. rewrite T, Ec, !app_assoc. apply skipn_app_exact.
    assert (Zp : zlen (zeros pad) = pad) by (unfold zeros, zlen; rewrite repeat_length; lia).
    assert (Zl : zlen ((header_image x04 minor flags n ++ flat_map unsynced_image fs) ++ zeros pad) = 10 + n).
    { rewrite !zlen_app, Zp. change (zlen (header_image x04 minor flags n)) with 10. unfold n. lia. }
    unfold zlen in Zl. lia. }
  assert (Ks : oks (map mistaken fs)).
  { unfold oks. apply Forall_map. rewrite Forall_forall in *. intros f I. destruct (K f I) as (K1 & K2 & K3).
    apply mistaken_ok; [exact K1|]. apply in_split in I. destruct I as (f1 & f2 & I).
    unfold n in B. rewrite I, flat_map_app, zlen_app in B. cbn [flat_map] in B.
    unfold unsynced_image at 2 in B. cbv zeta in B. rewrite !zlen_app in B.
    pose proof (zlen_nonneg (flat_map unsynced_image f1)). pose proof (zlen_nonneg (flat_map unsynced_image f2)).
    pose proof (zlen_nonneg (frame_id f)). pose proof (zlen_nonneg (frame_flags f)).
    pose proof (zlen_nonneg (synchsafe32 (zlen (unsynced (frame_body f))))). lia. }
  pose proof (rewrite_seen _ _ R) as W. cbn [th_tag_size th_major th_minor th_flags] in W.
  destruct W as [(ss & E & Ko & _ & _ & _ & W)|(ss & g & E & _ & Cu & _)].
  - intros m Tm. assert (Q : m = 10 + n) by congruence. rewrite Q. clearbody n. lia.
  - rewrite W, A. assert (Es : ss = map mistaken fs).
    { clear - E Ko Ks. symmetry in E. revert E Ko Ks. generalize (map mistaken fs) as l. induction ss as [|s ss IH]; intros l E Ko Ks.
      - destruct l; [reflexivity|discriminate E].
      - destruct l as [|x l]; [discriminate E|]. cbn [map] in E. apply cons_same in E. destruct E as (E1 & E2).
        inversion Ko as [|? ? A1 A2]; inversion Ks as [|? ? B1 B2]; subst.
        f_equal; [now apply frame_of_inj|now apply IH]. }
    now rewrite Es.
  - exfalso. apply (whole_not_cut (map mistaken fs)). rewrite E. apply Exists_app. right. now constructor.
Qed.

Lemma unsynced_v23_only minor flags id fl units pad sound :
  let f := FText id fl (Utf16 false units) in
  frame_ok f = true -> no_ff (id ++ be32 (body_size f) ++ fl ++ flat_units units) = true -> has_extended_header flags = false ->
  0 <= pad -> let n := 16 + 2 * zlen units + pad in n < 2 ^ 28 ->
  exists t, ID3v2_read_tag (Some (unsynced_file minor flags (frame_image be32 f ++ zeros pad) sound)) = Ok (Some t)
    /\ t_header t = mkTH (lit "ID3") x03 minor flags n 0
    /\ tag_has t [frame_of (FText id fl (Iso [xff]))] /\ t_padding t = pad + 1.
Proof. intros f K F X P n B. apply read_of. now apply only_read. Qed.

Lemma unsynced_v23_next minor flags id fl units i1 i2 i3 i4 more pad sound :
  let f := FText id fl (Utf16 false units) in
  frame_ok f = true -> no_ff (id ++ be32 (body_size f) ++ fl ++ flat_units units) = true -> has_extended_header flags = false ->
  forallb id_char [i1; i2; i3; i4] = true -> (6 <= length more)%nat ->
  let body := frame_image be32 f ++ ([i1; i2; i3; i4] ++ more) ++ zeros pad in
  zlen (unsynced body) < 2 ^ 28 ->
  let content := unsynced_file minor flags body sound in
  (exists t g, ID3v2_read_tag (Some content) = Ok (Some t)
     /\ tag_has t [frame_of (FText id fl (Iso [xff])); g]
     /\ fh_id (f_hdr g) = cells [x00; i1; i2; i3] /\ 3 * 2 ^ 28 <= fh_size (f_hdr g)
     /\ forall arg other, points_to arg other -> length other = 4%nat -> forallb (fun c => negb (is_zero c)) other = true ->
          other <> id -> ID3v2_Tag_get_frame (Some t) arg = Ok None)
  /\ exists u, run_session [] (Some content) = Ub u.
Proof.
  intros f K F X Ic Lm body B content.
  destruct (next_read minor flags id fl units sound K F X i1 i2 i3 i4 more pad Ic Lm B) as (g & R & Gi & Gs & Gc). fold f body content in R.
  split.
  - destruct (read_of _ _ _ _ R) as (t & E & _ & T & _). exists t, g. split; [exact E|]. split; [exact T|]. split; [exact Gi|]. split; [lia|].
    intros arg other Pa Lo Zo Ne. destruct T as (ps & Hl & Hg & _).
    assert (Sn : Forall sane [frame_of (FText id fl (Iso [xff])); g]).
    { pose proof (frame_ok_common _ K) as (Hi & _). constructor; [|constructor; [|constructor]].
      - split; [exists id; auto|]. cbn [frame_of f_hdr fh_size]. vm_compute. split; [discriminate|reflexivity].
      - split; [exists [x00; i1; i2; i3]; auto|]. lia. }
    rewrite <- Hg in Sn. destruct (lookup t ps arg other Hl Sn Pa Lo) as (-> & _). f_equal.
    assert (Nn : Forall (fun x => named other x = false) (map fp_frame ps)).
    { rewrite Hg in *. inversion Sn as [|? ? S1 S2]; inversion S2 as [|? ? S3 S4]; subst.
      constructor; [|constructor; [|constructor]]; match goal with |- named other ?x = false => destruct (named other x) eqn:Q; [|reflexivity] end.
      - apply named_exact in Q; auto. cbn [frame_of f_hdr fh_id frame_id] in Q. exfalso. apply Ne. symmetry.
        apply (f_equal (map (fun c : cell => match c with Some b => b | None => x00 end))) in Q. unfold cells in Q. rewrite !map_map, !map_id in Q. exact Q.
      - apply named_exact in Q; auto. rewrite Gi in Q. destruct other as [|o other]; [discriminate Q|]. injection Q as <- _. discriminate Zo. }
    clear - Nn. induction ps as [|p ps IH]; [reflexivity|]. cbn [map] in Nn. inversion Nn as [|? ? N1 N2]; subst.
    cbn [find]. rewrite N1. now apply IH.
  - pose proof (rewrite_seen _ _ R) as W. cbn [th_tag_size th_major th_minor th_flags] in W.
    destruct W as [(ss & E & _ & _)|(ss & g' & _ & _ & _ & u & W)]; [| |eauto].
    + intros m Tm. pose proof (zlen_nonneg (unsynced body)) as Zn.
      destruct (header_announces x03 minor flags (zlen (unsynced body)) (unsynced body ++ sound) eq_refl ltac:(lia)) as (_ & T).
      change (tag_length content = Some (10 + zlen (unsynced body))) in T. assert (Q : m = 10 + zlen (unsynced body)) by congruence. lia.
    + exfalso. apply (whole_not_cut ss). rewrite <- E. apply Exists_cons_tl, Exists_cons_hd. exact Gc.
Qed.
