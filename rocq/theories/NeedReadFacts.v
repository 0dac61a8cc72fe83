(** What reading asks for, from the bytes of the file. *)
From Verif Require Import Spec SpecFile SpecRead TagFacts AnyFacts FileFacts ReadFacts RewriteFacts.
From Verif Require Import Oom SpecOom SpecNeed OomFacts OomReadFacts OomCallFacts NeedFacts.
From Coq Require Import Lia ZifyBool ZifyNat.

Section Sizes.
  Context (sizeof : request -> Z) (SN : forall r, 0 <= sizeof r).

  Definition sum (fs : list frame) : Z := fold_right (fun f n => data_bytes (f_data f) + n) 0 fs.
  Definition frames_room (fs : list frame) : Z :=
    match fs with [] => sizeof RNode | _ => fold_right (fun f n => sizeof RNode + frame_bytes sizeof f + n) 0 fs end.

  Lemma list_of_bytes ps : list_bytes sizeof (list_of ps) = frames_room (map fp_frame ps).
  Proof.
    destruct ps as [|p ps]; [cbn; lia|]. cbn [list_of]. change (frames_room (map fp_frame (p :: ps))) with
      (fold_right (fun f n => sizeof RNode + frame_bytes sizeof f + n) 0 (map fp_frame (p :: ps))).
    generalize (p :: ps) as l. clear p ps. induction l as [|p l IH]; [reflexivity|].
    unfold list_bytes in *. cbn [map fold_right n_frame] in *. rewrite IH. lia.
  Qed.

  Lemma tag_room t fs : tag_has t fs -> list_bytes sizeof (t_frames t) = frames_room fs.
  Proof. intros (ps & -> & <- & _). apply list_of_bytes. Qed.

  Lemma frame_bytes_bound f : frame_bytes sizeof f <= frame_structs sizeof - sizeof RNode + data_bytes (f_data f).
  Proof.
    unfold frame_bytes, frame_structs, data_struct. pose proof (SN RFrameHeader). pose proof (SN RTextData). pose proof (SN RCommentData). pose proof (SN RApicData). pose proof (SN RFrame).
    destruct (f_data f); lia.
  Qed.

  Lemma frames_room_bound fs : frames_room fs <= Z.max 1 (zlen fs) * frame_structs sizeof + sum fs.
  Proof.
    destruct fs as [|f fs].
    - cbn [frames_room sum fold_right]. change (zlen (@nil frame)) with 0. unfold frame_structs.
      pose proof (SN RNode). pose proof (SN RFrame). pose proof (SN RTextData). pose proof (SN RCommentData). pose proof (SN RApicData). pose proof (SN RFrameHeader). lia.
    - change (frames_room (f :: fs)) with (fold_right (fun f n => sizeof RNode + frame_bytes sizeof f + n) 0 (f :: fs)).
      replace (Z.max 1 (zlen (f :: fs))) with (zlen (f :: fs)) by (unfold zlen; cbn [length]; lia).
      generalize (f :: fs) as l. clear f fs. induction l as [|f l IH].
      + cbn [fold_right sum]. change (zlen (@nil frame)) with 0. lia.
      + cbn [fold_right sum]. fold (sum l). pose proof (frame_bytes_bound f).
        assert (zlen (f :: l) * frame_structs sizeof = frame_structs sizeof + zlen l * frame_structs sizeof) by (unfold zlen; cbn [length]; lia).
        lia.
  Qed.

  Lemma declared_below ver sz : declared_size ver sz < 2 ^ 31.
  Proof.
    unfold declared_size. destruct (ver =? 4).
    - pose proof (synchsafe_value_range sz). change (2 ^ 29) with 536870912 in *. change (2 ^ 31) with 2147483648. lia.
    - unfold to_i32. change (2 ^ 31) with 2147483648. change (2 ^ 32) with 4294967296. pose proof (Z.mod_pos_bound (be_value sz) 4294967296). lia.
  Qed.

  (** The data of a frame is among the bytes that are read for it. *)
  Lemma frame_read_data ver used gap rest f : frame_read ver used gap rest (Some f) ->
    data_bytes (f_data f) <= zlen used - 10 + Z.of_nat gap /\ 8 <= zlen used /\ (gap = O -> 10 <= zlen used) /\ cut_off gap rest
    /\ Z.of_nat gap <= 2 ^ 31 + 1.
  Proof.
    change (2 ^ 31) with 2147483648.
    intros R. remember (Some f) as r eqn:Er. destruct R; try discriminate Er; injection Er as <-;
      repeat rewrite zlen_app; unfold zlen at 1; cbn [f_data frame_of data_bytes td_size cd_size cd_short ad_mime ad_desc ad_picture_size].
    - repeat rewrite zlen_app in *. pose proof (zlen_nonneg junk). pose proof (zlen_nonneg (text_image t)). pose proof (declared_below ver size) as D. change (2 ^ 31) with 2147483648 in D.
      unfold zlen in *. cbn [length] in *. repeat split; auto; lia.
    - repeat rewrite zlen_app in *. rewrite zlen_cells. unfold zlen in *. cbn [length] in *. repeat split; auto; try lia. now left.
    - repeat rewrite zlen_app in *. rewrite !zlen_cells. pose proof (declared_below ver size) as D. change (2 ^ 31) with 2147483648 in D. unfold zlen in *. cbn [length] in *. repeat split; auto; lia.
    - pose proof (declared_below ver size) as D. change (2 ^ 31) with 2147483648 in D. unfold zlen in *. rewrite app_length, repeat_length. unfold cells. rewrite map_length. repeat split; auto; lia.
    - pose proof (declared_below ver size) as D. change (2 ^ 31) with 2147483648 in D. unfold zlen in *. rewrite repeat_length. repeat split; auto; try lia. now right.
  Qed.

  Lemma frames_read_data ver limit k pos l fs fin : frames_read ver limit k pos l fs fin ->
    sum fs <= zlen l + 2 ^ 31 /\ 10 * zlen fs <= zlen l + 2.
  Proof.
    change (2 ^ 31) with 2147483648.
    induction 1 as [k pos l|k pos l|k pos used gap rest f fs fin L F R IH].
    - change (zlen (@nil frame)) with 0. cbn [sum fold_right]. pose proof (zlen_nonneg l). lia.
    - change (zlen (@nil frame)) with 0. cbn [sum fold_right]. pose proof (zlen_nonneg l). lia.
    - apply frame_read_data in F. destruct F as (D & U & G & C & B). change (2 ^ 31) with 2147483648 in B.
      rewrite zlen_app. cbn [sum fold_right]. fold (sum fs). replace (zlen (f :: fs)) with (1 + zlen fs) by (unfold zlen; cbn [length]; lia).
      destruct C as [-> | ->].
      + specialize (G eq_refl). lia.
      + change (zlen (@nil byte)) with 0 in *. assert (fs = []) as ->.
        { remember (@nil byte) as e eqn:Ee. destruct R as [| |? ? u g r ? ? ? ? F']; auto. apply frame_read_data in F'. destruct F' as (_ & U' & _).
          apply app_eq_nil in Ee. destruct Ee as [-> _]. change (zlen (@nil byte)) with 0 in U'. lia. }
        change (zlen (@nil frame)) with 0 in *. cbn [sum fold_right] in *. lia.
  Qed.

  Lemma file_read_bound content t : ID3v2_read_tag (Some content) = Ok (Some t) ->
    file_bytes_read sizeof t
    <= tag_structs sizeof + 2 * (th_tag_size (t_header t) + 10) + (zlen content / 10) * frame_structs sizeof + zlen content + 2 ^ 31.
  Proof.
    intros E. destruct (read_file_exactly content) as [(r & t' & R & E' & S)|(_ & u & E')]; [|congruence].
    assert (t' = Some t) by congruence. subst t'. destruct r as [((h & fs) & pad)|]; [|contradiction]. destruct S as (Sh & St & _).
    assert (B : sum fs <= zlen content - 10 + 2 ^ 31 /\ 10 * Z.max 1 (zlen fs) <= zlen content).
    { destruct R as (X & R). destruct (tag_length content) as [N|] eqn:T; [|discriminate R].
      remember (firstn (Z.to_nat N) content) as l eqn:El.
      assert (Ec : content = l ++ skipn (Z.to_nat N) content) by (subst l; now rewrite firstn_skipn).
      assert (Zl : zlen l <= zlen content) by (subst l; unfold zlen; rewrite firstn_length; lia).
      change (2 ^ 31) with 2147483648.
      inversion R as [| |major minor flags size body fs' fin El' Ls V F FR|major minor flags size ext body fs' fin El' Ls Le V F e start FR]; subst h fs pad.
      - apply frames_read_data in FR. change (2 ^ 31) with 2147483648 in FR. rewrite El' in Zl. rewrite !zlen_app in Zl. unfold zlen in *. cbn [length] in *. rewrite Ls in Zl.
        change (length (lit "ID3")) with 3%nat in Zl. lia.
      - exfalso. rewrite El' in Ec. destruct size as [|s3 [|s2 [|s1 [|s0 [|? ?]]]]]; try discriminate Ls.
        rewrite Ec in X. change (announces_extended ((lit "ID3" ++ [major; minor; flags] ++ [s3; s2; s1; s0] ++ ext ++ body) ++ skipn (Z.to_nat N) content))
          with (known_version major && has_extended_header flags) in X. rewrite V, F in X. discriminate X. }
    unfold file_bytes_read, tag_bytes_read, stream_room. cbv zeta. rewrite (tag_room _ _ St). pose proof (frames_room_bound fs) as FB.
    unfold tag_structs. set (c := zlen content) in *. set (k := Z.max 1 (zlen fs)) in *.
    assert (0 <= frame_structs sizeof).
    { unfold frame_structs. pose proof (SN RNode). pose proof (SN RFrame). pose proof (SN RTextData). pose proof (SN RCommentData). pose proof (SN RApicData). pose proof (SN RFrameHeader). lia. }
    assert (k * frame_structs sizeof <= (c / 10) * frame_structs sizeof).
    { apply Z.mul_le_mono_nonneg_r; [assumption|]. apply Z.div_le_lower_bound; lia. }
    lia.
  Qed.

  Lemma specs_room fs : frames_room (map frame_of fs) = specs_bytes sizeof fs.
  Proof.
    destruct fs as [|f fs]; [reflexivity|].
    change (frames_room (map frame_of (f :: fs))) with (fold_right (fun f n => sizeof RNode + frame_bytes sizeof f + n) 0 (map frame_of (f :: fs))).
    change (specs_bytes sizeof (f :: fs)) with (fold_right (fun f n => spec_bytes sizeof f + n) 0 (f :: fs)).
    generalize (f :: fs) as l. clear f fs. induction l as [|f l IH]; [reflexivity|]. cbn [map fold_right]. rewrite IH.
    unfold frame_bytes, spec_bytes, strings_bytes. destruct f; cbn [data_struct f_data frame_of data_bytes td_size cd_size cd_short ad_mime ad_desc ad_picture_size];
      rewrite ?zlen_cells; lia.
  Qed.

  Lemma need_written maj mi fl n fs sound :
    known_version maj = true -> has_extended_header fl = false ->
    Forall (fun f => survives maj f = true) fs -> frames_size fs <= n -> n < 2 ^ 28 ->
    exists t, ID3v2_read_tag (Some (tag_bytes maj mi fl n fs ++ sound)) = Ok (Some t)
      /\ takes sizeof (ID3v2_read_tag_o (Some (tag_bytes maj mi fl n fs ++ sound))) (Ok (Some t))
           (tag_structs sizeof + 2 * (n + 10) + 10 + specs_bytes sizeof fs).
  Proof.
    intros V X R L B. destruct (file_read_back maj mi fl n fs sound V X R L B) as (t & E & H & T & _).
    exists t. split; [exact E|]. pose proof (need_file sizeof SN _ _ E) as N.
    replace (tag_structs sizeof + 2 * (n + 10) + 10 + specs_bytes sizeof fs) with (file_bytes_read sizeof t); [exact N|].
    unfold file_bytes_read, tag_bytes_read, stream_room, tag_structs. cbv zeta. rewrite (tag_room _ _ T), specs_room, H. cbn [th_tag_size]. lia.
  Qed.

  Lemma small_raw m : 1 <= m < 2 ^ 31 ->
    zlen (claiming_raw m) = 21
    /\ exists t, ID3v2_read_tag (Some (claiming_raw m)) = Ok (Some t)
         /\ takes sizeof (ID3v2_read_tag_o (Some (claiming_raw m))) (Ok (Some t))
              (tag_structs sizeof + 52 + sizeof RNode + sizeof RFrame + sizeof RFrameHeader + m).
  Proof.
    intros H. change (2 ^ 31) with 2147483648 in H. split; [reflexivity|].
    assert (X : announces_extended (claiming_raw m) = false) by reflexivity.
    assert (T : tag_length (claiming_raw m) = Some 21) by reflexivity.
    assert (F : firstn (Z.to_nat 21) (claiming_raw m) = claiming_raw m) by reflexivity.
    assert (L : (Z.to_nat 21 - length (claiming_raw m))%nat = O) by reflexivity.
    set (body := lit "PRIV" ++ be32 m ++ [x00; x00] ++ lit "A").
    set (g := mkFrame (mkFH (cells (lit "PRIV")) (declared_size 3 (be32 m)) (cells [x00; x00])) (DRaw (cells (lit "A") ++ repeat None (Z.to_nat (m - 1))))).
    assert (Fr : frame_read 3 body (Z.to_nat (m - 1)) [] (Some g)).
    { apply ReadOther; try reflexivity; [|now right].
      rewrite declared_be32 by (try discriminate; lia). change (zlen (lit "A")) with 1. lia. }
    assert (E : claiming_raw m = lit "ID3" ++ [x03; x00; x00] ++ synchsafe32 11 ++ body ++ []) by reflexivity.
    assert (V : synchsafe_value (synchsafe32 11) = 11) by reflexivity.
    assert (Z : zlen body = 11) by reflexivity.
    assert (R : file_read (claiming_raw m) (Some (mkTH (lit "ID3") x03 x00 x00 11 0, [g], 0))).
    { unfold file_read. rewrite X, T, F, L. split; [reflexivity|].
      replace 0 with (zlen (claiming_raw m) + Z.of_nat 0 - 21) at 2 by reflexivity.
      rewrite <- V at 1. apply ReadPlain with (body := body ++ []); auto.
      rewrite V. change (bv x03) with 3. apply ReadFrame with (gap := Z.to_nat (m - 1)); [lia|exact Fr|].
      rewrite Nat.min_0_r, Z. apply ReadEnd. lia. }
    destruct (read_file_exactly (claiming_raw m)) as [(r & t & R' & Et & S)|(Nr & _)]; [|now apply Nr in R].
    rewrite (file_read_once _ _ _ R' R) in S. destruct t as [t|]; [|contradiction]. destruct S as (S1 & S2 & S3).
    exists t. split; [exact Et|]. pose proof (need_file sizeof SN _ _ Et) as N.
    replace (tag_structs sizeof + 52 + sizeof RNode + sizeof RFrame + sizeof RFrameHeader + m) with (file_bytes_read sizeof t); [exact N|].
    unfold file_bytes_read, tag_bytes_read, stream_room, tag_structs. cbv zeta. rewrite (tag_room _ _ S2), S1. cbn [th_tag_size frames_room fold_right].
    unfold frame_bytes, g. cbn [f_data data_bytes data_struct]. rewrite zlen_app, zlen_cells. change (zlen (lit "A")) with 1. unfold zlen. rewrite repeat_length. lia.
  Qed.

  Lemma read_short content t limit : ID3v2_read_tag (Some content) = Ok (Some t) -> 0 <= limit < file_bytes_read sizeof t ->
    let r := fst (ID3v2_read_tag_o (Some content) (limited sizeof limit) []) in
    r = Ok None \/ r = Ok (Some (unlisted t)) /\ frameless t = true \/ undefined r.
  Proof.
    intros E L r. destruct (need_file sizeof SN content t E) as (_ & G). specialize (G limit L).
    destruct (a_read_tag (Some content) (limited sizeof limit) []) as (new & En & _ & A). rewrite app_nil_r in En. rewrite En in G.
    specialize (A G). fold r in A. unfold file_answer in A. destruct (_ || _); [now left|]. rewrite E in A. cbn [tag_answer] in A.
    right. destruct (frameless t) eqn:Fl; cbn [andb] in A.
    - destruct (refused_only is_node new); [now left|]. destruct A as [A|(A & _)]; [now right|discriminate A].
    - destruct A as [A|(A & _)]; [now right|discriminate A].
  Qed.
End Sizes.
