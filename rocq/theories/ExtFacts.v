(** Tags that announce an extended header. *)
From Verif Require Import File Calls Spec SpecEdit SpecFile.
From Verif Require Export FileFacts.

Lemma ext_parse_mem maj mi fl s4 e4 (rest tail : mem) :
  known_version maj = true -> has_extended_header fl = true ->
  length s4 = 4%nat -> length e4 = 4%nat ->
  let buf := cells (lit "ID3" ++ [maj; mi; fl] ++ s4 ++ e4) ++ rest in
  let e := synchsafe_value e4 in
  let n := synchsafe_value s4 in
  zlen buf < 2 ^ 31 ->
  ID3v2_read_tag_from_buffer (Some (buf ++ tail)) (zlen buf)
  = let* (frames, fresh, cs) :=
      parse_loop (length buf + 2) n (schar maj)
                 (mkCS (if 0 <? e then e else 14) (zlen buf) buf) (list_of []) 0 in
    let* padding := isub (cs_size cs) (cs_cursor cs) in
    Ok (Some (mkTag (mkTH (lit "ID3") maj mi fl n e) frames padding fresh)).
Proof.
  intros V X Ls Le buf e n B.
  unfold ID3v2_read_tag_from_buffer. rewrite from_buffer_at by reflexivity. go.
  destruct s4 as [|s3 [|s2 [|s1 [|s0 [|? ?]]]]]; try discriminate Ls.
  assert (S : buf = cells [x49; x44; x33; maj; mi; fl; s3; s2; s1; s0] ++ cells e4 ++ rest).
  { transitivity (cells ([x49; x44; x33; maj; mi; fl; s3; s2; s1; s0] ++ e4) ++ rest); [reflexivity|].
    now rewrite cells_app, <- app_assoc. }
  unfold Tag_parse. rewrite S.
  assert (F : fits [] (cells [x49; x44; x33; maj; mi; fl; s3; s2; s1; s0] ++ cells e4 ++ rest)).
  { unfold fits. rewrite <- S. change (zlen (@nil cell)) with 0. lia. }
  rewrite header_start by (auto; reflexivity). cbv zeta. rewrite V, X. cbn [negb].
  rewrite read_into_at; [|unfold fits in *; rewrite !zlen_app in *; change (zlen (@nil cell)) with 0 in F; lia|
    rewrite zlen_cells; unfold zlen; rewrite Le; reflexivity]. go.
  rewrite btoi_spec' by (unfold zlen; rewrite Le; reflexivity). go.
  rewrite decode_be_value by auto. fold n. fold e.
  pose proof (synchsafe_value_range [s3; s2; s1; s0]) as Rn. fold n in Rn.
  pose proof (synchsafe_value_range e4) as Re. fold e in Re.
  change (2 ^ 29) with 536870912 in *.
  unfold TagHeader_new. cbn [th_ext_size th_tag_size th_major].
  rewrite (to_i32_id e) by (change (2 ^ 31) with 2147483648; lia).
  rewrite !(to_u32_id) by (change (2 ^ 32) with 4294967296; lia). rewrite !zb_schar.
  unfold ID3v2_Tag_new. cbn [t_frames t_fresh]. change FrameList_new with (list_of []).
  set (pre := cells [_; _; _; _; _; _; _; _; _; _] ++ cells e4) in *.
  assert (E : (if 0 <? e then CharStream_seek (at_pos pre rest) (to_i32 e) SEEK_SET else Ok (at_pos pre rest))
    = Ok (mkCS (if 0 <? e then e else 14) (zlen buf) buf)).
  { assert (Q : buf = pre ++ rest) by (unfold pre; rewrite <- app_assoc; exact S).
    assert (Z : zlen buf = zlen pre + zlen rest) by (now rewrite <- zlen_app, <- Q).
    destruct (0 <? e); cbn [CharStream_seek]; unfold with_cursor, at_pos; cbn [cs_size cs_stream].
    - rewrite to_i32_id by (change (2 ^ 31) with 2147483648; lia). now rewrite <- Z, <- Q.
    - rewrite <- Z, <- Q. replace (zlen pre) with 14.
      + reflexivity.
      + unfold pre. rewrite zlen_app, !zlen_cells.
        replace (zlen e4) with 4 by (unfold zlen; rewrite Le; reflexivity). reflexivity. }
  rewrite E. go. cbn [cs_stream]. rewrite <- S. reflexivity.
Qed.

Lemma ext_parse maj mi fl s4 e4 rest p :
  known_version maj = true -> has_extended_header fl = true ->
  length s4 = 4%nat -> length e4 = 4%nat ->
  let buf := ext_buffer maj mi fl s4 e4 rest in
  let e := synchsafe_value e4 in
  let n := synchsafe_value s4 in
  points_to p buf -> zlen buf < 2 ^ 31 ->
  ID3v2_read_tag_from_buffer p (zlen buf)
  = let* (frames, fresh, cs) :=
      parse_loop (length buf + 2) n (schar maj)
                 (mkCS (if 0 <? e then e else 14) (zlen buf) (cells buf)) (list_of []) 0 in
    let* padding := isub (cs_size cs) (cs_cursor cs) in
    Ok (Some (mkTag (mkTH (lit "ID3") maj mi fl n e) frames padding fresh)).
Proof.
  intros V X Ls Le buf e n (tail & ->) B.
  assert (S : cells (lit "ID3" ++ [maj; mi; fl] ++ s4 ++ e4) ++ cells rest = cells buf).
  { unfold buf, ext_buffer. rewrite <- cells_app. f_equal. rewrite <- !app_assoc. reflexivity. }
  pose proof (ext_parse_mem maj mi fl s4 e4 (cells rest) tail V X Ls Le) as Q. cbv zeta in Q. rewrite S in Q.
  rewrite zlen_cells in Q. specialize (Q B). replace (length (cells buf)) with (length buf) in Q by (unfold cells; now rewrite map_length). exact Q.
Qed.

Lemma frames_in_list_of ps : frames_in (list_of ps) = map fp_frame ps.
Proof.
  destruct ps as [|p ps]; [reflexivity|]. unfold list_of, frames_in.
  generalize (p :: ps). intros l. induction l as [|q l IH]; [reflexivity|]. cbn [map flat_map n_frame app]. now rewrite IH.
Qed.

Lemma ext_start maj mi fl s4 e4 rest p :
  known_version maj = true -> has_extended_header fl = true ->
  length s4 = 4%nat -> length e4 = 4%nat ->
  let buf := ext_buffer maj mi fl s4 e4 rest in
  let e := synchsafe_value e4 in
  points_to p buf -> zlen buf < 2 ^ 31 ->
  0 < e < synchsafe_value s4 -> e <= zlen buf ->
  let at_e := at_pos (cells (firstn (Z.to_nat e) buf)) (cells (skipn (Z.to_nat e) buf)) in
  match Frame_parse at_e (schar maj) with
  | Ok (Some f, _) => forall t, ID3v2_read_tag_from_buffer p (zlen buf) = Ok (Some t) ->
                      exists fs, frames_in (t_frames t) = f :: fs
  | Ok (None, _) => exists t, ID3v2_read_tag_from_buffer p (zlen buf) = Ok (Some t) /\ frames_in (t_frames t) = []
  | Ub u => ID3v2_read_tag_from_buffer p (zlen buf) = Ub u
  | _ => False
  end.
Proof.
  intros V X Ls Le buf e P B R Rb at_e.
  pose proof (ext_parse maj mi fl s4 e4 rest p V X Ls Le P B) as E. cbv zeta in E. fold buf e in E.
  rewrite E. clear E. ifT.
  assert (A : mkCS e (zlen buf) (cells buf) = at_e).
  { unfold at_e. rewrite <- zlen_cells. rewrite at_pos_cursor by (rewrite zlen_cells; lia).
    now rewrite take_cells, drop_cells. }
  rewrite A. replace (length buf + 2)%nat with (S (length buf + 1)) by lia.
  assert (C : parse_loop (S (length buf + 1)) (synchsafe_value s4) (schar maj) at_e (list_of []) 0
    = let* (current_frame, cs) := Frame_parse at_e (schar maj) in
      match current_frame with
      | None => Ok (list_of [], 0%nat, cs)
      | Some f => let* frames := FrameList_add_frame (list_of []) (0%nat, f) in
                  parse_loop (length buf + 1) (synchsafe_value s4) (schar maj) cs frames 1
      end).
  { cbn [parse_loop]. rewrite <- A. cbn [cs_cursor].
    pose proof (synchsafe_value_range s4). change (2 ^ 29) with 536870912 in *.
    rewrite to_u32_id by (change (2 ^ 32) with 4294967296; lia). ifT. reflexivity. }
  rewrite C. clear C.
  assert (F : fits (cells (firstn (Z.to_nat e) buf)) (cells (skipn (Z.to_nat e) buf))).
  { unfold fits. rewrite <- zlen_app, <- cells_app, firstn_skipn, zlen_cells. exact B. }
  pose proof (benign_frame_parse at_e (schar maj)) as Bn.
  destruct (Frame_parse at_e (schar maj)) as [[[f|] cs]|u| |] eqn:Q; cbn [benign] in Bn; try contradiction; go.
  - rewrite add_frame_list. go. intros t E. binv E. destruct v as [[l fr] cs'].
    apply parse_loop_adds in E0. destruct E0 as (more & ->). binv E. injection E as <-.
    cbn [t_frames]. exists (map fp_frame more). apply (frames_in_list_of ((0%nat, f) :: more)).
  - apply frame_parse_moved in Q; [|exact F]. destruct Q as (-> & _). unfold fits in F. unfold at_e.
    cbn [at_pos cs_size cs_cursor].
    pose proof (zlen_nonneg (cells (skipn (Z.to_nat e) buf))). pose proof (zlen_nonneg (cells (firstn (Z.to_nat e) buf))).
    rewrite isub_ok by lia. go. eexists. split; reflexivity.
  - reflexivity.
Qed.

(** The smallest extended header: six bytes follow its size field (v2.3), or
    six bytes with it (v2.4).  The bytes of the tag size are taken as a frame
    id. *)
Lemma ext_minimal maj mi fl n f2 b6 rest p :
  known_version maj = true -> has_extended_header fl = true ->
  length f2 = 2%nat -> length b6 = 6%nat -> 6 < n < 65 * 2 ^ 21 ->
  let buf := ext_buffer maj mi fl (synchsafe32 n) [x00; x00; x00; x06] (f2 ++ b6 ++ rest) in
  points_to p buf -> zlen buf < 2 ^ 31 ->
  forall t, ID3v2_read_tag_from_buffer p (zlen buf) = Ok (Some t) ->
  exists fs, frames_in (t_frames t) = frame_of (FOther (synchsafe32 n) f2 b6) :: fs.
Proof.
  intros V X L2 L6 N buf P B.
  assert (Hn : synchsafe_value (synchsafe32 n) = n).
  { apply synchsafe_value_synchsafe32. change (2 ^ 21) with 2097152 in N. change (2 ^ 28) with 268435456. lia. }
  assert (Zb : zlen buf = 22 + zlen rest).
  { unfold buf, ext_buffer. rewrite !zlen_app. unfold zlen at 5 6. rewrite L2, L6.
    change (zlen (lit "ID3")) with 3. change (zlen [maj; mi; fl]) with 3. change (zlen (synchsafe32 n)) with 4.
    change (zlen [x00; x00; x00; x06]) with 4. lia. }
  pose proof (zlen_nonneg rest).
  pose proof (ext_start maj mi fl (synchsafe32 n) [x00; x00; x00; x06] (f2 ++ b6 ++ rest) p V X eq_refl eq_refl P B) as E.
  cbv zeta in E. change (synchsafe_value [x00; x00; x00; x06]) with 6 in E. change (Z.to_nat 6) with 6%nat in E.
  rewrite Hn in E. specialize (E ltac:(lia)). fold buf in E. specialize (E ltac:(lia)).
  set (f := FOther (synchsafe32 n) f2 b6).
  assert (O : frame_ok f = true).
  { unfold frame_ok, f. cbn [frame_id frame_flags]. rewrite body_size_other.
    assert (Z6 : zlen b6 = 6) by (unfold zlen; now rewrite L6). rewrite Z6.
    unfold len_is. rewrite L2. change (length (synchsafe32 n)) with 4%nat. cbn [Nat.eqb andb].
    change (6 + 10 <? 2 ^ 31) with true. cbn [andb].
    unfold id_starts, synchsafe32.
    assert (D : n / 2 ^ 21 mod 128 = n / 2 ^ 21) by (change (2 ^ 21) with 2097152 in *; apply Z.mod_small; lia).
    rewrite D. assert (R : 0 <= n / 2 ^ 21 < 65) by (change (2 ^ 21) with 2097152 in *; lia).
    assert (W : forall c, 65 <= bv c -> Byte.eqb (zb (n / 2 ^ 21)) c = false).
    { intros c Hc. change Byte.eqb with beq. apply beq_false. intros <-. rewrite bv_zb, Z.mod_small in Hc by lia. lia. }
    rewrite !W by (vm_compute; congruence). cbn [negb andb].
    destruct (forallb is_zero _) eqn:Zr; [|reflexivity]. exfalso.
    cbn [forallb] in Zr. rewrite !is_zero_beq in Zr.
    apply andb_prop in Zr. destruct Zr as [Z1 Zr]. apply andb_prop in Zr. destruct Zr as [Z2 Zr].
    apply andb_prop in Zr. destruct Zr as [Z3 Zr]. apply andb_prop in Zr. destruct Zr as [Z4 _].
    apply beq_true in Z1, Z2, Z3, Z4. apply (f_equal bv) in Z1, Z2, Z3, Z4. rewrite bv_zb in *.
    change (bv x00) with 0 in *.
    change (2 ^ 21) with 2097152 in *. change (2 ^ 14) with 16384 in *. change (2 ^ 7) with 128 in *. lia. }
  assert (D : declared_size (schar maj) [x00; x00; x00; x06] = body_size f).
  { unfold f. rewrite body_size_other. unfold zlen. rewrite L6.
    unfold known_version in V. apply orb_prop in V. destruct V as [V|V]; apply beq_true in V; subst maj; reflexivity. }
  assert (S : skipn 6 buf = (frame_id f ++ [x00; x00; x00; x06] ++ frame_flags f ++ body_with x00 f) ++ rest).
  { unfold buf, ext_buffer, f. cbn [frame_id frame_flags body_with]. rewrite <- !app_assoc. reflexivity. }
  assert (Fit : fits (cells (firstn 6 buf)) (cells (frame_id f ++ [x00; x00; x00; x06] ++ frame_flags f ++ body_with x00 f) ++ cells rest)).
  { unfold fits. rewrite <- cells_app, <- S, <- zlen_app, <- cells_app, firstn_skipn, zlen_cells. exact B. }
  rewrite S, cells_app in E.
  rewrite (frame_parse f x00 [x00; x00; x00; x06]) in E; auto.
  unfold f. cbn [readable]. unfold len_is. rewrite L6. reflexivity.
Qed.

(** A v2.3 extended header with a checksum: ten bytes follow its size field,
    the first of them [x80]. *)
Lemma ext_checksum mi fl n g pad crc rest p :
  has_extended_header fl = true -> length pad = 4%nat -> length crc = 4%nat -> 10 < n < 2 ^ 28 ->
  let buf := ext_buffer x03 mi fl (synchsafe32 n) [x00; x00; x00; x0a] ([x80; g] ++ pad ++ crc ++ rest) in
  points_to p buf -> zlen buf < 2 ^ 31 ->
  ID3v2_read_tag_from_buffer p (zlen buf) = Ub BadSize.
Proof.
  intros X Lp Lc N buf P B.
  assert (Hn : synchsafe_value (synchsafe32 n) = n) by (apply synchsafe_value_synchsafe32; lia).
  assert (Zb : zlen buf = 24 + zlen rest).
  { unfold buf, ext_buffer. rewrite !zlen_app. unfold zlen at 6 7. rewrite Lp, Lc.
    change (zlen (lit "ID3")) with 3. change (zlen [x03; mi; fl]) with 3. change (zlen (synchsafe32 n)) with 4.
    change (zlen [x00; x00; x00; x0a]) with 4. change (zlen [x80; g]) with 2. lia. }
  pose proof (zlen_nonneg rest).
  pose proof (ext_start x03 mi fl (synchsafe32 n) [x00; x00; x00; x0a] ([x80; g] ++ pad ++ crc ++ rest) p eq_refl X eq_refl eq_refl P B) as E.
  cbv zeta in E. change (synchsafe_value [x00; x00; x00; x0a]) with 10 in E. change (Z.to_nat 10) with 10%nat in E.
  rewrite Hn in E. specialize (E ltac:(lia)). fold buf in E. specialize (E ltac:(lia)).
  destruct pad as [|p1 [|p2 [|p3 [|p4 [|? ?]]]]]; try discriminate Lp.
  assert (S : skipn 10 buf = ([x00; x00; x00; x0a] ++ [x80; g; p1; p2] ++ [p3; p4]) ++ crc ++ rest) by reflexivity.
  assert (Fit : fits (cells (firstn 10 buf)) ((cells [x00; x00; x00; x0a] ++ cells [x80; g; p1; p2] ++ cells [p3; p4]) ++ cells (crc ++ rest))).
  { unfold fits. rewrite <- !cells_app, <- S, <- zlen_app, <- cells_app, firstn_skipn, zlen_cells. exact B. }
  rewrite S, (cells_app ([x00; x00; x00; x0a] ++ _)), !cells_app in E. rewrite <- (cells_app crc) in E.
  change (schar x03) with 3 in E.
  rewrite Frame_parse_dispatch in E; auto.
  change (id_starts [x00; x00; x00; x0a] _) with false in E. cbv iota in E.
  replace (declared_size 3 [x80; g; p1; p2] <? 0) with true in E.
  - exact E.
  - unfold declared_size. change (3 =? 4) with false. cbv iota. rewrite be_value4. change (bv x80) with 128.
    pose proof (bv_range g). pose proof (bv_range p1). pose proof (bv_range p2). unfold to_i32.
    change (2 ^ 31) with 2147483648. change (2 ^ 32) with 4294967296. lia.
Qed.

(** Size zero: the frames are expected after the size field. *)
Lemma ext_zero maj mi fl fs pad trailing p :
  known_version maj = true -> has_extended_header fl = true ->
  Forall (fun f => frame_ok f = true /\ readable f = true) fs ->
  0 <= pad -> 4 + frames_size fs + pad < 2 ^ 28 ->
  let n := 4 + frames_size fs + pad in
  let buf := ext_buffer maj mi fl (synchsafe32 n) [x00; x00; x00; x00]
               (images (size_field_of maj) fs ++ zeros pad ++ trailing) in
  points_to p buf -> zlen buf < 2 ^ 31 ->
  exists t, ID3v2_read_tag_from_buffer p (zlen buf) = Ok (Some t)
    /\ t_header t = mkTH (lit "ID3") maj mi fl n 0 /\ tag_has t (map frame_of fs)
    /\ t_padding t = pad + zlen trailing.
Proof.
  intros V X H P N n buf Pt B. pose proof (frames_size_nonneg fs).
  assert (Hn : synchsafe_value (synchsafe32 n) = n) by (apply synchsafe_value_synchsafe32; lia).
  pose proof (ext_parse maj mi fl (synchsafe32 n) [x00; x00; x00; x00] _ p V X eq_refl eq_refl Pt B) as E.
  cbv zeta in E. change (synchsafe_value [x00; x00; x00; x00]) with 0 in E. rewrite Hn in E.
  change (0 <? 0) with false in E. cbv iota in E. fold buf in E. rewrite E. clear E.
  assert (RB : Forall (reads_back (schar maj) (size_field_of maj)) fs) by (apply all_read_back; auto; lia).
  assert (O : oks fs) by (eapply Forall_impl; [|exact H]; intros a Ha; apply Ha).
  assert (Zi : zlen (images (size_field_of maj) fs) = frames_size fs) by (apply images_zlen; auto; intros; apply size_field_length).
  set (pre := lit "ID3" ++ [maj; mi; fl] ++ synchsafe32 n ++ [x00; x00; x00; x00]).
  set (rest := zeros pad ++ trailing).
  assert (Zr : zlen rest = pad + zlen trailing) by (unfold rest, zeros; rewrite zlen_app, zlen_repeat; lia).
  assert (Q : cells buf = cells pre ++ cells (images (size_field_of maj) fs) ++ cells rest).
  { rewrite <- !cells_app. reflexivity. }
  assert (Zp : zlen (cells pre) = 14) by reflexivity.
  assert (A : mkCS 14 (zlen buf) (cells buf) = at_pos (cells pre) (cells (images (size_field_of maj) fs) ++ cells rest)).
  { unfold at_pos. rewrite <- Q, <- zlen_app, <- Q, (zlen_cells buf), Zp. reflexivity. }
  rewrite A.
  assert (F : fits (cells pre) (cells (images (size_field_of maj) fs) ++ cells rest)).
  { unfold fits. rewrite <- zlen_app, <- Q, zlen_cells. exact B. }
  rewrite parse_loop_frames; auto.
  - go. cbn [app at_pos cs_size cs_cursor Nat.add].
    unfold fits in F. rewrite !zlen_app in *. pose proof (zlen_nonneg trailing).
    rewrite zlen_cells in *. rewrite isub_ok by (rewrite !zlen_cells in *; lia). go.
    eexists. split; [reflexivity|]. split; [reflexivity|]. split; [apply tag_has_fresh|].
    cbn [t_padding]. rewrite !zlen_cells in *. lia.
  - intros; apply size_field_length.
  - pose proof (frames_count fs (size_field_of maj) O (fun n => size_field_length maj n)).
    unfold buf, ext_buffer. rewrite !app_length. lia.
  - rewrite Zp. unfold n. lia.
  - rewrite Zp. destruct (Z.le_gt_cases pad 10) as [L|L]; [left; unfold n; lia|right].
    exists (cells (zeros (pad - 4)) ++ cells trailing). unfold rest. rewrite cells_app. unfold zeros.
    replace (Z.to_nat pad) with (4 + Z.to_nat (pad - 4))%nat by lia. reflexivity.
Qed.

(** A tag with the flag is written without extended header.  Reading it back
    takes the id of the first frame for the size of one. *)
Lemma ext_written t f fs maj mi fl n ext c id :
  known_version maj = true -> has_extended_header fl = true ->
  tag_has t (map frame_of (f :: fs)) -> oks (f :: fs) ->
  t_header t = mkTH (lit "ID3") maj mi fl n ext ->
  frames_size (f :: fs) <= n -> n < 2 ^ 28 ->
  frame_id f = c :: id -> n <= bv c * 2 ^ 21 ->
  exists cs t', Tag_to_char_stream t = Ok cs
    /\ ID3v2_read_tag_from_buffer (Some (cs_stream cs)) (cs_size cs) = Ok (Some t')
    /\ tag_has t' [].
Proof.
  intros V X T K H L B I C. pose proof (frames_size_nonneg (f :: fs)).
  destruct (stream_bytes t (f :: fs) maj mi fl n ext T K H L B) as (cs & E & Es & Ez).
  inversion K as [|? ? Kf _]; subst.
  pose proof (frame_ok_common f Kf) as (Li & _). rewrite I in Li.
  destruct id as [|i2 [|i3 [|i4 [|? ?]]]]; try discriminate Li.
  set (e4 := [c; i2; i3; i4]).
  assert (Q : exists rest, tag_bytes maj mi fl n (f :: fs) = ext_buffer maj mi fl (synchsafe32 n) e4 rest).
  { unfold tag_bytes, ext_buffer, header_image. rewrite images_cons. unfold frame_image at 1. rewrite I.
    eexists. rewrite <- !app_assoc. reflexivity. }
  destruct Q as (rest & Q). rewrite Q in Es, Ez.
  assert (Bz : zlen (ext_buffer maj mi fl (synchsafe32 n) e4 rest) < 2 ^ 31).
  { rewrite <- Q, tag_bytes_zlen by auto. lia. }
  assert (P : points_to (Some (cs_stream cs)) (ext_buffer maj mi fl (synchsafe32 n) e4 rest)).
  { exists []. now rewrite app_nil_r, Es. }
  pose proof (ext_parse maj mi fl (synchsafe32 n) e4 rest _ V X eq_refl eq_refl P Bz) as R. cbv zeta in R.
  rewrite <- Ez in R. rewrite (synchsafe_value_synchsafe32 n) in R by lia.
  assert (G : n <= synchsafe_value e4 /\ 0 < synchsafe_value e4).
  { unfold e4. cbn [synchsafe_value].
    match goal with |- context [Z.lor ?x (bv c * 2 ^ 21)] => set (y := x) end.
    assert (0 <= y).
    { unfold y. pose proof (bv_range i2). pose proof (bv_range i3). pose proof (bv_range i4).
      apply Z.lor_nonneg; split; [apply Z.lor_nonneg; split|]; lia. }
    pose proof (bv_range c). pose proof (lor_ge y (bv c * 2 ^ 21) ltac:(lia) ltac:(lia)).
    split; [lia|]. destruct (Z.eq_dec (bv c) 0); [|lia]. rewrite frames_size_cons in *.
    pose proof (frames_size_nonneg fs). pose proof (body_size_nonneg f). lia. }
  pose proof (synchsafe_value_range e4) as Re. change (2 ^ 29) with 536870912 in Re.
  set (buf := ext_buffer maj mi fl (synchsafe32 n) e4 rest) in *.
  replace (0 <? synchsafe_value e4) with true in R by lia.
  assert (Lp : parse_loop (length buf + 2) n (schar maj) (mkCS (synchsafe_value e4) (cs_size cs) (cells buf)) (list_of []) 0
    = Ok (list_of [], 0%nat, mkCS (synchsafe_value e4) (cs_size cs) (cells buf))).
  { replace (length buf + 2)%nat with (S (length buf + 1)) by lia. cbn [parse_loop cs_cursor].
    rewrite to_u32_id by (change (2 ^ 32) with 4294967296; lia). ifF. reflexivity. }
  rewrite Lp in R. cbn [bind cs_size cs_cursor] in R.
  assert (0 <= cs_size cs) by (rewrite Ez; apply zlen_nonneg).
  rewrite isub_ok in R by (change (2 ^ 31) with 2147483648 in *; lia). cbn [bind] in R.
  eexists _, _. split; [exact E|]. split; [exact R|].
  exists []. repeat split; constructor.
Qed.
