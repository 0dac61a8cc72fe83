(** Writing a tag and reading it back. *)
From Verif Require Import File Calls Spec SpecEdit.
From Verif Require Export ClaimFacts KindFacts.

(** ** v2.3 *)

Lemma written_buffer t fs maj mi fl n :
  tag_has t (map frame_of fs) -> oks fs -> t_header t = mkTH (lit "ID3") maj mi fl n 0 ->
  frames_size fs <= n -> n < 2 ^ 28 ->
  exists cs, Tag_to_char_stream t = Ok cs /\
    let bytes := header_image maj mi fl (frames_size fs + (n - frames_size fs)) ++ images be32 fs ++ zeros (n - frames_size fs) ++ [] in
    points_to (Some (cs_stream cs)) bytes /\ cs_size cs = zlen bytes /\ zlen bytes < 2 ^ 31.
Proof.
  intros T K H L B. pose proof (frames_size_nonneg fs).
  destruct (tag_write t fs maj mi fl n 0 T K H) as (cs & E & Z & S); try lia.
  exists cs. split; [exact E|]. cbv zeta. replace (frames_size fs + (n - frames_size fs)) with n by lia.
  unfold tag_image in S. rewrite four_bytes_small in S by lia.
  unfold header_image. rewrite app_nil_r.
  replace ((lit "ID3" ++ [maj; mi; fl] ++ synchsafe32 n) ++ images be32 fs ++ zeros (n - frames_size fs))
    with (lit "ID3" ++ [maj; mi; fl] ++ synchsafe32 n ++ images be32 fs ++ zeros (n - frames_size fs))
    by (rewrite <- !app_assoc; reflexivity).
  rewrite S. split; [|].
  - exists []. rewrite app_nil_r. reflexivity.
  - rewrite Z, !zlen_app, images_zlen by auto.
    assert (zlen (zeros (n - frames_size fs)) = n - frames_size fs) by (unfold zeros; rewrite zlen_repeat; lia).
    change (zlen (lit "ID3")) with 3. change (zlen [maj; mi; fl]) with 3. change (zlen (synchsafe32 n)) with 4. lia.
Qed.

Lemma round_trip_gen t fs maj mi fl n :
  known_version maj = true -> has_extended_header fl = false ->
  tag_has t (map frame_of fs) -> Forall (reads_back (schar maj) be32) fs ->
  t_header t = mkTH (lit "ID3") maj mi fl n 0 -> frames_size fs <= n -> n < 2 ^ 28 ->
  exists cs t', Tag_to_char_stream t = Ok cs
    /\ ID3v2_read_tag_from_buffer (Some (cs_stream cs)) (cs_size cs) = Ok (Some t')
    /\ t_header t' = t_header t /\ tag_has t' (map frame_of fs) /\ t_padding t' = n - frames_size fs.
Proof.
  intros V X T R H L B.
  assert (K : oks fs) by (eapply Forall_impl; [|exact R]; intros a Ha; apply Ha).
  destruct (written_buffer t fs maj mi fl n T K H L B) as (cs & E & P & Z & Zb).
  destruct (read_tag_gen maj mi fl be32 fs (n - frames_size fs) [] (Some (cs_stream cs))) as (t' & E' & H' & T' & P'); auto; try lia.
  exists cs, t'. rewrite Z. split; [exact E|]. split; [exact E'|]. split; [|split; [exact T'|]].
  - rewrite H', H. f_equal. lia.
  - rewrite P'. change (zlen (@nil byte)) with 0. lia.
Qed.

Lemma round_trip_v3 t fs mi fl n :
  has_extended_header fl = false ->
  tag_has t (map frame_of fs) -> Forall (fun f => frame_ok f = true /\ readable f = true) fs ->
  t_header t = mkTH (lit "ID3") x03 mi fl n 0 -> frames_size fs <= n -> n < 2 ^ 28 ->
  exists cs t', Tag_to_char_stream t = Ok cs
    /\ ID3v2_read_tag_from_buffer (Some (cs_stream cs)) (cs_size cs) = Ok (Some t')
    /\ t_header t' = t_header t /\ tag_has t' (map frame_of fs) /\ t_padding t' = n - frames_size fs.
Proof.
  intros X T R H L B. eapply (round_trip_gen t fs x03); eauto. apply (all_read_back x03); auto. lia.
Qed.

(** ** v2.4: the size that is read back *)

Lemma lor_ge x y : 0 <= x -> 0 <= y -> x <= Z.lor x y /\ y <= Z.lor x y.
Proof.
  assert (G : forall x y, 0 <= x -> 0 <= y -> x <= Z.lor x y).
  { clear. intros x y Hx Hy. replace (Z.lor x y) with (x + Z.ldiff y x).
    - assert (0 <= Z.ldiff y x) by (apply Z.ldiff_nonneg; auto). lia.
    - rewrite <- lor_disj.
      + apply Z.bits_inj'. intros k _. rewrite !Z.lor_spec, Z.ldiff_spec. now destruct (Z.testbit x k), (Z.testbit y k).
      + apply Z.bits_inj'. intros k _. rewrite Z.land_spec, Z.ldiff_spec, Z.bits_0. now destruct (Z.testbit x k), (Z.testbit y k). }
  intros Hx Hy. split; [auto|]. rewrite Z.lor_comm. auto.
Qed.

Lemma declared_be32_large n : 256 <= n < 2 ^ 31 -> 128 <= declared_size 4 (be32 n) < n.
Proof.
  intros H. unfold declared_size. cbn [Z.eqb Pos.eqb].
  unfold be32. cbn [synchsafe_value]. rewrite !bv_zb.
  change (2 ^ 8) with 256 in *. change (2 ^ 16) with 65536 in *. change (2 ^ 24) with 16777216 in *.
  change (2 ^ 7) with 128 in *. change (2 ^ 14) with 16384 in *. change (2 ^ 21) with 2097152 in *.
  change (2 ^ 31) with 2147483648 in *.
  set (a := n mod 256) in *. set (b := n / 256 mod 256) in *. set (c := n / 65536 mod 256) in *.
  set (d := n / 16777216 mod 256) in *.
  assert (N : n = a + b * 256 + c * 65536 + d * 16777216) by (unfold a, b, c, d; lia).
  assert (Ra : 0 <= a < 256) by (unfold a; lia). assert (Rb : 0 <= b < 256) by (unfold b; lia).
  assert (Rc : 0 <= c < 256) by (unfold c; lia). assert (Rd : 0 <= d < 256) by (unfold d; lia).
  clearbody a b c d.
  pose proof (lor_le_sum a (b * 128) ltac:(lia) ltac:(lia)). pose proof (lor_ge a (b * 128) ltac:(lia) ltac:(lia)).
  set (x := Z.lor a (b * 128)) in *.
  pose proof (lor_le_sum x (c * 16384) ltac:(lia) ltac:(lia)). pose proof (lor_ge x (c * 16384) ltac:(lia) ltac:(lia)).
  set (y := Z.lor x (c * 16384)) in *.
  pose proof (lor_le_sum y (d * 2097152) ltac:(lia) ltac:(lia)). pose proof (lor_ge y (d * 2097152) ltac:(lia) ltac:(lia)).
  lia.
Qed.

(** ** v2.4: frames that are read back *)

Lemma comment_reads_back ver sf f :
  is_comment f = true -> frame_ok f = true -> length (sf (body_size f)) = 4%nat -> reads_back ver sf f.
Proof.
  intros C K L. destruct f as [|fl lang d c| |]; try discriminate C.
  split; [auto|]. split; [now apply readable_size|]. intros pre rest F.
  pose proof (frame_ok_common _ K) as (_ & Hf & _). pose proof (frame_ok_kind _ K) as (Hl & Hd & Hc).
  unfold frame_image in *. cbn [frame_id frame_flags frame_body body_with frame_body frame_encoding] in *.
  unfold frame_body in *. cbn [body_with frame_encoding] in *.
  apply comment_any_size; auto.
Qed.

Lemma small_reads_back f : frame_ok f = true -> readable f = true -> body_size f < 256 -> reads_back 4 be32 f.
Proof.
  intros K R B. pose proof (body_size_nonneg f). apply reads_back_size; auto. apply declared_be32_v4; lia.
Qed.

Lemma round_trip_v4 t fs mi fl n :
  has_extended_header fl = false ->
  tag_has t (map frame_of fs) ->
  Forall (fun f => frame_ok f = true /\ readable f = true /\ (body_size f < 256 \/ is_comment f = true)) fs ->
  t_header t = mkTH (lit "ID3") x04 mi fl n 0 -> frames_size fs <= n -> n < 2 ^ 28 ->
  exists cs t', Tag_to_char_stream t = Ok cs
    /\ ID3v2_read_tag_from_buffer (Some (cs_stream cs)) (cs_size cs) = Ok (Some t')
    /\ t_header t' = t_header t /\ tag_has t' (map frame_of fs) /\ t_padding t' = n - frames_size fs.
Proof.
  intros X T R H L B. eapply (round_trip_gen t fs x04); eauto.
  eapply Forall_impl; [|exact R]. intros f (K & Rf & [S|C]).
  - now apply small_reads_back.
  - now apply comment_reads_back.
Qed.

(** ** v2.4: frames that are not *)

Lemma firstn_flat k : forall us : list (byte * byte), exists us' odd,
  firstn k (flat_map (fun u => [fst u; snd u]) us) = flat_map (fun u => [fst u; snd u]) us' ++ odd
  /\ (length odd < 2)%nat /\ exists r, us = us' ++ r.
Proof.
  intros us. revert k. induction us as [|u us IH]; intros k.
  - exists [], []. rewrite firstn_nil. cbn. repeat split; auto. now exists [].
  - destruct k as [|[|k]].
    + exists [], []. cbn. repeat split; auto. now exists (u :: us).
    + exists [], [fst u]. cbn. repeat split; auto. now exists (u :: us).
    + destruct (IH k) as (us' & odd & E & Lo & r & ->). exists (u :: us'), odd.
      cbn [flat_map app firstn]. rewrite E. repeat split; auto. now exists r.
Qed.

(** A proper prefix of a text, at least its byte order mark, has no terminator. *)
Lemma prefix_unterminated t k :
  text_ok t = true -> (2 <= k)%nat -> (k < length (text_image t))%nat -> unterminated (firstn k (text_image t)).
Proof.
  intros K G L. destruct t as [l|be us]; cbn [text_ok] in K; unfold text_image in *; cbn [text_bytes text_end] in *.
  - apply andb_true_iff in K. destruct K as [Kz Kb]. rewrite app_length in L. cbn [length] in L.
    left. rewrite firstn_app. replace (k - length l)%nat with O by lia. cbn [firstn]. rewrite app_nil_r.
    assert (E : l = firstn k l ++ skipn k l) by (symmetry; apply firstn_skipn).
    rewrite E, forallb_app in Kz. apply andb_true_iff in Kz. split; [apply Kz|].
    destruct l as [|a [|b l]]; destruct k as [|[|k]]; try lia; try reflexivity. cbn [firstn starts_with_bom] in *.
    now apply negb_true_iff.
  - right. assert (Lb : length (bom_bytes be) = 2%nat) by (destruct be; reflexivity).
    rewrite <- app_assoc, app_length in L. rewrite <- app_assoc, firstn_app, Lb.
    rewrite (firstn_all2 (bom_bytes be)) by lia.
    assert (E : flat_map (fun u : byte * byte => [fst u; snd u]) us ++ [x00; x00]
      = flat_map (fun u => [fst u; snd u]) (us ++ [(x00, x00)])).
    { rewrite flat_map_app. reflexivity. }
    assert (Lf : length (flat_map (fun u : byte * byte => [fst u; snd u]) us) = (2 * length us)%nat).
    { clear. induction us as [|u us IH]; [reflexivity|]. cbn [flat_map app length]. lia. }
    rewrite E in *. destruct (firstn_flat (k - 2) (us ++ [(x00, x00)])) as (us' & odd & Q & Lo & r & Er).
    assert (Le : (length (flat_map (fun u : byte * byte => [fst u; snd u]) us') + length odd = k - 2)%nat).
    { rewrite <- app_length, <- Q, firstn_length. lia. }
    rewrite Q. exists be, us', odd. split; [cbn [text_bytes]; now rewrite <- app_assoc|]. split; [|exact Lo].
    destruct (@exists_last _ r) as (r0 & x & ->).
    { intros ->. rewrite app_nil_r in Er. rewrite Er, Lb in L. lia. }
    rewrite app_assoc in Er. apply app_inj_tail in Er. destruct Er as [-> _].
    rewrite forallb_app in K. apply andb_true_iff in K. apply K.
Qed.

Lemma text_v4_large id fl t pre rest :
  frame_ok (FText id fl t) = true -> 256 <= body_size (FText id fl t) ->
  fits pre (cells (frame_image be32 (FText id fl t)) ++ rest) ->
  Frame_parse (at_pos pre (cells (frame_image be32 (FText id fl t)) ++ rest)) 4 = Ub OobRead.
Proof.
  intros K B F. pose proof (frame_ok_common _ K) as (Hi & Hf & Hb). pose proof (frame_ok_kind _ K) as (HT & Ht).
  cbn [frame_id frame_flags] in Hi, Hf.
  set (n := body_size (FText id fl t)) in *.
  assert (R : 128 <= declared_size 4 (be32 n) < n) by (apply declared_be32_large; lia).
  set (m := declared_size 4 (be32 n)) in *.
  assert (Nn : n = 1 + zlen (text_image t)) by (apply body_size_text).
  set (k := Z.to_nat (m - 1)).
  set (p := firstn k (text_image t)). set (q := skipn k (text_image t)).
  assert (E : frame_image be32 (FText id fl t) = (id ++ be32 n ++ fl ++ [text_encoding t] ++ p) ++ q).
  { unfold frame_image. fold n. unfold frame_body. cbn [frame_id frame_flags body_with frame_encoding].
    rewrite <- (firstn_skipn k (text_image t)) at 1. fold p q. now rewrite <- !app_assoc. }
  rewrite E in *. rewrite cells_app, <- app_assoc in *.
  assert (Zp : zlen p = m - 1).
  { unfold p, zlen in *. rewrite firstn_length. lia. }
  apply text_unterminated; auto.
  - intros Ep. rewrite Ep in Zp. change (zlen (@nil byte)) with 0 in Zp. lia.
  - apply prefix_unterminated; auto; unfold k; unfold zlen in Nn; lia.
  - fold m. lia.
Qed.

Lemma other_v4_large id fl body pre rest :
  let f := FOther id fl body in
  frame_ok f = true -> 256 <= body_size f ->
  fits pre (cells (frame_image be32 f) ++ rest) ->
  let m := declared_size 4 (be32 (body_size f)) in
  let kept := firstn (Z.to_nat m) body in
  0 < m < body_size f
  /\ Frame_parse (at_pos pre (cells (frame_image be32 f) ++ rest)) 4
     = Ok (Some (frame_of (FOther id fl kept)),
           at_pos (pre ++ cells (id ++ be32 (body_size f) ++ fl ++ kept)) (cells (skipn (Z.to_nat m) body) ++ rest)).
Proof.
  intros f K B F. pose proof (frame_ok_common _ K) as (Hi & Hf & Hb). pose proof (frame_ok_kind _ K) as (H1 & H2 & H3 & H4).
  cbn [frame_id frame_flags] in Hi, Hf. cbv zeta.
  set (n := body_size f) in *.
  assert (R : 128 <= declared_size 4 (be32 n) < n) by (apply declared_be32_large; lia).
  set (m := declared_size 4 (be32 n)) in *. split; [lia|].
  assert (Nn : n = zlen body) by (apply body_size_other).
  set (k := Z.to_nat m). set (p := firstn k body). set (q := skipn k body).
  assert (E : frame_image be32 f = (id ++ be32 n ++ fl) ++ p ++ q).
  { unfold frame_image. fold n. unfold frame_body, f. cbn [frame_id frame_flags body_with frame_encoding].
    unfold p, q. rewrite firstn_skipn. now rewrite <- !app_assoc. }
  rewrite E in *. rewrite !cells_app, <- !app_assoc in *.
  assert (A : forall x, cells id ++ cells (be32 n) ++ cells fl ++ cells p ++ x
    = (cells id ++ cells (be32 n) ++ cells fl) ++ cells p ++ x) by (intros; now rewrite <- !app_assoc).
  rewrite A in *. rewrite parse_other; auto.
  - fold k p q. rewrite ?cells_app, <- ?app_assoc. reflexivity.
  - fold m. unfold p, k. unfold zlen in *. rewrite firstn_length. lia.
Qed.

Lemma picture_v4_large fl mime ty d pic pre rest :
  let f := FPicture fl mime ty d pic in
  frame_ok f = true -> 256 <= body_size f ->
  fits pre (cells (frame_image be32 f) ++ rest) ->
  let m := declared_size 4 (be32 (body_size f)) in
  let fixed := 2 + zlen (text_image mime) + zlen (text_image d) in
  let kept := firstn (Z.to_nat (m - fixed)) pic in
  (m <= fixed -> Frame_parse (at_pos pre (cells (frame_image be32 f) ++ rest)) 4 = Ub BadSize)
  /\ (fixed < m -> zlen kept < zlen pic
      /\ exists cs, Frame_parse (at_pos pre (cells (frame_image be32 f) ++ rest)) 4
                    = Ok (Some (frame_of (FPicture fl mime ty d kept)), cs)).
Proof.
  intros f K B F. pose proof (frame_ok_common _ K) as (_ & Hf & Hb). pose proof (frame_ok_kind _ K) as (Hm & Hd).
  cbn [frame_flags] in Hf. cbv zeta.
  set (n := body_size f) in *.
  assert (R : 128 <= declared_size 4 (be32 n) < n) by (apply declared_be32_large; lia).
  set (m := declared_size 4 (be32 n)) in *.
  assert (Nn : n = 1 + zlen (text_image mime) + 1 + zlen (text_image d) + zlen pic) by (apply body_size_picture).
  set (fixed := 2 + zlen (text_image mime) + zlen (text_image d)).
  assert (E : frame_image be32 f = lit "APIC" ++ be32 n ++ fl ++ [text_encoding d] ++ text_image mime ++ [ty] ++ text_image d ++ pic)
    by reflexivity.
  split; intros C.
  - assert (E' : frame_image be32 f = (lit "APIC" ++ be32 n ++ fl ++ ([text_encoding d] ++ text_image mime ++ [ty] ++ text_image d)) ++ pic)
      by (rewrite E, <- !app_assoc; reflexivity).
    rewrite E' in *. rewrite cells_app, <- app_assoc in *.
    assert (Zb : zlen ([text_encoding d] ++ text_image mime ++ [ty] ++ text_image d) = fixed).
    { unfold fixed. rewrite !zlen_app. change (zlen [text_encoding d]) with 1. change (zlen [ty]) with 1. lia. }
    pose proof (zlen_nonneg pic). apply picture_empty; auto; fold m; rewrite Zb; unfold fixed in *; lia.
  - set (k := Z.to_nat (m - fixed)). set (p := firstn k pic). set (q := skipn k pic).
    assert (Zp : zlen p = m - fixed).
    { unfold p, k, zlen in *. rewrite firstn_length. unfold fixed in *. lia. }
    split; [unfold fixed in *; lia|].
    assert (E' : forall x, cells (frame_image be32 f) ++ x
      = (cells (lit "APIC") ++ cells (be32 n) ++ cells fl) ++ cells ([text_encoding d] ++ text_image mime ++ [ty] ++ text_image d ++ p) ++ cells q ++ x).
    { intros x. rewrite E. rewrite <- (firstn_skipn k pic) at 1. fold p q. rewrite !cells_app, <- !app_assoc. reflexivity. }
    rewrite E' in *. eexists. apply parse_picture; auto.
    + intros Ep. rewrite Ep in Zp. change (zlen (@nil byte)) with 0 in Zp. lia.
    + fold m. rewrite !zlen_app, Zp. change (zlen [text_encoding d]) with 1. change (zlen [ty]) with 1. unfold fixed in *. lia.
Qed.

(** None of them comes back as it was. *)
Lemma large_not_read_back f pre rest cs :
  frame_ok f = true -> 256 <= body_size f -> is_comment f = false ->
  fits pre (cells (frame_image be32 f) ++ rest) ->
  Frame_parse (at_pos pre (cells (frame_image be32 f) ++ rest)) 4 <> Ok (Some (frame_of f), cs).
Proof.
  intros K B C F E. destruct f as [id fl t|fl la d c|fl m ty d pic|id fl body]; try discriminate C.
  - rewrite text_v4_large in E by auto. discriminate E.
  - destruct (picture_v4_large fl m ty d pic pre rest K B F) as [P Q].
    destruct (Z.le_gt_cases (declared_size 4 (be32 (body_size (FPicture fl m ty d pic)))) (2 + zlen (text_image m) + zlen (text_image d))) as [L|L].
    + rewrite P in E by exact L. discriminate E.
    + destruct (Q L) as (Lt & cs' & E'). rewrite E' in E. set (kept := firstn _ pic) in *. clearbody kept.
      assert (Eb : body_size (FPicture fl m ty d kept) = body_size (FPicture fl m ty d pic)).
      { unfold frame_of in E. congruence. }
      rewrite !body_size_picture in Eb. lia.
  - destruct (other_v4_large id fl body pre rest K B F) as [Rg Q]. rewrite Q in E. injection E as Es _.
    rewrite !body_size_other in *. unfold zlen in *. rewrite firstn_length in Es. lia.
Qed.

(** ** The loop up to some point, and after it *)

Lemma parse_loop_through ver sf tag_size (Lsf : forall n, length (sf n) = 4%nat) fs :
  forall pre rest ps fresh fuel,
  Forall (reads_back ver sf) fs ->
  fits pre (cells (images sf fs) ++ rest) ->
  zlen pre + frames_size fs <= tag_size + 10 ->
  parse_loop (length fs + fuel) tag_size ver (at_pos pre (cells (images sf fs) ++ rest)) (list_of ps) fresh
  = parse_loop fuel tag_size ver (at_pos (pre ++ cells (images sf fs)) rest)
      (list_of (ps ++ combine (seq fresh (length fs)) (map frame_of fs))) (fresh + length fs).
Proof.
  induction fs as [|f fs IH]; intros pre rest ps fresh fuel H F Hin.
  - change (cells (images sf [])) with (@nil cell) in *. change (@nil cell ++ rest) with rest in *.
    cbn [map length combine seq Nat.add]. rewrite !app_nil_r, Nat.add_0_r. reflexivity.
  - inversion H as [|? ? (Hok & Hsz & Hrd) H']; subst.
    rewrite frames_size_cons in *. pose proof (frames_size_nonneg fs).
    rewrite images_cons, cells_app, <- app_assoc in *.
    pose proof (zlen_nonneg pre). pose proof (zlen_nonneg rest).
    assert (Zf : zlen (cells (frame_image sf f)) = 10 + body_size f) by (rewrite zlen_cells; now apply frame_image_zlen).
    cbn [length Nat.add parse_loop]; rewrite cursor_at.
    rewrite to_u32_id.
    2:{ unfold fits in F. rewrite !zlen_app in F. pose proof (zlen_nonneg (cells (images sf fs))). lia. }
    ifT. rewrite Hrd by exact F. go.
    rewrite add_frame_list. go. rewrite IH; auto.
    + cbn [length seq map combine]. rewrite <- !app_assoc, Nat.add_succ_r. reflexivity.
    + unfold fits in *. rewrite !zlen_app in *. lia.
    + rewrite zlen_app. lia.
Qed.

(** The loop only adds frames. *)
Lemma parse_loop_adds tag_size ver : forall fuel cs ps fresh l fr cs',
  parse_loop fuel tag_size ver cs (list_of ps) fresh = Ok (l, fr, cs') ->
  exists more, l = list_of (ps ++ more).
Proof.
  induction fuel as [|fuel IH]; intros cs ps fresh l fr cs' E; cbn [parse_loop] in E;
    destruct (to_u32 (cs_cursor cs) <? tag_size).
  - discriminate E.
  - injection E as <- _ _. exists []. now rewrite app_nil_r.
  - binv E. destruct v as [[g|] cs1].
    + rewrite add_frame_list in E. cbn [bind] in E. apply IH in E. destruct E as (more & ->).
      exists ((fresh, g) :: more). now rewrite <- app_assoc.
    + injection E as <- _ _. exists []. now rewrite app_nil_r.
  - injection E as <- _ _. exists []. now rewrite app_nil_r.
Qed.

(** Reading the header leaves the loop. *)
Lemma tag_parse_header major minor flags size (body : mem) :
  known_version major = true -> has_extended_header flags = false -> 0 <= size < 2 ^ 28 ->
  let h := header_image major minor flags size in
  fits [] (cells h ++ body) ->
  Tag_parse (at_pos [] (cells h ++ body))
  = let* (frames, fresh, cs) := parse_loop (length body + 12) size (schar major) (at_pos (cells h) body) (list_of []) 0 in
    let* padding := isub (cs_size cs) (cs_cursor cs) in
    Ok (Some (mkTag (mkTH (lit "ID3") major minor flags size 0) frames padding fresh)).
Proof.
  intros K X S h F. unfold h in *. unfold Tag_parse. rewrite header_image_cells in *.
  rewrite header_start by auto. cbv zeta. rewrite K, X. cbn [negb]. go.
  replace (synchsafe_value _) with size by (symmetry; apply (synchsafe_value_synchsafe32 size); lia).
  cbn [th_ext_size th_tag_size th_major]. change (0 <? 0) with false. cbv iota. go.
  unfold ID3v2_Tag_new. cbn [t_frames t_fresh]. change FrameList_new with (list_of []).
  set (h10 := [_; _; _; _; _; _; _; _; _; _]).
  replace (length (cs_stream (at_pos (cells h10) body)) + 2)%nat with (length body + 12)%nat
    by (cbn [at_pos cs_stream]; rewrite !app_length; change (length (cells h10)) with 10%nat; cbn [length]; lia).
  reflexivity.
Qed.

Lemma frame_id_nonzero f : frame_ok f = true -> forallb is_zero (frame_id f) = false.
Proof.
  intros K. apply frame_ok_kind in K. destruct f; cbn [frame_id]; try reflexivity.
  - apply (starts_nonzero _ "T"); [discriminate|apply K].
  - apply K.
Qed.

Lemma list_of_inj ps qs : list_of ps = list_of qs -> ps = qs.
Proof.
  destruct ps as [|p ps], qs as [|q qs]; intros E; try reflexivity; try discriminate E.
  rewrite !list_of_nodes in E by discriminate. unfold nodes in E.
  enough (H : map fnode (p :: ps) = map fnode (q :: qs) -> p :: ps = q :: qs) by auto.
  generalize (p :: ps) (q :: qs). clear. induction l as [|a l IH]; intros [|b l'] E; try discriminate E; auto.
  cbn [map] in E. injection E as <- E. f_equal. auto.
Qed.

Lemma round_trip_v4_fails t fs1 f fs2 mi fl n :
  let fs := fs1 ++ f :: fs2 in
  has_extended_header fl = false -> tag_has t (map frame_of fs) ->
  Forall (fun f => frame_ok f = true) fs ->
  Forall (fun f => readable f = true /\ (body_size f < 256 \/ is_comment f = true)) fs1 ->
  256 <= body_size f -> is_comment f = false ->
  t_header t = mkTH (lit "ID3") x04 mi fl n 0 -> frames_size fs <= n -> n < 2 ^ 28 ->
  exists cs, Tag_to_char_stream t = Ok cs
    /\ forall t', ID3v2_read_tag_from_buffer (Some (cs_stream cs)) (cs_size cs) = Ok (Some t') ->
       ~ tag_has t' (map frame_of fs).
Proof.
  intros fs X T K R1 Bf Cf H L B.
  destruct (written_buffer t fs x04 mi fl n T K H L B) as (cs & E & P & Z & Zb).
  exists cs. split; [exact E|]. intros t' Er T'.
  assert (K1 : oks fs1 /\ frame_ok f = true /\ oks fs2).
  { unfold fs, oks in *. apply Forall_app in K. destruct K as [K1 K2]. inversion K2; auto. }
  destruct K1 as (K1 & Kf & K2).
  assert (Rb : Forall (reads_back 4 be32) fs1).
  { unfold oks in K1. rewrite Forall_forall in *. intros g Hg. destruct (R1 g Hg) as (Rg & [S|C]).
    - apply small_reads_back; auto.
    - apply comment_reads_back; auto. }
  pose proof (frames_size_nonneg fs1). pose proof (frames_size_nonneg fs2). pose proof (frames_size_nonneg fs).
  assert (Sz : frames_size fs = frames_size fs1 + (10 + body_size f + frames_size fs2)).
  { unfold fs. rewrite frames_size_app, frames_size_cons. lia. }
  set (pad := n - frames_size fs) in *.
  replace (frames_size fs + pad) with n in * by (unfold pad; lia).
  cbv zeta in P, Z, Zb. rewrite app_nil_r in P, Z, Zb.
  set (h := header_image x04 mi fl n) in *.
  assert (Ei : images be32 fs = images be32 fs1 ++ frame_image be32 f ++ images be32 fs2).
  { unfold fs, images. rewrite flat_map_app. reflexivity. }
  set (rest := cells (images be32 fs2) ++ cells (zeros pad)).
  assert (Ec : cells (h ++ images be32 fs ++ zeros pad)
    = cells h ++ cells (images be32 fs1) ++ cells (frame_image be32 f) ++ rest).
  { unfold rest. rewrite Ei, !cells_app, <- !app_assoc. reflexivity. }
  destruct P as (tail & P). unfold ID3v2_read_tag_from_buffer in Er. rewrite P, Z in Er.
  rewrite from_buffer_at in Er by (now rewrite zlen_cells). cbn [bind] in Er. rewrite Ec in Er.
  assert (F0 : fits [] (cells h ++ cells (images be32 fs1) ++ cells (frame_image be32 f) ++ rest)).
  { unfold fits. rewrite <- Ec, zlen_cells. exact Zb. }
  unfold h in Er, F0. rewrite tag_parse_header in Er by (auto; lia). fold h in Er.
  set (body := cells (images be32 fs1) ++ cells (frame_image be32 f) ++ rest) in *.
  assert (Zc : zlen (cells h) = 10) by reflexivity.
  assert (F : fits (cells h) body).
  { unfold fits in *. fold body in F0. rewrite zlen_app in F0. change (zlen (@nil cell)) with 0 in F0. unfold h in *. lia. }
  assert (Fuel : exists k, (length body + 12 = length fs1 + S k)%nat).
  { exists (length body + 11 - length fs1)%nat. assert (length fs1 <= length body)%nat; [|lia].
    unfold body. rewrite app_length, length_cells. pose proof (frames_count fs1 be32 K1 ltac:(reflexivity)). lia. }
  destruct Fuel as (k & Fuel). rewrite Fuel in Er.
  change (schar x04) with 4 in Er.
  unfold body in Er, F. rewrite parse_loop_through in Er; auto; [|rewrite Zc; lia].
  assert (Z1 : zlen (cells (images be32 fs1)) = frames_size fs1) by (rewrite zlen_cells; apply images_zlen; auto).
  set (p1 := cells h ++ cells (images be32 fs1)) in *.
  assert (F1 : fits p1 (cells (frame_image be32 f) ++ rest)).
  { unfold fits, p1 in *. rewrite !zlen_app in *. lia. }
  assert (Zp1 : zlen p1 = 10 + frames_size fs1) by (unfold p1; rewrite zlen_app; lia).
  cbn [parse_loop] in Er. rewrite cursor_at in Er. rewrite to_u32_id in Er by lia.
  replace (zlen p1 <? n) with true in Er by lia.
  destruct (Frame_parse (at_pos p1 (cells (frame_image be32 f) ++ rest)) 4) as [[[g|] cs1]|u|x|] eqn:Ef; cbn [bind] in Er; try discriminate Er.
  - rewrite add_frame_list in Er. cbn [bind] in Er.
    destruct (parse_loop k n 4 cs1 _ _) as [[[l fr] cs2]|u|x|] eqn:El; cbn [bind] in Er; try discriminate Er.
    binv Er. injection Er as <-.
    apply parse_loop_adds in El. destruct El as (more & ->).
    destruct T' as (ps & Hl & Hm & _). cbn [t_frames] in Hl. apply list_of_inj in Hl. subst ps.
    rewrite <- !app_assoc in Hm. cbn [app] in Hm. unfold fs in Hm. rewrite !map_app in Hm.
    cbn [map] in Hm. change (map fp_frame (combine (seq 0 (length fs1)) (map frame_of fs1))) with (map snd (combine (seq 0 (length fs1)) (map frame_of fs1))) in Hm. rewrite combine_snd in Hm by (now rewrite seq_length, map_length).
    apply app_inv_head in Hm. injection Hm as Hg _. cbn [snd] in Hg. subst g.
    now apply large_not_read_back in Ef.
  - apply frame_parse_moved in Ef; auto. destruct Ef as (_ & r & Eq).
    unfold frame_image in Eq. rewrite cells_app, <- app_assoc in Eq.
    pose proof (frame_ok_common _ Kf) as (Hi & _ & _). pose proof (frame_id_nonzero f Kf) as Nz.
    destruct (frame_id f) as [|a [|b [|c [|d [|? ?]]]]]; try discriminate Hi.
    cbn [cells map app] in Eq. injection Eq as -> -> -> -> _. discriminate Nz.
Qed.
