(** Facts about writing on other machines. *)
From Verif Require Import BaseFacts UtilsFacts StreamFacts FrameFacts HeaderFacts TagFacts.
From Verif Require Import File Calls Compat Spec SpecEdit SpecFile SpecRead SpecRewrite Platform SpecPlatform.
From Verif Require Import ListFacts EditFacts WriteFacts ParseFacts KindFacts ClaimFacts FileFacts ReadFacts RewriteFacts PlatformFacts.
From Coq Require Import Lia ZifyBool ZifyNat.

(** ** Writing *)

Lemma itob_little P n : p_big_endian P = false -> itob_on P n = itob n.
Proof. intros H. unfold itob_on, int_byte_on. now rewrite H. Qed.

Lemma frame_write_little P f : p_big_endian P = false -> Frame_to_char_stream_on P f = Frame_to_char_stream f.
Proof.
  intros H. destruct f as [f|]; [|reflexivity].
  assert (Hh : forall h, FrameHeader_to_char_stream_on P h = FrameHeader_to_char_stream h)
    by (intros h; unfold FrameHeader_to_char_stream_on; now rewrite itob_little).
  assert (Hs : forall h, start_frame_stream_on P h = start_frame_stream h)
    by (intros h; unfold start_frame_stream_on; now rewrite Hh).
  unfold Frame_to_char_stream_on, TextFrame_to_char_stream_on, CommentFrame_to_char_stream_on, ApicFrame_to_char_stream_on.
  now rewrite Hh, Hs.
Qed.

Lemma frames_write_little P l : p_big_endian P = false -> forall cs, write_frames_on P cs l = write_frames cs l.
Proof.
  intros H. induction l as [|n l IH]; intros cs; [reflexivity|]. cbn [write_frames write_frames_on].
  rewrite frame_write_little by auto. destruct (Frame_to_char_stream _) as [[c|]| | |]; try reflexivity. cbn [bind].
  destruct (CharStream_write _ _ _); try reflexivity. cbn [bind]. apply IH.
Qed.

Lemma tag_write_little P t : p_big_endian P = false -> Tag_to_char_stream_on P t = Tag_to_char_stream t.
Proof.
  intros H. unfold Tag_to_char_stream_on, Tag_to_char_stream.
  do 5 (match goal with |- bind ?a _ = _ => destruct a; try reflexivity; cbn [bind] end).
  destruct (syncint_encode _); try reflexivity; cbn [bind]. rewrite itob_little by auto.
  destruct (CharStream_write _ _ _); try reflexivity. cbn [bind].
  destruct (t_frames t) as [|n l]; [reflexivity|]. destruct (n_frame n); [|reflexivity]. now apply frames_write_little.
Qed.

Lemma write_states_last content temp : last (Some content :: Some [] :: map Some (copy_states temp [])) (Some content) = Some temp.
Proof. rewrite states_rewritten. apply last_rewritten. Qed.

Lemma write_little P f t : p_big_endian P = false -> ID3v2_write_tag_on P f t = ID3v2_write_tag f t.
Proof.
  intros H. unfold ID3v2_write_tag. destruct t as [t|]; [|reflexivity].
  unfold ID3v2_write_tag_on, ID3v2_write_tag_states. rewrite read_header_on.
  destruct (ID3v2_read_tag_header f) as [h| | |]; try reflexivity. cbn [bind].
  destruct (isub _ _); try reflexivity. cbn [bind]. destruct (iadd _ _); try reflexivity. cbn [bind].
  rewrite tag_write_little by auto. destruct (Tag_to_char_stream _); try reflexivity. cbn [bind].
  destruct (fwrite_bytes _); try reflexivity. cbn [bind].
  destruct f as [content|]; [|reflexivity]. cbn [bind]. now rewrite write_states_last.
Qed.

Lemma set_little P f t : p_big_endian P = false -> set_tag_on P f t = set_tag f t.
Proof. intros H. unfold set_tag_on, set_tag. destruct t as [t|]; [|reflexivity]. cbn [bind deref]. now rewrite write_little. Qed.

Lemma delete_on P f : ID3v2_delete_tag_on P f = ID3v2_delete_tag f.
Proof.
  unfold ID3v2_delete_tag, ID3v2_delete_tag_on, ID3v2_delete_tag_states. rewrite read_header_on.
  destruct (ID3v2_read_tag_header f) as [[h|]| | |]; try reflexivity. cbn [bind].
  destruct f as [content|]; [|reflexivity]. cbn [bind]. now rewrite write_states_last.
Qed.

(** ** The most significant byte first *)

Definition rb (n : Z) : list byte := rev (be32 n).

Section Big.
  Variable P : platform.
  Hypothesis Big : p_big_endian P = true.

  Lemma itob_big n : itob_on P n = cells (rb n).
  Proof.
    pose proof (itob_spec n) as E. unfold itob, int_byte in E. cbn [map] in E. unfold itob_on, int_byte_on. rewrite Big. cbn [map].
    unfold rb, be32 in *. cbn [rev app cells map] in *. change (3 - 3) with 0. change (3 - 2) with 1. change (3 - 1) with 2. change (3 - 0) with 3.
    congruence.
  Qed.

Lemma FrameHeader_write_big id fl s :
  length id = 4%nat -> length fl = 2%nat ->
  FrameHeader_to_char_stream_on P (mkFH (cells id) s (cells fl))
  = Ok (mkCS 10 10 (cells (id ++ rb s ++ fl))).
Proof.
  intros Li Lf. unfold FrameHeader_to_char_stream_on. go. change ID3v2_FRAME_HEADER_LENGTH with 10.
  assert (Zi : zlen id = 4) by (unfold zlen; rewrite Li; reflexivity).
  assert (Zf : zlen fl = 2) by (unfold zlen; rewrite Lf; reflexivity).
  assert (Zs : zlen (rb s) = 4) by reflexivity.
  rewrite itob_big.
  rewrite new_z by lia. go.
  rewrite write_z'; zl; rewrite ?Zi; try reflexivity; try lia. go.
  rewrite write_z'; zl; rewrite ?Zi, ?Zs; try reflexivity; try lia. go.
  rewrite write_z'; zl; rewrite ?Zi, ?Zs, ?Zf; try reflexivity; try lia. go.
  rewrite at_pos_end by reflexivity. cbn [app].
  rewrite <- app_assoc, <- !cells_app. zl. rewrite Zi, Zs, Zf. reflexivity.
Qed.

Lemma start_stream_big id fl s :
  length id = 4%nat -> length fl = 2%nat -> 0 <= s -> s + 10 < 2 ^ 31 ->
  start_frame_stream_on P (mkFH (cells id) s (cells fl))
  = Ok (at_pos (cells (id ++ rb s ++ fl)) (zmem s)).
Proof.
  intros Li Lf Hs Hb. unfold start_frame_stream_on. rewrite FrameHeader_write_big by auto. go.
  change ID3v2_FRAME_HEADER_LENGTH with 10. rewrite iadd_ok by lia. go. cbn [cs_stream cs_size].
  rewrite new_z by lia. go.
  assert (E : zlen (id ++ rb s ++ fl) = 10).
  { zl. unfold zlen. rewrite Li, Lf. reflexivity. }
  rewrite write_z'; rewrite ?zlen_cells, ?E; try reflexivity; try (change (zlen (@nil cell)) with 0; lia).
  cbn [app]. do 3 f_equal. lia.
Qed.

Lemma frame_image_length_big f : frame_ok f = true -> zlen (frame_image rb f) = body_size f + 10.
Proof.
  intros H. pose proof (frame_ok_common _ H) as (Hi & Hf & _).
  unfold frame_image. zl. unfold body_size, frame_body. unfold zlen. rewrite Hi, Hf.
  change (length (rb _)) with 4%nat. lia.
Qed.

Lemma frame_write_big f :
  frame_ok f = true ->
  Frame_to_char_stream_on P (Some (frame_of f))
  = Ok (Some (mkCS (body_size f + 10) (body_size f + 10) (cells (frame_image rb f)))).
Proof.
  intros H. pose proof (frame_ok_common _ H) as (Hi & Hf & Hs).
  pose proof (frame_ok_kind _ H) as Hk. pose proof (body_size_nonneg f) as Hn.
  pose proof (frame_image_length_big f H) as Himg.
  unfold Frame_to_char_stream_on, FrameHeader_isTextFrame, FrameHeader_isCommentFrame, FrameHeader_isApicFrame.
  rewrite !(id0_is_cells _ (frame_id f)) by (auto; now apply (len_nonnil _ 3)). go.
  unfold frame_image, frame_body in *.
  destruct f as [id fl t|fl lang d c|fl m ty d pic|id fl body]; unfold frame_of in *; cbn [frame_id frame_flags f_hdr f_data] in *; go.
  - destruct Hk as (HT & Ht). rewrite HT. unfold TextFrame_to_char_stream_on. rewrite body_size_text in *.
    pose proof (text_image_pos t).
    rewrite start_stream_big by (auto; lia). go. cbn [td_encoding td_text td_size].
    assert (E : zlen (id ++ rb (1 + zlen (text_image t)) ++ fl) = 10).
    { zl. unfold zlen. rewrite Hi, Hf. reflexivity. }
    rewrite write_z'; [|rewrite zlen_cells, E; lia|reflexivity|zl; lia]. go.
    rewrite write_z'; [|zl; rewrite ?zlen_app in E; lia|now rewrite zlen_cells|zl; lia]. go.
    rewrite at_pos_end by (zl; lia). unfold body_with. cbn [frame_encoding].
    change ([Some (text_encoding t)]) with (cells [text_encoding t]).
    rewrite <- !cells_app. rewrite zlen_cells, <- !app_assoc.
    rewrite <- Himg. reflexivity.
  - change (id_starts (lit "COMM") "T") with false. change (id_starts (lit "COMM") "C") with true.
    destruct Hk as (Hl & Hd & Hc).
    unfold CommentFrame_to_char_stream_on. rewrite body_size_comment in *.
    assert (Ll : zlen lang = 3) by (unfold zlen; rewrite Hl; reflexivity).
    pose proof (text_image_pos d). pose proof (text_image_pos c).
    rewrite start_stream_big by (auto; lia). go. cbn [cd_encoding cd_language cd_short cd_comment cd_size].
    match goal with |- context [at_pos (cells ?l)] => assert (E : zlen l = 10) end.
    { zl. unfold zlen. rewrite Hf. reflexivity. }
    rewrite write_z'; [|rewrite zlen_cells, E; lia|reflexivity|zl; lia]. go.
    rewrite write_z'; [|zl; rewrite ?zlen_app in E; lia|zl; now rewrite Ll|zl; lia]. go.
    rewrite strlent_text' by (auto; lia). go.
    rewrite write_z'; [|zl; rewrite ?zlen_app in E; lia|now rewrite zlen_cells|zl; lia]. go.
    rewrite write_z'; [|zl; rewrite ?zlen_app in E; lia|now rewrite zlen_cells|zl; lia]. go.
    rewrite at_pos_end by (zl; lia). unfold body_with. cbn [frame_encoding].
    change ([Some (text_encoding c)]) with (cells [text_encoding c]).
    rewrite <- !cells_app. rewrite zlen_cells, <- !app_assoc.
    rewrite <- Himg. reflexivity.
  - change (id_starts (lit "APIC") "T") with false. change (id_starts (lit "APIC") "C") with false.
    change (id_starts (lit "APIC") "A") with true.
    destruct Hk as (Hm & Hd).
    unfold ApicFrame_to_char_stream_on. rewrite body_size_picture in *.
    pose proof (text_image_pos d). pose proof (text_image_pos m). pose proof (zlen_nonneg pic).
    rewrite start_stream_big by (auto; lia). go. cbn [ad_encoding ad_mime ad_type ad_desc ad_data ad_picture_size].
    match goal with |- context [at_pos (cells ?l)] => assert (E : zlen l = 10) end.
    { zl. unfold zlen. rewrite Hf. reflexivity. }
    rewrite write_z'; [|rewrite zlen_cells, E; lia|reflexivity|zl; lia]. go.
    rewrite strlent_text' by (auto; lia). go.
    rewrite write_z'; [|zl; rewrite ?zlen_app in E; lia|now rewrite zlen_cells|zl; lia]. go.
    rewrite write_z'; [|zl; rewrite ?zlen_app in E; lia|reflexivity|zl; lia]. go.
    rewrite strlent_text' by (auto; lia). go.
    rewrite write_z'; [|zl; rewrite ?zlen_app in E; lia|now rewrite zlen_cells|zl; lia]. go.
    rewrite write_z'; [|zl; rewrite ?zlen_app in E; lia|now rewrite zlen_cells|zl; lia]. go.
    rewrite at_pos_end by (zl; lia). unfold body_with. cbn [frame_encoding].
    change ([Some (text_encoding d)]) with (cells [text_encoding d]).
    change ([Some ty]) with (cells [ty]).
    rewrite <- !cells_app. rewrite zlen_cells, <- !app_assoc.
    rewrite <- Himg. reflexivity.
  - destruct Hk as (H1 & H2 & H3 & H4). rewrite H1, H2, H3. rewrite body_size_other in *.
    change ID3v2_FRAME_HEADER_LENGTH with 10. rewrite iadd_ok by lia. go.
    rewrite new_z by lia. go. rewrite FrameHeader_write_big by auto. go. cbn [cs_stream].
    assert (E : zlen (id ++ rb (zlen body) ++ fl) = 10).
    { zl. unfold zlen. rewrite Hi, Hf. reflexivity. }
    rewrite write_z'; [|change (zlen (@nil cell)) with 0; lia|now rewrite zlen_cells, E|rewrite zlen_cells, E; lia]. go.
    rewrite write_z'; [|cbn [app]; rewrite zlen_cells, E; lia|now rewrite zlen_cells|rewrite !zlen_cells; lia]. go.
    rewrite at_pos_end by (rewrite !zlen_cells; lia). cbn [app]. unfold body_with.
    rewrite <- !cells_app. rewrite zlen_cells, <- !app_assoc.
    rewrite <- Himg. reflexivity.
Qed.

Lemma write_frames_ok_big fs : forall ps rest pre k,
  oks fs -> map fp_frame ps = map frame_of fs -> zlen pre + k < 2 ^ 31 -> frames_size fs <= k ->
  write_frames_on P (at_pos pre (zmem k)) (nodes ps ++ rest)
  = write_frames_on P (at_pos (pre ++ cells (images rb fs)) (zmem (k - frames_size fs))) rest.
Proof.
  induction fs as [|f fs IH]; intros ps rest pre k H M F L; destruct ps as [|p ps]; try discriminate M.
  - change (cells (images rb [])) with (@nil cell). rewrite app_nil_r. cbn [nodes map app].
    change (frames_size []) with 0. now rewrite Z.sub_0_r.
  - inversion H as [|? ? Hf H']; subst. injection M as Mp M. rewrite frames_size_cons in *.
    pose proof (frames_size_nonneg fs). pose proof (body_size_nonneg f).
    assert (Z : zlen (cells (frame_image rb f)) = body_size f + 10) by (rewrite zlen_cells; now apply frame_image_length_big).
    cbn [nodes map app write_frames_on fnode n_frame option_map]. rewrite Mp, frame_write_big by auto. go. cbn [cs_stream cs_size].
    rewrite write_z' by lia. go. fold (nodes ps). rewrite Z.
    rewrite IH; auto; [|rewrite zlen_app; lia|lia].
    rewrite images_cons, cells_app, <- app_assoc. do 3 f_equal. lia.
Qed.

  Lemma start_tag_big_endian maj mi fl n ext (k : CharStream -> outcome CharStream) :
    0 <= n < 2 ^ 28 ->
    (let h := mkTH (lit "ID3") maj mi fl n ext in
     let* cs := CharStream_new (to_i32 (to_u32 (th_tag_size h + ID3v2_TAG_HEADER_LENGTH))) in
     let* cs := CharStream_write cs (cells (th_identifier h)) ID3v2_TAG_HEADER_IDENTIFIER_LENGTH in
     let* cs := CharStream_write cs [Some (th_major h)] ID3v2_TAG_HEADER_MAJOR_VERSION_LENGTH in
     let* cs := CharStream_write cs [Some (th_minor h)] ID3v2_TAG_HEADER_MINOR_VERSION_LENGTH in
     let* cs := CharStream_write cs [Some (th_flags h)] ID3v2_TAG_HEADER_FLAGS_LENGTH in
     let* enc := syncint_encode (to_i32 (th_tag_size h)) in
     let* cs := CharStream_write cs (itob_on P enc) ID3v2_TAG_HEADER_TAG_SIZE_LENGTH in k cs)
    = k (at_pos (cells (lit "ID3" ++ [maj; mi; fl] ++ rev (synchsafe32 n))) (zmem n)).
  Proof.
    intros N. cbv zeta. cbn [th_tag_size th_identifier th_major th_minor th_flags].
    change (2 ^ 28) with 268435456 in N.
    change ID3v2_TAG_HEADER_LENGTH with 10. rewrite to_u32_id, to_i32_id by (change (2 ^ 31) with 2147483648; change (2 ^ 32) with 4294967296; lia).
    rewrite new_z by (change (2 ^ 31) with 2147483648; lia). go.
    rewrite write_z'; [|change (zlen (@nil cell)) with 0; change (2 ^ 31) with 2147483648; lia|reflexivity|change (zlen (cells (lit "ID3"))) with 3; lia]. go.
    change (zlen (cells (lit "ID3"))) with 3.
    rewrite write_z'; [|change (zlen ([] ++ cells (lit "ID3"))) with 3; change (2 ^ 31) with 2147483648; lia|reflexivity|change (zlen [Some maj]) with 1; lia]. go.
    change (zlen [Some maj]) with 1.
    rewrite write_z'; [|change (zlen (([] ++ cells (lit "ID3")) ++ [Some maj])) with 4; change (2 ^ 31) with 2147483648; lia|reflexivity|change (zlen [Some mi]) with 1; lia]. go.
    change (zlen [Some mi]) with 1.
    rewrite write_z'; [|change (zlen ((([] ++ cells (lit "ID3")) ++ [Some maj]) ++ [Some mi])) with 5; change (2 ^ 31) with 2147483648; lia|reflexivity|change (zlen [Some fl]) with 1; lia]. go.
    change (zlen [Some fl]) with 1.
    destruct (sync_small n ltac:(change (2 ^ 28) with 268435456; lia)) as (e & E & _ & I & _).
    rewrite to_i32_id by (change (2 ^ 31) with 2147483648; lia). rewrite E. go. rewrite itob_big.
    rewrite itob_spec in I. apply cells_inj in I. unfold rb. rewrite I.
    rewrite write_z'; [|change (zlen (((([] ++ cells (lit "ID3")) ++ [Some maj]) ++ [Some mi]) ++ [Some fl])) with 6; change (2 ^ 31) with 2147483648; lia|reflexivity|change (zlen (cells (rev (synchsafe32 n)))) with 4; lia].
    change (zlen (cells (rev (synchsafe32 n)))) with 4. go. f_equal. rewrite !cells_app. cbn [app]. rewrite <- !app_assoc.
    unfold synchsafe32. cbn [rev cells map app lit]. repeat f_equal. lia.
  Qed.

  Lemma tag_write_big_endian t fs maj mi fl n ext :
    tag_has t (map frame_of fs) -> oks fs -> t_header t = mkTH (lit "ID3") maj mi fl n ext ->
    frames_size fs <= n -> n < 2 ^ 28 ->
    Tag_to_char_stream_on P t
    = Ok (at_pos (cells (lit "ID3" ++ [maj; mi; fl] ++ rev (synchsafe32 n) ++ images rb fs)) (zmem (n - frames_size fs))).
  Proof.
    intros T H Hh L B. pose proof (frames_size_nonneg fs) as Nn. unfold Tag_to_char_stream_on. rewrite Hh.
    etransitivity; [refine (start_tag_big_endian maj mi fl n ext (fun cs =>
      match t_frames t with
      | [] => Ub NullDeref
      | n :: _ => match n_frame n with None => Ok cs | Some _ => write_frames_on P cs (t_frames t) end
      end) _); lia|].
    apply tag_has_owns in T. destruct T as (ps & (Hl & _) & M). rewrite Hl.
    destruct ps as [|p ps].
    - destruct fs; [|discriminate M]. cbn [list_of n_frame]. change (frames_size []) with 0. rewrite Z.sub_0_r.
      change (images rb []) with (@nil byte). now rewrite app_nil_r.
    - rewrite list_of_nodes by discriminate. change (nodes (p :: ps)) with (fnode p :: nodes ps) at 1. cbn [fnode n_frame].
      rewrite <- (app_nil_r (nodes (p :: ps))). rewrite (write_frames_ok_big fs); auto.
      + rewrite zlen_cells. change (zlen (lit "ID3" ++ [maj; mi; fl] ++ rev (synchsafe32 n))) with 10.
        change (2 ^ 28) with 268435456 in B. change (2 ^ 31) with 2147483648. lia.
  Qed.

  Lemma write_big_endian content t fs maj mi fl n ext :
    announces_extended content = false ->
    tag_has t (map frame_of fs) -> oks fs -> t_header t = mkTH (lit "ID3") maj mi fl n ext ->
    frames_size fs <= n -> n < 2 ^ 28 -> 2048 - 2 ^ 31 < t_padding t < 2 ^ 31 ->
    ID3v2_write_tag_on P (Some content) (Some t)
    = Ok (Some (reversed_tag maj mi fl n fs ++ audio content), Some (padded t)).
  Proof.
    intros X T K Hh L B Pd. destruct (file_header content X) as (h & E & H). pose proof (frames_size_nonneg fs) as Nn.
    unfold ID3v2_write_tag_on. rewrite read_header_on, E. go.
    pose proof (padding_any (t_padding t) Pd) as Q. unfold bind in Q at 1.
    destruct (isub ID3v2_TAG_DEFAULT_PADDING_LENGTH (t_padding t)) eqn:I; try discriminate Q. go. rewrite Q. go.
    change (Tag_to_char_stream_on P (mkTag (t_header t) (t_frames t) _ (t_fresh t))) with (Tag_to_char_stream_on P t).
    rewrite (tag_write_big_endian t fs maj mi fl n ext) by auto. go.
    rewrite at_pos_stream, <- cells_zeros, <- cells_app.
    assert (Eq : (lit "ID3" ++ [maj; mi; fl] ++ rev (synchsafe32 n) ++ images rb fs) ++ zeros (n - frames_size fs)
      = reversed_tag maj mi fl n fs) by (unfold reversed_tag; rewrite <- !app_assoc; reflexivity).
    rewrite Eq. rewrite firstn_all2.
    2:{ rewrite length_cells, <- Eq, app_length. unfold at_pos. cbn [cs_size]. rewrite <- ?cells_zeros.
        unfold zlen. rewrite !length_cells. lia. }
    rewrite fwrite_cells. go. rewrite copy_loop_app.
    replace (from_offset content _) with (audio content); [reflexivity|].
    unfold audio, from_offset. destruct h as [h|]; [destruct H as (-> & _ & _)|rewrite H]; reflexivity.
  Qed.
End Big.

(** ** What becomes of it *)

Lemma digits n : 0 <= n < 2 ^ 28 ->
  exists a b c d, synchsafe32 n = [zb a; zb b; zb c; zb d] /\ 0 <= a < 128 /\ 0 <= b < 128 /\ 0 <= c < 128 /\ 0 <= d < 128
    /\ n = a * 2097152 + b * 16384 + c * 128 + d.
Proof.
  intros H. exists (n / 2 ^ 21 mod 128), (n / 2 ^ 14 mod 128), (n / 2 ^ 7 mod 128), (n mod 128).
  split; [reflexivity|]. change (2 ^ 28) with 268435456 in H. change (2 ^ 21) with 2097152. change (2 ^ 14) with 16384. change (2 ^ 7) with 128. lia.
Qed.

Lemma small_bytes a b c d : 0 <= a < 128 -> 0 <= b < 128 -> 0 <= c < 128 -> 0 <= d < 128 ->
  synchsafe_value [zb a; zb b; zb c; zb d] = a * 2097152 + b * 16384 + c * 128 + d.
Proof.
  intros. rewrite synchsafe_sum; rewrite !bv_zb, !Z.mod_small by lia; lia.
Qed.

Lemma reversed_size n : 0 <= n < 2 ^ 28 ->
  let m := synchsafe_value (rev (synchsafe32 n)) in
  0 <= m < 2 ^ 28 /\ (m = n <-> rev (synchsafe32 n) = synchsafe32 n) /\ (0 < n < 2 ^ 14 -> n < m).
Proof.
  intros H m. destruct (digits n H) as (a & b & c & d & E & Ha & Hb & Hc & Hd & N).
  assert (M : m = d * 2097152 + c * 16384 + b * 128 + a).
  { unfold m. rewrite E. cbn [rev app]. now apply small_bytes. }
  change (2 ^ 28) with 268435456. change (2 ^ 14) with 16384. split; [lia|]. split; [|lia].
  rewrite E. cbn [rev app]. split.
  - intros Q. assert (a = d) by lia. assert (b = c) by lia. now subst.
  - intros Q. injection Q as Q1 Q2 Q3 Q4. apply (f_equal bv) in Q1, Q2. rewrite !bv_zb, !Z.mod_small in * by lia. lia.
Qed.

Lemma reversed_frame_size b : 0 <= b < 2 ^ 31 ->
  (declared_size 3 (rev (be32 b)) = b <-> rev (be32 b) = be32 b) /\ (0 < b < 2 ^ 16 -> declared_size 3 (rev (be32 b)) <> b).
Proof.
  intros H. unfold declared_size. cbn [Z.eqb Pos.eqb]. unfold be32. cbn [rev app]. rewrite be_value4, !bv_zb.
  change (2 ^ 24) with 16777216. change (2 ^ 16) with 65536. change (2 ^ 8) with 256. change (2 ^ 31) with 2147483648 in *.
  unfold to_i32. change (2 ^ 31) with 2147483648. change (2 ^ 32) with 4294967296.
  set (p := b mod 256). set (q := b / 256 mod 256). set (r := b / 65536 mod 256). set (s := b / 16777216 mod 256).
  assert (B : b = s * 16777216 + r * 65536 + q * 256 + p) by (unfold p, q, r, s; lia).
  assert (R : 0 <= p < 256 /\ 0 <= q < 256 /\ 0 <= r < 256 /\ 0 <= s < 128) by (unfold p, q, r, s; lia).
  assert (Z : zb b = zb p /\ zb (b / 256) = zb q /\ zb (b / 65536) = zb r /\ zb (b / 16777216) = zb s).
  { unfold p, q, r, s. repeat split; apply bv_inj; rewrite !bv_zb; lia. }
  destruct Z as (-> & -> & -> & ->). clearbody p q r s. clear H. split; [|lia]. split.
  - intros Q. assert (p = s) by lia. assert (q = r) by lia. now subst.
  - intros Q. injection Q as Q1 Q2 Q3 Q4. apply (f_equal bv) in Q1, Q2. rewrite !bv_zb, !Z.mod_small in * by lia. lia.
Qed.

Lemma reversed_tag_zlen maj mi fl n fs : oks fs -> frames_size fs <= n -> zlen (reversed_tag maj mi fl n fs) = 10 + n.
Proof.
  intros K L. unfold reversed_tag, zeros. rewrite !zlen_app, images_zlen, zlen_repeat by (auto; reflexivity).
  change (zlen (lit "ID3")) with 3. change (zlen [maj; mi; fl]) with 3. change (zlen (rev (synchsafe32 n))) with 4. lia.
Qed.

Lemma reversed_file maj mi fl n fs rest :
  known_version maj = true -> has_extended_header fl = false -> oks fs -> frames_size fs <= n -> n < 2 ^ 28 ->
  let content := reversed_tag maj mi fl n fs ++ rest in
  let m := synchsafe_value (rev (synchsafe32 n)) in
  announces_extended content = false /\ tag_length content = Some (10 + m)
  /\ ID3v2_read_tag_header (Some content) = Ok (Some (mkTH (lit "ID3") maj mi fl m 0))
  /\ (n <= m -> audio content = skipn (Z.to_nat (m - n)) rest).
Proof.
  intros V X K L B content m. pose proof (frames_size_nonneg fs).
  set (tail := images rb fs ++ zeros (n - frames_size fs)).
  assert (S : content
    = x49 :: x44 :: x33 :: maj :: mi :: fl :: zb (n mod 128) :: zb (n / 2 ^ 7 mod 128) :: zb (n / 2 ^ 14 mod 128)
      :: zb (n / 2 ^ 21 mod 128) :: tail ++ rest) by reflexivity.
  assert (E : tag_length content = Some (10 + m)).
  { rewrite S. cbn [tag_length]. change (is_id3 x49 x44 x33) with true. rewrite V. reflexivity. }
  assert (A : announces_extended content = false).
  { rewrite S. cbn [announces_extended]. rewrite X. apply andb_false_r. }
  split; [exact A|]. split; [exact E|]. split.
  - rewrite S. match goal with |- context [?a :: ?b :: ?c :: ?d :: ?e :: ?f :: ?g :: ?h :: ?i :: ?j :: ?r ++ ?z] =>
      change (a :: b :: c :: d :: e :: f :: g :: h :: i :: j :: r ++ z) with ([a; b; c; d; e; f; g; h; i; j] ++ (r ++ z));
      rewrite (header_file _ (r ++ z) (Some (cells [a; b; c; d; e; f; g; h; i; j])))
        by (reflexivity || (exists []; now rewrite app_nil_r));
      rewrite (header_from_buffer a b c d e f g h i j) by (exists []; now rewrite app_nil_r) end.
    change (is_id3 x49 x44 x33) with true. rewrite V, X. reflexivity.
  - intros Le. unfold audio. rewrite E. unfold content. rewrite skipn_app, skipn_all2, app_nil_l.
    + f_equal. pose proof (reversed_tag_zlen maj mi fl n fs K L) as Q. unfold zlen in Q. lia.
    + pose proof (reversed_tag_zlen maj mi fl n fs K L) as Q. unfold zlen in Q. lia.
Qed.

Lemma delete_big P Q content t fs maj mi fl n ext : p_big_endian P = true ->
  announces_extended content = false -> known_version maj = true -> has_extended_header fl = false ->
  tag_has t (map frame_of fs) -> oks fs -> t_header t = mkTH (lit "ID3") maj mi fl n ext ->
  frames_size fs <= n -> 0 < n < 2 ^ 14 -> 2048 - 2 ^ 31 < t_padding t < 2 ^ 31 ->
  exists out m, n < m /\ ID3v2_write_tag_on P (Some content) (Some t) = Ok (Some out, Some (padded t))
    /\ ID3v2_read_tag_header_on Q (Some out) = Ok (Some (mkTH (lit "ID3") maj mi fl m 0))
    /\ ID3v2_delete_tag_on Q (Some out) = Ok (Some (skipn (Z.to_nat (m - n)) (audio content))).
Proof.
  intros Be X V Xh T K Hh L B Pd. change (2 ^ 14) with 16384 in B.
  assert (B28 : n < 2 ^ 28) by (change (2 ^ 28) with 268435456; lia).
  destruct (reversed_size n) as (_ & _ & Lt); [change (2 ^ 28) with 268435456; lia|]. cbv zeta in Lt.
  specialize (Lt ltac:(change (2 ^ 14) with 16384; lia)).
  exists (reversed_tag maj mi fl n fs ++ audio content), (synchsafe_value (rev (synchsafe32 n))). split; [exact Lt|].
  destruct (reversed_file maj mi fl n fs (audio content) V Xh K L B28) as (Xc & _ & Hd & Au). cbv zeta in *.
  split; [now apply write_big_endian with (ext := ext)|]. rewrite read_header_on, delete_on. split; [exact Hd|].
  rewrite delete_file by auto. now rewrite Au by lia.
Qed.

Lemma big_endian_tag_size P t fs maj mi fl n ext content out : p_big_endian P = true ->
  announces_extended content = false -> known_version maj = true -> has_extended_header fl = false ->
  tag_has t (map frame_of fs) -> oks fs -> t_header t = mkTH (lit "ID3") maj mi fl n ext ->
  frames_size fs <= n -> n < 2 ^ 28 -> 2048 - 2 ^ 31 < t_padding t < 2 ^ 31 ->
  ID3v2_write_tag_on P (Some content) (Some t) = Ok (Some out, Some (padded t)) ->
  (tag_length out = Some (10 + n) <-> rev (synchsafe32 n) = synchsafe32 n).
Proof.
  intros Be X V Xh T K Hh L B Pd W. pose proof (frames_size_nonneg fs).
  rewrite (write_big_endian P Be content t fs maj mi fl n ext) in W by auto.
  assert (Eq : out = reversed_tag maj mi fl n fs ++ audio content) by congruence. rewrite Eq. clear W Eq out.
  destruct (reversed_file maj mi fl n fs (audio content) V Xh K L B) as (_ & -> & _). cbv zeta.
  destruct (reversed_size n ltac:(lia)) as (_ & I & _). cbv zeta in I. rewrite <- I. split; [intros Q; assert (H1 : 10 + synchsafe_value (rev (synchsafe32 n)) = 10 + n) by congruence; clear - H1; lia|now intros ->].
Qed.

Lemma same_headers P :
  (forall f, ID3v2_read_tag_header_on P f = ID3v2_read_tag_header f)
  /\ (forall p, ID3v2_read_tag_header_from_buffer_on P p = ID3v2_read_tag_header_from_buffer p)
  /\ (forall f, ID3v2_delete_tag_on P f = ID3v2_delete_tag f)
  /\ (forall f, remove_tag_on P f = remove_tag f).
Proof.
  split; [apply read_header_on|]. split; [|split; apply delete_on].
  intros p. unfold ID3v2_read_tag_header_from_buffer_on, ID3v2_read_tag_header_from_buffer.
  destruct (CharStream_from_buffer _ _); cbn [bind]; auto. now rewrite header_parse_on.
Qed.

Lemma same_writes P f : p_big_endian P = false ->
  (forall t, ID3v2_write_tag_on P f t = ID3v2_write_tag f t) /\ (forall t, set_tag_on P f t = set_tag f t).
Proof. intros H. split; intros t; [now apply write_little|now apply set_little]. Qed.
