(** Parsing whole tags. *)
From Verif Require Import File Spec.
From Verif Require Export KindFacts.

(** ** The frame list *)

Lemma add_frame_list ps p : FrameList_add_frame (list_of ps) p = Ok (list_of (ps ++ [p])).
Proof.
  destruct ps as [|q ps]; [reflexivity|].
  cbn [list_of map FrameList_add_frame n_start negb app]. now rewrite map_app.
Qed.

(** ** Sizes *)

Lemma frames_size_app a b : frames_size (a ++ b) = frames_size a + frames_size b.
Proof. induction a as [|f a IH]; [reflexivity|]. cbn [app frames_size fold_right] in *. fold (frames_size a). fold (frames_size (a ++ b)). lia. Qed.
Lemma frames_size_cons f fs : frames_size (f :: fs) = 10 + body_size f + frames_size fs.
Proof. reflexivity. Qed.
Lemma frames_size_nonneg fs : 0 <= frames_size fs.
Proof. induction fs as [|f fs IH]; [discriminate|]. rewrite frames_size_cons. pose proof (body_size_nonneg f). lia. Qed.

Lemma frame_image_zlen sf f : frame_ok f = true -> length (sf (body_size f)) = 4%nat ->
  zlen (frame_image sf f) = 10 + body_size f.
Proof.
  intros H L. pose proof (frame_ok_common _ H) as (Hi & Hf & _).
  assert (Z4 : zlen (sf (body_size f)) = 4) by (unfold zlen; now rewrite L).
  unfold frame_image. rewrite !zlen_app, Z4. unfold body_size. unfold zlen. rewrite Hi, Hf. lia.
Qed.

Lemma images_cons sf f fs : images sf (f :: fs) = frame_image sf f ++ images sf fs.
Proof. reflexivity. Qed.

Lemma images_zlen sf fs :
  Forall (fun f => frame_ok f = true) fs -> (forall n, length (sf n) = 4%nat) ->
  zlen (images sf fs) = frames_size fs.
Proof.
  intros H L. induction H as [|f fs Hf H IH]; [reflexivity|].
  rewrite images_cons, zlen_app, frame_image_zlen, IH, frames_size_cons by auto. lia.
Qed.

Lemma readable_size f : frame_ok f = true -> readable f = true -> 1 <= body_size f.
Proof.
  intros H R. destruct f as [id fl t|fl lang d c|fl m ty d pic|id fl body].
  - rewrite body_size_text. pose proof (text_image_pos t). lia.
  - rewrite body_size_comment. pose proof (text_image_pos d). pose proof (text_image_pos c). pose proof (zlen_nonneg lang). lia.
  - rewrite body_size_picture. pose proof (text_image_pos d). pose proof (text_image_pos m). pose proof (zlen_nonneg pic). lia.
  - rewrite body_size_other. destruct body; [discriminate R|]. rewrite zlen_cons. pose proof (zlen_nonneg body). lia.
Qed.

Lemma cursor_at p r : cs_cursor (at_pos p r) = zlen p.
Proof. reflexivity. Qed.

(** ** The frame loop on well-formed input *)

(** A frame that is read back from its image under a size format. *)
Definition reads_back (ver : Z) (sf : Z -> list byte) (f : fspec) : Prop :=
  frame_ok f = true /\ 1 <= body_size f /\
  forall pre rest, fits pre (cells (frame_image sf f) ++ rest) ->
    Frame_parse (at_pos pre (cells (frame_image sf f) ++ rest)) ver
    = Ok (Some (frame_of f), at_pos (pre ++ cells (frame_image sf f)) rest).

Lemma reads_back_size ver sf f :
  frame_ok f = true -> readable f = true -> length (sf (body_size f)) = 4%nat ->
  declared_size ver (sf (body_size f)) = body_size f -> reads_back ver sf f.
Proof.
  intros K R L D. split; [auto|]. split; [now apply readable_size|]. intros pre rest F.
  unfold frame_image, frame_body in *. now apply frame_parse.
Qed.

Lemma parse_loop_frames ver sf tag_size (Lsf : forall n, length (sf n) = 4%nat) fs :
  forall pre rest ps fresh fuel,
  Forall (reads_back ver sf) fs -> (length fs < fuel)%nat ->
  fits pre (cells (images sf fs) ++ rest) ->
  zlen pre + frames_size fs <= tag_size + 10 ->
  tag_size <= zlen pre + frames_size fs \/ (exists r, rest = cells [x00; x00; x00; x00] ++ r) ->
  parse_loop fuel tag_size ver (at_pos pre (cells (images sf fs) ++ rest)) (list_of ps) fresh
  = Ok (list_of (ps ++ combine (seq fresh (length fs)) (map frame_of fs)), (fresh + length fs)%nat,
        at_pos (pre ++ cells (images sf fs)) rest).
Proof.
  induction fs as [|f fs IH]; intros pre rest ps fresh fuel H Hfuel F Hin Hstop.
  - change (cells (images sf [])) with (@nil cell) in *. change (@nil cell ++ rest) with rest in *.
    cbn [map length combine seq]. rewrite !app_nil_r, Nat.add_0_r.
    change (frames_size []) with 0 in *. unfold fits in F. pose proof (zlen_nonneg pre). pose proof (zlen_nonneg rest).
    destruct fuel as [|fuel]; [lia|]. cbn [parse_loop]; rewrite cursor_at.
    rewrite to_u32_id by lia.
    destruct Hstop as [S|(r & ->)].
    + ifF. reflexivity.
    + destruct (zlen pre <? tag_size); [|reflexivity].
      unfold Frame_parse. rewrite FrameHeader_parse_padding by exact F. reflexivity.
  - inversion H as [|? ? (Hok & Hsz & Hrd) H']; subst.
    rewrite frames_size_cons in *. pose proof (frames_size_nonneg fs).
    rewrite images_cons, cells_app, <- app_assoc in *.
    pose proof (zlen_nonneg pre). pose proof (zlen_nonneg rest).
    assert (Zf : zlen (cells (frame_image sf f)) = 10 + body_size f) by (rewrite zlen_cells; now apply frame_image_zlen).
    destruct fuel as [|fuel]; [cbn [length] in Hfuel; lia|]. cbn [parse_loop]; rewrite cursor_at.
    rewrite to_u32_id.
    2:{ unfold fits in F. rewrite !zlen_app in F. pose proof (zlen_nonneg (cells (images sf fs))). lia. }
    ifT.
    rewrite Hrd by exact F. go.
    rewrite add_frame_list. go. rewrite IH; auto.
    + cbn [length seq map combine]. rewrite <- !app_assoc, Nat.add_succ_r. reflexivity.
    + cbn [length] in Hfuel. lia.
    + unfold fits in *. rewrite !zlen_app in *. lia.
    + rewrite zlen_app. lia.
    + rewrite zlen_app. destruct Hstop as [S|S]; [left; lia|now right].
Qed.

(** ** Whole tags *)

Lemma declared_size_of major n ver :
  known_version major = true -> ver = schar major -> 0 <= n < 2 ^ 28 ->
  declared_size ver (size_field_of major n) = n.
Proof.
  intros K -> N. unfold size_field_of. unfold known_version in K.
  destruct (Byte.eqb major x04) eqn:E.
  - apply beq_true in E. subst. now apply declared_synchsafe.
  - rewrite orb_false_r in K. apply beq_true in K. subst. apply declared_be32; [discriminate|lia].
Qed.

Lemma size_field_length major n : length (size_field_of major n) = 4%nat.
Proof. unfold size_field_of. destruct (Byte.eqb major x04); reflexivity. Qed.

Lemma combine_fst {A B} (a : list A) (b : list B) : length a = length b -> map fst (combine a b) = a.
Proof. revert b. induction a as [|x a IH]; intros [|y b] L; cbn in *; try lia; auto. f_equal. apply IH. lia. Qed.
Lemma combine_snd {A B} (a : list A) (b : list B) : length a = length b -> map snd (combine a b) = b.
Proof. revert b. induction a as [|x a IH]; intros [|y b] L; cbn in *; try lia; auto. f_equal. apply IH. lia. Qed.

Lemma tag_has_fresh h pad fs :
  tag_has (mkTag h (list_of (combine (seq 0 (length fs)) (map frame_of fs))) pad (length fs)) (map frame_of fs).
Proof.
  exists (combine (seq 0 (length fs)) (map frame_of fs)). cbn [t_frames t_fresh].
  assert (L : length (seq 0 (length fs)) = length (map frame_of fs)) by (rewrite seq_length, map_length; auto).
  split; [reflexivity|].
  change (map fp_frame) with (@map (nat * frame) frame snd). change (map fp_addr) with (@map (nat * frame) nat fst).
  rewrite (combine_fst _ _ L), (combine_snd _ _ L).
  split; [reflexivity|]. split; [apply seq_NoDup|].
  apply Forall_forall. intros x Hx. apply in_seq in Hx. lia.
Qed.

Lemma frames_count fs sf : Forall (fun f => frame_ok f = true) fs -> (forall n, length (sf n) = 4%nat) ->
  (length fs <= length (images sf fs))%nat.
Proof.
  intros H L. induction H as [|f fs Hf H IH]; [cbn; lia|].
  rewrite images_cons, app_length. pose proof (frame_image_zlen sf f Hf (L _)) as Z. unfold zlen in Z.
  pose proof (body_size_nonneg f). cbn [length]. lia.
Qed.

Lemma header_image_cells major minor flags n :
  header_image major minor flags n = [("I":byte); ("D":byte); ("3":byte); major; minor; flags;
    zb (n / 2 ^ 21 mod 128); zb (n / 2 ^ 14 mod 128); zb (n / 2 ^ 7 mod 128); zb (n mod 128)]%byte.
Proof. reflexivity. Qed.

(** Anything may follow the padding; [padding] zero bytes are enough to end the
    loop when more than ten of them are declared. *)
Lemma tag_parse_gen major minor flags sf fs pad (rest : mem) :
  known_version major = true -> has_extended_header flags = false ->
  (forall n, length (sf n) = 4%nat) -> Forall (reads_back (schar major) sf) fs ->
  0 <= pad -> frames_size fs + pad < 2 ^ 28 ->
  let size := frames_size fs + pad in
  let bytes := header_image major minor flags size ++ images sf fs ++ zeros pad in
  fits [] (cells bytes ++ rest) ->
  Tag_parse (at_pos [] (cells bytes ++ rest))
  = Ok (Some (mkTag (mkTH (lit "ID3") major minor flags size 0)
                    (list_of (combine (seq 0 (length fs)) (map frame_of fs)))
                    (pad + zlen rest) (length fs))).
Proof.
  intros K X Lsf Hrb P S size bytes F.
  pose proof (frames_size_nonneg fs) as N.
  assert (Hok : Forall (fun f => frame_ok f = true) fs) by (eapply Forall_impl; [|exact Hrb]; intros a Ha; apply Ha).
  unfold Tag_parse. unfold bytes in *. rewrite header_image_cells in *.
  rewrite !cells_app, <- !app_assoc in *.
  rewrite header_start by auto. cbv zeta. rewrite K, X. cbn [negb]. go.
  replace (synchsafe_value _) with size
    by (symmetry; apply (synchsafe_value_synchsafe32 size); unfold size; lia).
  cbn [th_ext_size th_tag_size th_major]. change (0 <? 0) with false. cbv iota. go.
  unfold ID3v2_Tag_new. cbn [t_frames t_fresh]. change FrameList_new with (list_of []).
  set (h10 := [_; _; _; _; _; _; _; _; _; _]).
  assert (Zh : zlen (cells h10) = 10) by reflexivity.
  assert (Zi : zlen (cells (images sf fs)) = frames_size fs)
    by (rewrite zlen_cells; apply images_zlen; auto).
  assert (Zp : zlen (cells (zeros pad)) = pad).
  { rewrite zlen_cells. unfold zeros. rewrite zlen_repeat. lia. }
  assert (F' : fits (cells h10) (cells (images sf fs) ++ cells (zeros pad) ++ rest)).
  { unfold fits in *. rewrite !zlen_app in *. change (zlen (@nil cell)) with 0 in F. fold h10 in F. lia. }
  rewrite parse_loop_frames; auto.
  - go. cbn [app at_pos cs_size cs_cursor].
    unfold fits in F'. rewrite !zlen_app in *. pose proof (zlen_nonneg rest).
    rewrite isub_ok by lia. go. cbn [Nat.add]. apply f_equal, f_equal. f_equal. lia.
  - pose proof (frames_count fs _ Hok Lsf). cbn [cs_stream at_pos]. rewrite !app_length, !length_cells. lia.
  - rewrite Zh. unfold size. lia.
  - rewrite Zh. destruct (Z.le_gt_cases pad 10) as [L|L]; [left; unfold size; lia|right].
    exists (cells (zeros (pad - 4)) ++ rest). unfold zeros.
    replace (Z.to_nat pad) with (4 + Z.to_nat (pad - 4))%nat by lia. reflexivity.
Qed.

Lemma body_sizes fs n : frames_size fs < n -> Forall (fun f => body_size f < n) fs.
Proof.
  induction fs as [|f fs IH]; intros S; constructor; rewrite frames_size_cons in S.
  - pose proof (frames_size_nonneg fs). lia.
  - apply IH. pose proof (body_size_nonneg f). lia.
Qed.

Lemma all_read_back major fs :
  known_version major = true -> Forall (fun f => frame_ok f = true /\ readable f = true) fs ->
  frames_size fs < 2 ^ 28 -> Forall (reads_back (schar major) (size_field_of major)) fs.
Proof.
  intros K H S. apply body_sizes in S. rewrite Forall_forall in *. intros f Hf. destruct (H f Hf).
  specialize (S f Hf). cbn beta in S. pose proof (body_size_nonneg f).
  apply reads_back_size; auto; [apply size_field_length|]. apply declared_size_of; auto.
Qed.

Lemma read_tag_gen major minor flags sf fs pad trailing p :
  known_version major = true -> has_extended_header flags = false ->
  (forall n, length (sf n) = 4%nat) -> Forall (reads_back (schar major) sf) fs ->
  0 <= pad -> frames_size fs + pad < 2 ^ 28 ->
  let size := frames_size fs + pad in
  let bytes := header_image major minor flags size ++ images sf fs ++ zeros pad ++ trailing in
  zlen bytes < 2 ^ 31 -> points_to p bytes ->
  exists tag, ID3v2_read_tag_from_buffer p (zlen bytes) = Ok (Some tag)
    /\ t_header tag = mkTH (lit "ID3") major minor flags size 0
    /\ tag_has tag (map frame_of fs)
    /\ t_padding tag = pad + zlen trailing.
Proof.
  intros K X Lsf H P S size bytes L (tail & ->).
  eexists. split; [|split; [|split]].
  - unfold ID3v2_read_tag_from_buffer. rewrite from_buffer_at by (now rewrite zlen_cells). go.
    replace (cells bytes) with (cells (header_image major minor flags size ++ images sf fs ++ zeros pad) ++ cells trailing)
      by (unfold bytes; rewrite !cells_app, <- !app_assoc; reflexivity).
    apply tag_parse_gen; auto.
    unfold fits, bytes in *. rewrite !zlen_app, !zlen_cells, !zlen_app in *. change (zlen (@nil cell)) with 0. fold size. lia.
  - reflexivity.
  - apply tag_has_fresh.
  - cbn [t_padding]. now rewrite zlen_cells.
Qed.

Lemma read_tag_ok major minor flags fs pad trailing p :
  known_version major = true -> has_extended_header flags = false ->
  Forall (fun f => frame_ok f = true /\ readable f = true) fs ->
  0 <= pad -> frames_size fs + pad < 2 ^ 28 ->
  let size := frames_size fs + pad in
  let bytes := header_image major minor flags size ++ images (size_field_of major) fs ++ zeros pad ++ trailing in
  zlen bytes < 2 ^ 31 -> points_to p bytes ->
  exists tag, ID3v2_read_tag_from_buffer p (zlen bytes) = Ok (Some tag)
    /\ t_header tag = mkTH (lit "ID3") major minor flags size 0
    /\ tag_has tag (map frame_of fs)
    /\ t_padding tag = pad + zlen trailing.
Proof.
  intros K X H P S size bytes L Pt.
  apply read_tag_gen; auto; [apply size_field_length|]. apply all_read_back; auto. lia.
Qed.

(** ** Termination on arbitrary input *)

(** A cursor outside the stream (only after an extended header). *)
Lemma parse_outside cs ver r :
  0 <= cs_size cs -> cs_cursor cs < 0 \/ cs_size cs < cs_cursor cs ->
  Frame_parse cs ver <> Ok r.
Proof.
  intros H O E.
  unfold Frame_parse, FrameHeader_parse, read_into, CharStream_read in E.
  do 3 (apply bind_Ok in E; destruct E as (? & E & _)).
  apply bind_Ok in E. destruct E as (a & Ea & E).
  unfold isub in Ea. apply chk_int_inv in Ea. destruct Ea as [-> R].
  apply bind_Ok in E. destruct E as (d & E & _).
  unfold clamp_int in *. change ID3v2_FRAME_HEADER_ID_LENGTH with 4 in *.
  change (4 <? 0) with false in *. cbv iota in *. unfold memcpy_from, CharStream_get_cur in E.
  destruct O as [O|O].
  - replace (cs_cursor cs <? 0) with true in E by lia. change (zlen (@nil cell)) with 0 in E.
    destruct (cs_size cs - cs_cursor cs <? 4) eqn:C.
    + replace (cs_size cs - cs_cursor cs <? 0) with false in E by lia.
      replace (0 <? cs_size cs - cs_cursor cs) with true in E by lia. discriminate E.
    + discriminate E.
  - replace (cs_size cs - cs_cursor cs <? 4) with true in * by lia.
    replace (cs_size cs - cs_cursor cs <? 0) with true in E by lia. discriminate E.
Qed.

Lemma benign_add l f : benign (FrameList_add_frame l f).
Proof. unfold FrameList_add_frame. ben. Qed.

(** The loop ends: every frame it accepts takes at least 8 bytes. *)
Lemma parse_loop_benign tag_size ver fuel : forall p r l fresh,
  fits p r -> (length r < fuel)%nat -> benign (parse_loop fuel tag_size ver (at_pos p r) l fresh).
Proof.
  induction fuel as [|fuel IH]; intros p r l fresh F L; [lia|].
  cbn [parse_loop]. destruct (to_u32 _ <? tag_size); [|exact I].
  apply benign_bind; [apply benign_frame_parse|]. intros [fo cs] E.
  apply frame_parse_moved in E; auto. destruct fo as [f|]; [|exact I].
  destruct E as (c & r' & -> & -> & K).
  apply benign_bind; [apply benign_add|]. intros l' _.
  apply IH; [now apply fits_app|]. rewrite app_length in L. unfold zlen in K. lia.
Qed.

Lemma tag_header_moved p r ho cs :
  fits p r -> TagHeader_parse (at_pos p r) = Ok (ho, cs) -> moved 0 p r cs.
Proof.
  intros F E. unfold TagHeader_parse in E. binv E. destruct v; cbn [negb] in E.
  2:{ injection E as <- <-. apply moved_refl. }
  binv E. destruct v as [d c1]. apply read_into_moved in E1; [|auto|discriminate].
  destruct E1 as (a1 & r1 & Q1 & -> & _). subst r. apply moved_app. apply fits_app in F.
  binv E. destruct v as [z1 c2]. apply getc_moved in E1. destruct E1 as (a2 & r2 & -> & ->).
  apply moved_app. apply fits_app in F.
  binv E. destruct v as [z2 c3]. apply getc_moved in E1. destruct E1 as (a3 & r3 & -> & ->).
  apply moved_app. apply fits_app in F.
  destruct (negb (z1 =? 3) && negb (z1 =? 4)).
  { injection E as <- <-. apply moved_refl. }
  binv E. destruct v as [z3 c4]. apply getc_moved in E1. destruct E1 as (a4 & r4 & -> & ->).
  apply moved_app. apply fits_app in F.
  binv E. destruct v as [d2 c5]. apply read_into_moved in E1; [|auto|discriminate].
  destruct E1 as (a5 & r5 & Q1 & -> & _). subst r4. apply moved_app. apply fits_app in F.
  binv E. destruct (Z.land z3 _ =? _).
  2:{ injection E as <- <-. apply moved_refl. }
  binv E. destruct v0 as [d3 c6]. apply read_into_moved in E2; [|auto|discriminate].
  destruct E2 as (a6 & r6 & Q1 & -> & _). subst r5. apply moved_app.
  binv E. injection E as <- <-. apply moved_refl.
Qed.

Lemma at_pos_cursor (m : mem) c : 0 <= c <= zlen m -> mkCS c (zlen m) m = at_pos (take c m) (drop c m).
Proof.
  intros H. unfold at_pos. rewrite take_drop, zlen_take, zlen_drop by lia. f_equal; lia.
Qed.

(** Any position of the cursor. *)
Lemma parse_loop_any tag_size ver fuel (m : mem) c l fresh :
  zlen m < 2 ^ 31 -> (length m + 2 <= fuel)%nat ->
  benign (parse_loop fuel tag_size ver (mkCS c (zlen m) m) l fresh).
Proof.
  intros Z L. pose proof (zlen_nonneg m).
  destruct (Z.le_gt_cases 0 c) as [A|A]; [destruct (Z.le_gt_cases c (zlen m)) as [B|B]|].
  - rewrite at_pos_cursor by lia. apply parse_loop_benign.
    + unfold fits. rewrite zlen_take, zlen_drop by lia. lia.
    + unfold drop. rewrite skipn_length. lia.
  - destruct fuel as [|fuel]; [lia|]. cbn [parse_loop cs_cursor]. destruct (to_u32 c <? tag_size); [|exact I].
    apply benign_bind; [apply benign_frame_parse|]. intros x E. exfalso.
    eapply parse_outside; [| |exact E]; cbn [cs_size cs_cursor]; lia.
  - destruct fuel as [|fuel]; [lia|]. cbn [parse_loop cs_cursor]. destruct (to_u32 c <? tag_size); [|exact I].
    apply benign_bind; [apply benign_frame_parse|]. intros x E. exfalso.
    eapply parse_outside; [| |exact E]; cbn [cs_size cs_cursor]; lia.
Qed.

Lemma tag_parse_benign (m : mem) : zlen m < 2 ^ 31 -> benign (Tag_parse (at_pos [] m)).
Proof.
  intros Z. unfold Tag_parse. apply benign_bind; [apply benign_th_parse|]. intros [h cs] E.
  apply tag_header_moved in E; [|exact Z]. destruct E as (c & r & -> & -> & _).
  destruct h as [h|]; [|exact I]. cbn [app].
  apply benign_bind; [destruct (0 <? th_ext_size h); exact I|]. intros cs Ecs.
  assert (exists k, cs = mkCS k (zlen (c ++ r)) (c ++ r)) as (k & ->).
  { destruct (0 <? th_ext_size h); cbn [CharStream_seek] in Ecs; injection Ecs as <-;
      unfold with_cursor, at_pos; cbn [cs_size cs_stream]; rewrite (zlen_app c r); eauto. }
  apply benign_bind.
  - apply parse_loop_any; auto.
  - intros [[fr fresh] cs'] _. apply benign_bind; [apply benign_isub|]. intros; exact I.
Qed.

Lemma read_tag_terminates p n : n < 2 ^ 31 -> benign (ID3v2_read_tag_from_buffer p n).
Proof.
  intros N. unfold ID3v2_read_tag_from_buffer, CharStream_from_buffer.
  apply benign_bind; [apply benign_bind; [apply benign_memcpy|intros; exact I]|].
  intros cs E. binv E. injection E as <-.
  assert (zlen v = n).
  { unfold memcpy_from in E0. destruct p as [m|]; [|discriminate]. destruct (n <? 0) eqn:Hn; [discriminate|].
    destruct (zlen m <? n) eqn:Hm; [discriminate|]. injection E0 as <-. unfold zlen in *. rewrite firstn_length. lia. }
  subst n. change (mkCS 0 (zlen v) v) with (at_pos [] v). now apply tag_parse_benign.
Qed.

Lemma read_tag_ends p n : n < 2 ^ 31 ->
  (exists r, ID3v2_read_tag_from_buffer p n = Ok r) \/ (exists u, ID3v2_read_tag_from_buffer p n = Ub u).
Proof.
  intros N. pose proof (read_tag_terminates p n N) as B. destruct (ID3v2_read_tag_from_buffer p n); cbn [benign] in B; try contradiction; eauto.
Qed.

Lemma frame_progress pre rest ver f cs :
  fits pre rest -> Frame_parse (at_pos pre rest) ver = Ok (Some f, cs) ->
  exists taken rest', rest = taken ++ rest' /\ 8 <= zlen taken /\ cs = at_pos (pre ++ taken) rest'.
Proof.
  intros F E. apply frame_parse_moved in E; auto. destruct E as (c & r' & -> & -> & K). exists c, r'. auto.
Qed.
