(** Reading, writing and deleting the tag of a file. *)
From Verif Require Import File Calls Spec SpecEdit SpecFile.
From Verif Require Export RoundFacts.

(** ** The header of a file *)

Lemma at_least_ten {A} (l : list A) : (length l < 10)%nat \/
  exists a b c d e f g h i j r, l = a :: b :: c :: d :: e :: f :: g :: h :: i :: j :: r.
Proof.
  destruct l as [|a [|b [|c [|d [|e [|f [|g [|h [|i [|j r]]]]]]]]]];
    try (left; cbn [length]; lia).
  right. now exists a, b, c, d, e, f, g, h, i, j, r.
Qed.

Lemma tag_length_short l : (length l < 10)%nat -> tag_length l = None.
Proof.
  destruct l as [|a [|b [|c [|d [|e [|f [|g [|h [|i [|j r]]]]]]]]]]; intros L; try reflexivity.
  cbn [length] in L. lia.
Qed.

(** The outcome of reading the header, and the length of the tag. *)
Lemma file_header content : announces_extended content = false ->
  exists h, ID3v2_read_tag_header (Some content) = Ok h
    /\ match h with
       | Some h => tag_length content = Some (declared_length h) /\ th_ext_size h = 0
                   /\ declared_length h = 10 + th_tag_size h
       | None => tag_length content = None
       end.
Proof.
  intros X. destruct (at_least_ten content) as [S|(a & b & c & d & e & f & g & h & i & j & r & ->)].
  - exists None. split; [now apply header_short|now apply tag_length_short].
  - change (a :: b :: c :: d :: e :: f :: g :: h :: i :: j :: r) with ([a; b; c; d; e; f; g; h; i; j] ++ r).
    rewrite (header_file _ r (Some (cells [a; b; c; d; e; f; g; h; i; j])))
      by (reflexivity || (exists []; now rewrite app_nil_r)).
    rewrite (header_from_buffer a b c d e f g h i j) by (exists []; now rewrite app_nil_r).
    cbn [announces_extended] in X. cbn [app tag_length].
    destruct (is_id3 a b c && known_version d) eqn:K.
    + cbn [andb] in X. rewrite X. eexists. split; [reflexivity|]. cbn [th_ext_size th_tag_size].
      unfold declared_length. cbn [th_tag_size]. change ID3v2_TAG_HEADER_LENGTH with 10.
      pose proof (synchsafe_value_range [g; h; i; j]) as R. change (2 ^ 29) with 536870912 in R.
      rewrite to_u32_id, to_i32_id by lia. split; [f_equal; lia|]. split; [reflexivity|lia].
    + exists None. split; reflexivity.
Qed.

Lemma tag_length_range content n : tag_length content = Some n -> 10 <= n < 10 + 2 ^ 29.
Proof.
  destruct (at_least_ten content) as [S|(a & b & c & d & e & f & g & h & i & j & r & ->)].
  - rewrite tag_length_short by auto. discriminate.
  - cbn [tag_length]. destruct (is_id3 a b c && known_version d); [|discriminate].
    pose proof (synchsafe_value_range [g; h; i; j]). set (v := synchsafe_value [g; h; i; j]) in *. clearbody v.
    intros E. assert (n = 10 + v) by congruence. lia.
Qed.

(** ** Copying *)

Lemma copy_loop_app src : forall dst, copy_loop src dst = dst ++ src.
Proof.
  induction src as [|c src IH]; intros dst; cbn [copy_loop]; [now rewrite app_nil_r|].
  rewrite IH, <- app_assoc. reflexivity.
Qed.

Lemma copy_states_prefixes src : forall dst,
  copy_states src dst = map (fun k => dst ++ firstn (S k) src) (seq 0 (length src)).
Proof.
  induction src as [|c src IH]; intros dst; [reflexivity|].
  cbn [copy_states length seq map]. rewrite IH. f_equal.
  rewrite <- (seq_shift (length src) 0), map_map. apply map_ext. intros k.
  rewrite <- app_assoc. reflexivity.
Qed.

Lemma states_rewritten original final :
  Some original :: Some [] :: map Some (copy_states final []) = rewritten original final.
Proof.
  unfold rewritten. f_equal. rewrite copy_states_prefixes, map_map. cbn [seq map firstn]. f_equal.
  rewrite <- (seq_shift (length final) 0), map_map. reflexivity.
Qed.

Lemma last_rewritten original final : last (rewritten original final) (Some original) = Some final.
Proof.
  unfold rewritten. rewrite seq_S. cbn [Nat.add]. rewrite map_app. cbn [map]. rewrite app_comm_cons, last_last, firstn_all. reflexivity.
Qed.

Lemma fwrite_cells l : fwrite_bytes (cells l) = Ok l.
Proof. induction l as [|b l IH]; [reflexivity|]. change (cells (b :: l)) with (Some b :: cells l). cbn [fwrite_bytes]. rewrite IH. reflexivity. Qed.

(** ** Writing *)

(** Whatever the padding, as long as the arithmetic on it is defined. *)
Lemma padding_any p : 2048 - 2 ^ 31 < p < 2 ^ 31 ->
  (let* d := isub ID3v2_TAG_DEFAULT_PADDING_LENGTH p in
   iadd p (clamp_int d 0 ID3v2_TAG_DEFAULT_PADDING_LENGTH))
  = Ok (if p <? 0 then p + 2048 else Z.max p 2048).
Proof.
  intros R. unfold ID3v2_TAG_DEFAULT_PADDING_LENGTH. rewrite isub_ok by lia. go.
  unfold clamp_int.
  destruct (Z.ltb_spec (2048 - p) 0); [|destruct (Z.ltb_spec 2048 (2048 - p))];
    destruct (Z.ltb_spec p 0); try lia; rewrite iadd_ok by lia; f_equal; lia.
Qed.

Lemma write_states content t cs bytes :
  announces_extended content = false -> 2048 - 2 ^ 31 < t_padding t < 2 ^ 31 ->
  Tag_to_char_stream t = Ok cs -> cs_stream cs = cells bytes -> cs_size cs = zlen bytes ->
  ID3v2_write_tag_states (Some content) (Some t)
  = Ok (rewritten content (bytes ++ audio content), Some (padded t)).
Proof.
  intros X P W S Z. destruct (file_header content X) as (h & E & H).
  cbn [ID3v2_write_tag_states]. rewrite E. go.
  pose proof (padding_any (t_padding t) P) as Q. unfold bind in Q at 1.
  destruct (isub ID3v2_TAG_DEFAULT_PADDING_LENGTH (t_padding t)) eqn:I; try discriminate Q. go. rewrite Q. go.
  change (Tag_to_char_stream (mkTag (t_header t) (t_frames t) _ (t_fresh t))) with (Tag_to_char_stream t).
  rewrite W. go. rewrite S, Z. rewrite firstn_all2 by (pose proof (zlen_cells bytes); unfold zlen in *; lia).
  rewrite fwrite_cells. go. rewrite copy_loop_app.
  replace (from_offset content _) with (audio content).
  2:{ unfold audio, from_offset. destruct h as [h|]; [destruct H as (-> & _ & _)|rewrite H]; reflexivity. }
  rewrite states_rewritten. reflexivity.
Qed.

Lemma write_gen content t cs bytes :
  announces_extended content = false -> 2048 - 2 ^ 31 < t_padding t < 2 ^ 31 ->
  Tag_to_char_stream t = Ok cs -> cs_stream cs = cells bytes -> cs_size cs = zlen bytes ->
  ID3v2_write_tag (Some content) (Some t) = Ok (Some (bytes ++ audio content), Some (padded t)).
Proof.
  intros X P W S Z. unfold ID3v2_write_tag. rewrite (write_states content t cs bytes X P W S Z). go.
  rewrite last_rewritten. reflexivity.
Qed.

Lemma tag_bytes_zlen maj mi fl n fs : oks fs -> frames_size fs <= n -> zlen (tag_bytes maj mi fl n fs) = 10 + n.
Proof.
  intros K L. unfold tag_bytes, header_image, zeros. rewrite !zlen_app, images_zlen, zlen_repeat by (auto; reflexivity).
  change (zlen (lit "ID3")) with 3. change (zlen [maj; mi; fl]) with 3. change (zlen (synchsafe32 n)) with 4. lia.
Qed.

Lemma stream_bytes t fs maj mi fl n ext :
  tag_has t (map frame_of fs) -> oks fs -> t_header t = mkTH (lit "ID3") maj mi fl n ext ->
  frames_size fs <= n -> n < 2 ^ 28 ->
  exists cs, Tag_to_char_stream t = Ok cs /\ cs_stream cs = cells (tag_bytes maj mi fl n fs)
    /\ cs_size cs = zlen (tag_bytes maj mi fl n fs).
Proof.
  intros T K H L B. pose proof (frames_size_nonneg fs).
  destruct (tag_write t fs maj mi fl n ext T K H) as (cs & E & Z & S); try lia.
  exists cs. split; [exact E|]. rewrite tag_bytes_zlen by auto. split; [|lia].
  rewrite S. unfold tag_image, tag_bytes, header_image. rewrite four_bytes_small by lia. rewrite <- !app_assoc. reflexivity.
Qed.

Lemma write_file content t fs maj mi fl n ext :
  announces_extended content = false ->
  tag_has t (map frame_of fs) -> oks fs -> t_header t = mkTH (lit "ID3") maj mi fl n ext ->
  frames_size fs <= n -> n < 2 ^ 28 -> 2048 - 2 ^ 31 < t_padding t < 2 ^ 31 ->
  ID3v2_write_tag (Some content) (Some t)
  = Ok (Some (tag_bytes maj mi fl n fs ++ audio content), Some (padded t)).
Proof.
  intros X T K H L B P. destruct (stream_bytes t fs maj mi fl n ext T K H L B) as (cs & E & S & Z).
  apply (write_gen content t cs); auto.
Qed.

(** The file that was written. *)
Lemma written_file maj mi fl n fs rest :
  known_version maj = true -> has_extended_header fl = false -> oks fs -> frames_size fs <= n -> n < 2 ^ 28 ->
  let content := tag_bytes maj mi fl n fs ++ rest in
  announces_extended content = false /\ tag_length content = Some (10 + n) /\ audio content = rest.
Proof.
  intros V X K L B content. pose proof (frames_size_nonneg fs).
  set (tail := images be32 fs ++ zeros (n - frames_size fs)).
  assert (S : tag_bytes maj mi fl n fs ++ rest
    = x49 :: x44 :: x33 :: maj :: mi :: fl :: zb (n / 2 ^ 21 mod 128) :: zb (n / 2 ^ 14 mod 128)
      :: zb (n / 2 ^ 7 mod 128) :: zb (n mod 128) :: tail ++ rest) by reflexivity.
  assert (E : tag_length (tag_bytes maj mi fl n fs ++ rest) = Some (10 + n)).
  { rewrite S. cbn [tag_length].
    change (is_id3 x49 x44 x33) with true. rewrite V. cbn [andb]. do 2 f_equal.
    apply (synchsafe_value_synchsafe32 n). lia. }
  split; [|split].
  - unfold content. rewrite S. cbn [announces_extended]. rewrite X. apply andb_false_r.
  - exact E.
  - unfold audio, content. rewrite E. rewrite skipn_app, skipn_all2, app_nil_l.
    + replace (Z.to_nat (10 + n) - _)%nat with 0%nat; [reflexivity|].
      pose proof (tag_bytes_zlen maj mi fl n fs K L) as Q. unfold zlen in Q. lia.
    + pose proof (tag_bytes_zlen maj mi fl n fs K L) as Q. unfold zlen in Q. lia.
Qed.

(** ** Reading *)

Lemma fread_exact content n : 0 <= n <= zlen content ->
  fread_into content n = cells (firstn (Z.to_nat n) content).
Proof.
  intros R. unfold fread_into. unfold zlen in R.
  replace (Z.to_nat n - _)%nat with 0%nat; [apply app_nil_r|].
  unfold cells. rewrite map_length, firstn_length. lia.
Qed.

Lemma read_file content h : announces_extended content = false ->
  ID3v2_read_tag_header (Some content) = Ok (Some h) ->
  declared_length h <= zlen content ->
  ID3v2_read_tag (Some content)
  = ID3v2_read_tag_from_buffer (Some (cells (firstn (Z.to_nat (declared_length h)) content))) (declared_length h).
Proof.
  intros X E L. unfold ID3v2_read_tag. rewrite E. go.
  destruct (file_header content X) as (h' & E' & H). rewrite E in E'. injection E' as <-.
  destruct H as (H & _). apply tag_length_range in H.
  rewrite fread_exact by lia. reflexivity.
Qed.

(** What counts is the declared tag. *)
Lemma header_prefix a b : (10 <= length a)%nat -> ID3v2_read_tag_header (Some (a ++ b)) = ID3v2_read_tag_header (Some a).
Proof.
  intros L. unfold ID3v2_read_tag_header. change (Z.to_nat ID3v2_TAG_HEADER_LENGTH) with 10%nat.
  rewrite firstn_app. replace (10 - length a)%nat with 0%nat by lia. cbn [firstn]. now rewrite app_nil_r.
Qed.

Lemma read_prefix content n rest :
  tag_length content = Some n -> n <= zlen content ->
  ID3v2_read_tag (Some (firstn (Z.to_nat n) content ++ rest)) = ID3v2_read_tag (Some content).
Proof.
  intros T L. pose proof (tag_length_range _ _ T) as R.
  assert (Lf : length (firstn (Z.to_nat n) content) = Z.to_nat n) by (rewrite firstn_length; unfold zlen in L; lia).
  assert (H : forall r, ID3v2_read_tag_header (Some (firstn (Z.to_nat n) content ++ r))
            = ID3v2_read_tag_header (Some (firstn (Z.to_nat n) content))).
  { intros. apply header_prefix. lia. }
  assert (Hc : ID3v2_read_tag_header (Some content) = ID3v2_read_tag_header (Some (firstn (Z.to_nat n) content))).
  { rewrite <- (H (skipn (Z.to_nat n) content)), firstn_skipn. reflexivity. }
  unfold ID3v2_read_tag. rewrite H, Hc. destruct (announces_extended content) eqn:X.
  - assert (U : ID3v2_read_tag_header (Some content) = Ub UninitRead).
    { destruct (at_least_ten content) as [S|(a & b & c & d & e & f & g & h & i & j & r & ->)].
      - rewrite tag_length_short in T by auto. discriminate T.
      - cbn [announces_extended] in X. apply andb_prop in X. destruct X as [X X3]. apply andb_prop in X. destruct X as [X1 X2].
        pose proof (id3_lit a b c X1) as I.
        change (a :: b :: c :: d :: e :: f :: g :: h :: i :: j :: r) with ([a; b; c] ++ [d; e; f; g; h; i; j] ++ r).
        rewrite I. apply (header_extended_file d e f g h i j r ID3v2_Tag_new_empty X2 X3). }
    rewrite <- Hc, U. reflexivity.
  - destruct (file_header content X) as (h & E & Hh). rewrite <- Hc, E. go. destruct h as [h|]; [|reflexivity].
    destruct Hh as (Hn & _). rewrite T in Hn. injection Hn as <-.
    rewrite !fread_exact by (rewrite ?zlen_app; unfold zlen in *; lia).
    rewrite firstn_app, Lf, Nat.sub_diag. cbn [firstn]. rewrite app_nil_r, firstn_firstn, Nat.min_id. reflexivity.
Qed.

Lemma survives_back maj fs : Forall (fun f => survives maj f = true) fs -> frames_size fs < 2 ^ 28 ->
  oks fs /\ Forall (reads_back (schar maj) be32) fs.
Proof.
  intros H B. pose proof (body_sizes fs _ B) as S. unfold oks. rewrite !Forall_forall in *.
  assert (Hs : forall f, In f fs -> frame_ok f = true /\ readable f = true
    /\ (maj = x03 \/ maj = x04 /\ (body_size f < 256 \/ is_comment f = true))).
  { intros f Hf. specialize (H f Hf). unfold survives in H.
    apply andb_prop in H. destruct H as [H H3]. apply andb_prop in H. destruct H as [H1 H2].
    split; [auto|]. split; [auto|]. apply orb_prop in H3. destruct H3 as [H3|H3].
    - left. now apply beq_true.
    - right. apply andb_prop in H3. destruct H3 as [H3 H4]. split; [now apply beq_true|].
      apply orb_prop in H4. destruct H4; [left; lia|now right]. }
  split; intros f Hf; destruct (Hs f Hf) as (O & R & V); [auto|].
  pose proof (S f Hf). cbn beta in *. pose proof (body_size_nonneg f).
  destruct V as [->|(-> & [V|V])].
  - apply reads_back_size; auto. apply (declared_size_of x03 (body_size f)); auto; lia.
  - change (schar x04) with 4. apply small_reads_back; auto.
  - apply comment_reads_back; auto.
Qed.

Lemma file_read_back maj mi fl n fs rest :
  known_version maj = true -> has_extended_header fl = false ->
  Forall (fun f => survives maj f = true) fs -> frames_size fs <= n -> n < 2 ^ 28 ->
  exists t, ID3v2_read_tag (Some (tag_bytes maj mi fl n fs ++ rest)) = Ok (Some t)
    /\ t_header t = mkTH (lit "ID3") maj mi fl n 0 /\ tag_has t (map frame_of fs)
    /\ t_padding t = n - frames_size fs.
Proof.
  intros V X R L B. pose proof (frames_size_nonneg fs).
  destruct (survives_back maj fs R) as (K & RB); [lia|].
  destruct (written_file maj mi fl n fs rest V X K L B) as (P & T & A). cbv zeta in *.
  set (content := tag_bytes maj mi fl n fs ++ rest) in *.
  pose proof (tag_bytes_zlen maj mi fl n fs K L) as Zb.
  destruct (file_header content P) as (h & E & H'). destruct h as [h|]; [|congruence].
  destruct H' as (H0 & H2 & H3). assert (H1 : 10 + n = declared_length h) by congruence. clear H0.
  assert (Zc : declared_length h <= zlen content).
  { unfold content. rewrite zlen_app, Zb. pose proof (zlen_nonneg rest). lia. }
  rewrite (read_file content h P E Zc). rewrite <- H1.
  assert (F : firstn (Z.to_nat (10 + n)) content = tag_bytes maj mi fl n fs).
  { unfold content. apply firstn_app_exact. unfold zlen in Zb. lia. }
  rewrite F.
  set (bytes := header_image maj mi fl (frames_size fs + (n - frames_size fs)) ++ images be32 fs ++ zeros (n - frames_size fs) ++ []).
  assert (Eb : tag_bytes maj mi fl n fs = bytes).
  { unfold bytes, tag_bytes. rewrite app_nil_r. do 2 f_equal. lia. }
  destruct (read_tag_gen maj mi fl be32 fs (n - frames_size fs) [] (Some (cells (tag_bytes maj mi fl n fs))))
    as (t & Et & Ht & Tt & Pt); auto; try lia.
  - fold bytes. rewrite <- Eb, Zb. lia.
  - exists []. rewrite app_nil_r. fold bytes. now rewrite <- Eb.
  - fold bytes in Et. rewrite <- Eb, Zb in Et. exists t. split; [exact Et|]. split; [|split; [exact Tt|]].
    + rewrite Ht. f_equal. lia.
    + rewrite Pt. change (zlen (@nil byte)) with 0. lia.
Qed.

Lemma survives_known maj f : survives maj f = true -> known_version maj = true.
Proof.
  unfold survives, known_version. intros H. apply andb_prop in H. destruct H as [_ H].
  destruct (Byte.eqb maj x03); [reflexivity|]. cbn [orb] in *. now apply andb_prop in H.
Qed.

Lemma write_then_read content t fs maj mi fl n :
  announces_extended content = false ->
  known_version maj = true -> has_extended_header fl = false ->
  tag_has t (map frame_of fs) -> Forall (fun f => survives maj f = true) fs ->
  t_header t = mkTH (lit "ID3") maj mi fl n 0 -> frames_size fs <= n -> n < 2 ^ 28 ->
  0 <= t_padding t < 2 ^ 31 ->
  exists written t1 t2,
    ID3v2_write_tag (Some content) (Some t) = Ok (Some written, Some t1)
    /\ ID3v2_read_tag (Some written) = Ok (Some t2)
    /\ t_header t2 = t_header t /\ tag_has t2 (map frame_of fs) /\ t_padding t2 = n - frames_size fs
    /\ (exists t3, ID3v2_write_tag (Some written) (Some t1) = Ok (Some written, Some t3))
    /\ (exists t3, ID3v2_write_tag (Some written) (Some t2) = Ok (Some written, Some t3)).
Proof.
  intros X V E T R H L B P. pose proof (frames_size_nonneg fs).
  destruct (survives_back maj fs R) as (K & _); [lia|].
  destruct (written_file maj mi fl n fs (audio content) V E K L B) as (P' & T' & A').
  destruct (file_read_back maj mi fl n fs (audio content) V E R L B) as (t2 & E2 & H2 & T2 & P2).
  exists (tag_bytes maj mi fl n fs ++ audio content), (padded t), t2.
  split; [apply (write_file content t fs maj mi fl n 0); auto; lia|].
  split; [exact E2|]. split; [congruence|]. split; [exact T2|]. split; [exact P2|].
  split; eexists; rewrite <- A' at 2.
  - apply (write_file _ (padded t) fs maj mi fl n 0); auto.
    cbn [padded t_padding]. destruct (t_padding t <? 0) eqn:Q; lia.
  - apply (write_file _ t2 fs maj mi fl n 0); auto; lia.
Qed.

(** ** Deleting *)

Lemma delete_states_file content : announces_extended content = false ->
  ID3v2_delete_tag_states (Some content)
  = Ok (match tag_length content with Some _ => rewritten content (audio content) | None => [Some content] end).
Proof.
  intros X. destruct (file_header content X) as (h & E & H). unfold ID3v2_delete_tag_states. rewrite E. go.
  destruct h as [h|]; [|now rewrite H]. destruct H as (H & _). rewrite H.
  rewrite copy_loop_app. unfold audio. rewrite H. cbn [app]. unfold from_offset. now rewrite <- states_rewritten.
Qed.

Lemma delete_file content : announces_extended content = false ->
  ID3v2_delete_tag (Some content) = Ok (Some (audio content)).
Proof.
  intros X. unfold ID3v2_delete_tag. rewrite (delete_states_file content X). go.
  unfold audio. destruct (tag_length content) eqn:T; [|reflexivity].
  replace (skipn (Z.to_nat z) content) with (audio content) by (unfold audio; now rewrite T).
  rewrite last_rewritten. reflexivity.
Qed.

Lemma read_untagged content : tag_length content = None -> ID3v2_read_tag (Some content) = Ok None.
Proof.
  intros T. assert (X : announces_extended content = false).
  { destruct (at_least_ten content) as [S|(a & b & c & d & e & f & g & h & i & j & r & ->)].
    - destruct content as [|a [|b [|c [|d [|e [|f [|g [|h [|i [|j r]]]]]]]]]]; try reflexivity. cbn [length] in S. lia.
    - cbn [tag_length announces_extended] in *. now destruct (is_id3 a b c && known_version d). }
  destruct (file_header content X) as (h & E & H). unfold ID3v2_read_tag. rewrite E. go.
  destruct h as [h|]; [|reflexivity]. destruct H. congruence.
Qed.

Lemma write_then_delete content t fs maj mi fl n ext :
  announces_extended content = false ->
  known_version maj = true -> has_extended_header fl = false ->
  tag_has t (map frame_of fs) -> oks fs -> t_header t = mkTH (lit "ID3") maj mi fl n ext ->
  frames_size fs <= n -> n < 2 ^ 28 -> 0 <= t_padding t < 2 ^ 31 ->
  exists written t', ID3v2_write_tag (Some content) (Some t) = Ok (Some written, t')
    /\ ID3v2_delete_tag (Some written) = Ok (Some (audio content)).
Proof.
  intros X V E T K H L B P.
  destruct (written_file maj mi fl n fs (audio content) V E K L B) as (P' & T' & A').
  eexists _, _. split; [apply (write_file content t fs maj mi fl n ext); auto; lia|].
  rewrite delete_file by auto. now rewrite A'.
Qed.

(** ** Padding *)

Lemma write_padding_free content t p q :
  2048 - 2 ^ 31 < p < 2 ^ 31 -> 2048 - 2 ^ 31 < q < 2 ^ 31 ->
  (let* (s, _) := ID3v2_write_tag_states content (Some (with_padding t p)) in Ok s)
  = (let* (s, _) := ID3v2_write_tag_states content (Some (with_padding t q)) in Ok s).
Proof.
  intros P Q. unfold with_padding. cbn [ID3v2_write_tag_states].
  destruct (ID3v2_read_tag_header content) as [h| | |]; try reflexivity. go.
  cbn [t_padding t_header t_frames t_fresh].
  pose proof (padding_any p P) as P1. unfold bind in P1 at 1.
  destruct (isub ID3v2_TAG_DEFAULT_PADDING_LENGTH p) eqn:Ip; try discriminate P1. go. rewrite P1. go.
  pose proof (padding_any q Q) as Q1. unfold bind in Q1 at 1.
  destruct (isub ID3v2_TAG_DEFAULT_PADDING_LENGTH q) eqn:Iq; try discriminate Q1. go. rewrite Q1. go.
  change (Tag_to_char_stream (mkTag (t_header t) (t_frames t) (if p <? 0 then p + 2048 else Z.max p 2048) (t_fresh t)))
    with (Tag_to_char_stream (mkTag (t_header t) (t_frames t) (if q <? 0 then q + 2048 else Z.max q 2048) (t_fresh t))).
  destruct (Tag_to_char_stream _) as [cs| | |]; try reflexivity. go.
  destruct (fwrite_bytes _) as [bytes| | |]; try reflexivity. go.
  destruct content; reflexivity.
Qed.

Lemma write_padding_after content t s t' :
  2048 - 2 ^ 31 < t_padding t < 2 ^ 31 ->
  ID3v2_write_tag_states content (Some t) = Ok (s, t') -> t' = Some (padded t).
Proof.
  intros P. cbn [ID3v2_write_tag_states].
  destruct (ID3v2_read_tag_header content) as [h| | |]; try discriminate. go.
  pose proof (padding_any _ P) as P1. unfold bind in P1 at 1.
  destruct (isub ID3v2_TAG_DEFAULT_PADDING_LENGTH (t_padding t)) eqn:Ip; try discriminate P1. go. rewrite P1. go.
  destruct (Tag_to_char_stream _) as [cs| | |]; try discriminate. go.
  destruct (fwrite_bytes _) as [bytes| | |]; try discriminate. go.
  destruct content; try discriminate. intros [= _ <-]. reflexivity.
Qed.

(** ** No file, no tag *)

Lemma write_missing t r : ID3v2_write_tag None (Some t) <> Ok r.
Proof.
  unfold ID3v2_write_tag. cbn [ID3v2_write_tag_states ID3v2_read_tag_header]. go.
  destruct (isub _ _); try discriminate. go. destruct (iadd _ _); try discriminate. go.
  destruct (Tag_to_char_stream _); try discriminate. go. destruct (fwrite_bytes _); discriminate.
Qed.

Lemma write_missing_null t cs bytes :
  2048 - 2 ^ 31 < t_padding t < 2 ^ 31 ->
  Tag_to_char_stream t = Ok cs -> cs_stream cs = cells bytes -> cs_size cs = zlen bytes ->
  ID3v2_write_tag None (Some t) = Ub NullDeref.
Proof.
  intros P W S Z. unfold ID3v2_write_tag. cbn [ID3v2_write_tag_states ID3v2_read_tag_header]. go.
  pose proof (padding_any _ P) as P1. unfold bind in P1 at 1.
  destruct (isub ID3v2_TAG_DEFAULT_PADDING_LENGTH (t_padding t)) eqn:Ip; try discriminate P1. go. rewrite P1. go.
  change (Tag_to_char_stream (mkTag (t_header t) (t_frames t) _ (t_fresh t))) with (Tag_to_char_stream t).
  rewrite W. go. rewrite S, Z. rewrite firstn_all2 by (pose proof (zlen_cells bytes); unfold zlen in *; lia).
  rewrite fwrite_cells. reflexivity.
Qed.

(** ** Files that end before their tag does *)

Lemma header_parse_cut pre tail k ver :
  zlen tail < 8 -> starts_padding tail = false -> 10 <= zlen tail + Z.of_nat k ->
  fits pre (cells tail ++ repeat None k) ->
  FrameHeader_parse (at_pos pre (cells tail ++ repeat None k)) ver = Ub UninitRead.
Proof.
  intros L S K F. set (j := (8 - length tail)%nat).
  assert (Hk : k = (j + (k - j))%nat) by (unfold j, zlen in *; lia).
  assert (R : cells tail ++ repeat None k
    = (firstn 4 (cells tail ++ repeat None j)) ++ (skipn 4 (cells tail ++ repeat None j)) ++ repeat None (k - j)).
  { rewrite (app_assoc (firstn 4 _)), firstn_skipn, <- app_assoc, <- repeat_app, <- Hk. reflexivity. }
  rewrite R in *. set (more := repeat None (k - j)) in *. clearbody more. clear R Hk K.
  unfold FrameHeader_parse.
  assert (L4 : zlen (firstn 4 (cells tail ++ repeat None j)) = 4).
  { unfold zlen in *. rewrite firstn_length, app_length, repeat_length. unfold cells. rewrite map_length. unfold j. lia. }
  rewrite read_into_at by auto. go.
  assert (L4' : zlen (skipn 4 (cells tail ++ repeat None j)) = 4).
  { unfold zlen in *. rewrite skipn_length, app_length, repeat_length. unfold cells. rewrite map_length. unfold j. lia. }
  unfold j in *. clear j.
  assert (F2 : fits (pre ++ firstn 4 (cells tail ++ repeat None (8 - length tail)))
                    (skipn 4 (cells tail ++ repeat None (8 - length tail)) ++ more)).
  { unfold fits in *. rewrite !zlen_app in *. lia. }
  destruct (memcmp_eq _ _) as [[|]|u| |] eqn:M; go.
  - exfalso. destruct tail as [|a [|b [|c [|d r]]]]; try (cbn [length Nat.sub repeat cells map app firstn memcmp_eq] in M; repeat match type of M with context [beq ?x ?y] => destruct (beq x y) end; discriminate M).
    cbn [length Nat.sub cells map app firstn memcmp_eq] in M. cbn [starts_padding] in S. unfold is_zero in S.
    destruct (beq_spec x00 a); [|discriminate M]. destruct (beq_spec x00 b); [|discriminate M].
    destruct (beq_spec x00 c); [|discriminate M]. destruct (beq_spec x00 d); [|discriminate M].
    subst. discriminate S.
  - rewrite slice_at by auto. go.
    assert (B : btoi (skipn 4 (cells tail ++ repeat None (8 - length tail)) ++ more) 4 = Ub UninitRead).
    { unfold zlen in L. destruct tail as [|a [|b [|c [|d [|e [|f [|g [|h r]]]]]]]]; try reflexivity. cbn [length] in L. lia. }
    change ID3v2_FRAME_HEADER_SIZE_LENGTH with 4. rewrite B. reflexivity.
  - revert M. unfold zlen in L.
    destruct tail as [|a [|b [|c [|d r]]]]; cbn [length Nat.sub repeat cells map app firstn memcmp_eq];
      repeat match goal with |- context [beq ?x ?y] => destruct (beq x y) end; intros M; congruence.
  - revert M. destruct tail as [|a [|b [|c [|d r]]]]; cbn [length Nat.sub repeat cells map app firstn memcmp_eq];
      repeat match goal with |- context [beq ?x ?y] => destruct (beq x y) end; intros M; congruence.
  - revert M. destruct tail as [|a [|b [|c [|d r]]]]; cbn [length Nat.sub repeat cells map app firstn memcmp_eq];
      repeat match goal with |- context [beq ?x ?y] => destruct (beq x y) end; intros M; congruence.
Qed.

Lemma header_image_file maj mi fl n rest :
  known_version maj = true -> has_extended_header fl = false -> 0 <= n < 2 ^ 28 ->
  let content := header_image maj mi fl n ++ rest in
  announces_extended content = false
  /\ exists h, ID3v2_read_tag_header (Some content) = Ok (Some h) /\ declared_length h = 10 + n.
Proof.
  intros V X B content.
  assert (S : content
    = x49 :: x44 :: x33 :: maj :: mi :: fl :: zb (n / 2 ^ 21 mod 128) :: zb (n / 2 ^ 14 mod 128)
      :: zb (n / 2 ^ 7 mod 128) :: zb (n mod 128) :: rest) by reflexivity.
  assert (E : tag_length content = Some (10 + n)).
  { rewrite S. cbn [tag_length].
    change (is_id3 x49 x44 x33) with true. rewrite V. cbn [andb]. do 2 f_equal.
    apply (synchsafe_value_synchsafe32 n). lia. }
  assert (A : announces_extended content = false).
  { rewrite S. cbn [announces_extended]. rewrite X. apply andb_false_r. }
  split; [exact A|]. destruct (file_header content A) as (h & H & K). destruct h as [h|]; [|congruence].
  exists h. split; [exact H|]. destruct K. congruence.
Qed.

Lemma cut_file maj mi fl n body :
  known_version maj = true -> has_extended_header fl = false -> 0 <= n < 2 ^ 28 -> zlen body <= n ->
  ID3v2_read_tag (Some (header_image maj mi fl n ++ body))
  = Tag_parse (at_pos [] (cells (header_image maj mi fl n) ++ cells body ++ repeat None (Z.to_nat (n - zlen body)))).
Proof.
  intros V X B L. destruct (header_image_file maj mi fl n body V X B) as (A & h & H & D). cbv zeta in *.
  unfold ID3v2_read_tag. rewrite H. go. rewrite D. unfold ID3v2_read_tag_from_buffer.
  assert (Lb : length (header_image maj mi fl n ++ body) = (10 + length body)%nat) by reflexivity.
  assert (F : fread_into (header_image maj mi fl n ++ body) (10 + n)
    = cells (header_image maj mi fl n) ++ cells body ++ repeat None (Z.to_nat (n - zlen body))).
  { unfold fread_into. unfold zlen in L. rewrite firstn_all2 by lia. rewrite cells_app, <- app_assoc. do 3 f_equal.
    rewrite <- cells_app, length_cells, Lb. unfold zlen. lia. }
  rewrite F. rewrite <- (app_nil_r (cells (header_image maj mi fl n) ++ cells body ++ _)) at 1.
  rewrite from_buffer_at.
  - reflexivity.
  - rewrite !zlen_app, !zlen_cells, zlen_repeat. change (zlen (header_image maj mi fl n)) with 10.
    pose proof (zlen_nonneg body). lia.
Qed.

Lemma read_cut maj mi fl fs n tail :
  known_version maj = true -> has_extended_header fl = false ->
  Forall (fun f => frame_ok f = true /\ readable f = true) fs ->
  frames_size fs + 10 < n -> n < 2 ^ 28 ->
  zlen tail < 8 -> starts_padding tail = false ->
  ID3v2_read_tag (Some (header_image maj mi fl n ++ images (size_field_of maj) fs ++ tail)) = Ub UninitRead.
Proof.
  intros V X K L B Lt Sp. pose proof (frames_size_nonneg fs). pose proof (zlen_nonneg tail).
  assert (RB : Forall (reads_back (schar maj) (size_field_of maj)) fs) by (apply all_read_back; auto; lia).
  assert (O : oks fs) by (eapply Forall_impl; [|exact K]; intros a Ha; apply Ha).
  assert (Zi : zlen (images (size_field_of maj) fs) = frames_size fs) by (apply images_zlen; auto; intros; apply size_field_length).
  rewrite cut_file; auto; try lia; [|rewrite zlen_app; lia].
  rewrite cells_app, zlen_app, Zi, <- app_assoc. set (k := Z.to_nat _).
  assert (Zk : Z.of_nat k = n - (frames_size fs + zlen tail)) by (unfold k; lia).
  assert (F : fits [] (cells (header_image maj mi fl n) ++ cells (images (size_field_of maj) fs) ++ cells tail ++ repeat None k)).
  { unfold fits. rewrite !zlen_app, !zlen_cells, zlen_repeat, Zi. change (zlen (@nil cell)) with 0.
    change (zlen (header_image maj mi fl n)) with 10. lia. }
  rewrite tag_parse_header; auto; [|lia].
  assert (Cn : (length fs <= length (images (size_field_of maj) fs))%nat).
  { apply frames_count; auto. intros; apply size_field_length. }
  assert (Fu : exists fuel, (length (cells (images (size_field_of maj) fs) ++ cells tail ++ repeat None k) + 12
               = length fs + S fuel)%nat).
  { exists (length (cells (images (size_field_of maj) fs) ++ cells tail ++ repeat None k) + 11 - length fs)%nat.
    rewrite app_length, length_cells. lia. }
  destruct Fu as (fuel & ->).
  assert (F' : fits (cells (header_image maj mi fl n)) (cells (images (size_field_of maj) fs) ++ cells tail ++ repeat None k)).
  { unfold fits in *. rewrite !zlen_app in *. change (zlen (@nil cell)) with 0 in F. lia. }
  rewrite parse_loop_through; auto.
  2:{ intros; apply size_field_length. }
  2:{ rewrite zlen_cells. change (zlen (header_image maj mi fl n)) with 10. lia. }
  cbn [parse_loop]. rewrite cursor_at, zlen_app, !zlen_cells, Zi. change (zlen (header_image maj mi fl n)) with 10.
  rewrite to_u32_id by lia. ifT. unfold Frame_parse. rewrite header_parse_cut; auto.
  - lia.
  - unfold fits in *. rewrite !zlen_app in *. lia.
Qed.

Lemma read_cut_padding maj mi fl fs n k :
  known_version maj = true -> has_extended_header fl = false ->
  Forall (fun f => frame_ok f = true /\ readable f = true) fs ->
  frames_size fs + k <= n -> n < 2 ^ 28 -> 4 <= k ->
  exists t, ID3v2_read_tag (Some (header_image maj mi fl n ++ images (size_field_of maj) fs ++ zeros k)) = Ok (Some t)
    /\ t_header t = mkTH (lit "ID3") maj mi fl n 0 /\ tag_has t (map frame_of fs)
    /\ t_padding t = n - frames_size fs.
Proof.
  intros V X K L B Lt. pose proof (frames_size_nonneg fs).
  assert (RB : Forall (reads_back (schar maj) (size_field_of maj)) fs) by (apply all_read_back; auto; lia).
  assert (O : oks fs) by (eapply Forall_impl; [|exact K]; intros a Ha; apply Ha).
  assert (Zi : zlen (images (size_field_of maj) fs) = frames_size fs) by (apply images_zlen; auto; intros; apply size_field_length).
  assert (Zk : zlen (zeros k) = k) by (unfold zeros; rewrite zlen_repeat; lia).
  rewrite cut_file; auto; try lia; [|rewrite zlen_app; lia].
  rewrite cells_app, zlen_app, Zi, Zk, <- app_assoc. set (j := Z.to_nat _).
  assert (Zj : Z.of_nat j = n - (frames_size fs + k)) by (unfold j; lia).
  set (rest := cells (zeros k) ++ repeat None j).
  assert (Zr : zlen rest = n - frames_size fs) by (unfold rest; rewrite zlen_app, zlen_cells, zlen_repeat; lia).
  assert (F : fits [] (cells (header_image maj mi fl n) ++ cells (images (size_field_of maj) fs) ++ rest)).
  { unfold fits. rewrite !zlen_app, !zlen_cells, Zr, Zi. change (zlen (@nil cell)) with 0.
    change (zlen (header_image maj mi fl n)) with 10. lia. }
  rewrite tag_parse_header; auto; [|lia].
  assert (Cn : (length fs <= length (images (size_field_of maj) fs))%nat).
  { apply frames_count; auto. intros; apply size_field_length. }
  assert (F' : fits (cells (header_image maj mi fl n)) (cells (images (size_field_of maj) fs) ++ rest)).
  { unfold fits in *. rewrite !zlen_app in *. change (zlen (@nil cell)) with 0 in F. lia. }
  rewrite parse_loop_frames; auto.
  - go. cbn [app at_pos cs_size cs_cursor].
    unfold fits in F'. rewrite !zlen_app in *.
    rewrite isub_ok by lia. go. eexists. split; [reflexivity|].
    split; [reflexivity|]. split; [apply tag_has_fresh|]. cbn [t_padding]. lia.
  - intros; apply size_field_length.
  - rewrite app_length, length_cells. lia.
  - rewrite zlen_cells. change (zlen (header_image maj mi fl n)) with 10. lia.
  - right. exists (cells (zeros (k - 4)) ++ repeat None j). unfold rest, zeros.
    replace (Z.to_nat k) with (4 + Z.to_nat (k - 4))%nat by lia. reflexivity.
Qed.

(** ** In the form of the properties *)

Lemma delete_unchanged :
  ID3v2_delete_tag_states None = Ok [None]
  /\ forall content, announces_extended content = false -> tag_length content = None ->
     ID3v2_delete_tag_states (Some content) = Ok [Some content].
Proof. split; [reflexivity|]. intros content X T. now rewrite delete_states_file, T. Qed.

Lemma delete_then_read content :
  announces_extended content = false -> tag_length (audio content) = None ->
  exists left, ID3v2_delete_tag (Some content) = Ok left /\ ID3v2_read_tag left = Ok None.
Proof. intros X T. eexists. split; [now apply delete_file|now apply read_untagged]. Qed.

Lemma in_rewritten original final s :
  In s (rewritten original final) <-> s = Some original \/ exists k, s = Some (firstn k final).
Proof.
  unfold rewritten. cbn [In]. rewrite in_map_iff. split.
  - intros [<-|(k & <- & _)]; [now left|right; now exists k].
  - intros [->|(k & ->)]; [now left|right]. exists (Nat.min k (length final)). split.
    + destruct (Nat.le_gt_cases k (length final)); [now rewrite Nat.min_l by lia|].
      rewrite Nat.min_r, firstn_all, firstn_all2 by lia. reflexivity.
    + apply in_seq. lia.
Qed.

Lemma empty_in_rewritten original final : In (Some []) (rewritten original final).
Proof. apply in_rewritten. right. now exists 0%nat. Qed.

Lemma write_crash content t cs bytes :
  announces_extended content = false -> 2048 - 2 ^ 31 < t_padding t < 2 ^ 31 ->
  Tag_to_char_stream t = Ok cs -> cs_stream cs = cells bytes -> cs_size cs = zlen bytes ->
  exists states t' final,
    ID3v2_write_tag_states (Some content) (Some t) = Ok (states, t')
    /\ ID3v2_write_tag (Some content) (Some t) = Ok (Some final, t')
    /\ states = rewritten content final
    /\ (forall s, In s states <-> s = Some content \/ exists k, s = Some (firstn k final))
    /\ In (Some []) states.
Proof.
  intros X P W S Z. eexists _, _, _. split; [apply (write_states content t cs bytes); auto|].
  split; [apply (write_gen content t cs bytes); auto|]. split; [reflexivity|].
  split; [intros; apply in_rewritten|apply empty_in_rewritten].
Qed.

Lemma delete_crash content :
  announces_extended content = false -> tag_length content <> None ->
  exists states final,
    ID3v2_delete_tag_states (Some content) = Ok states
    /\ ID3v2_delete_tag (Some content) = Ok (Some final)
    /\ states = rewritten content final
    /\ (forall s, In s states <-> s = Some content \/ exists k, s = Some (firstn k final))
    /\ In (Some []) states.
Proof.
  intros X T. exists (rewritten content (audio content)), (audio content).
  split; [rewrite delete_states_file by auto; destruct (tag_length content); [reflexivity|congruence]|].
  split; [now apply delete_file|]. split; [reflexivity|].
  split; [intros; apply in_rewritten|apply empty_in_rewritten].
Qed.

Lemma write_padding_overflow content t :
  announces_extended content = false -> - 2 ^ 31 <= t_padding t <= 2048 - 2 ^ 31 ->
  ID3v2_write_tag (Some content) (Some t) = Ub IntOverflow.
Proof.
  intros X P. destruct (file_header content X) as (h & E & _). unfold ID3v2_write_tag.
  cbn [ID3v2_write_tag_states]. rewrite E. go.
  unfold isub, ID3v2_TAG_DEFAULT_PADDING_LENGTH, chk_int.
  unfold chk_int. change (2 ^ 31) with 2147483648 in *.
  replace (2048 - t_padding t <? 2147483648) with false by lia. rewrite andb_false_r. reflexivity.
Qed.

Lemma tag_new_padding h p q : ID3v2_Tag_new h p = ID3v2_Tag_new h q.
Proof. reflexivity. Qed.

Lemma write_null f : ID3v2_write_tag_states f None = Ok ([f], None).
Proof. reflexivity. Qed.

Lemma write_no_file t :
  (forall r, ID3v2_write_tag None (Some t) <> Ok r)
  /\ forall cs bytes, 2048 - 2 ^ 31 < t_padding t < 2 ^ 31 ->
     Tag_to_char_stream t = Ok cs -> cs_stream cs = cells bytes -> cs_size cs = zlen bytes ->
     ID3v2_write_tag None (Some t) = Ub NullDeref.
Proof. split; intros; [apply write_missing|eapply write_missing_null; eauto]. Qed.
