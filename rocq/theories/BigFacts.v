(** Tags of 2^28 bytes and more: C96. *)
From Verif Require Import File Calls Spec SpecEdit SpecFile SpecBig BaseFacts UtilsFacts FrameFacts StreamFacts ParseFacts ListFacts TagFacts WriteFacts FileFacts.
From Verif Require Import SpecSession HistFacts EditFacts ClaimFacts RoundFacts SessionFacts.
From Coq Require Import Lia ZifyBool ZifyNat.

Lemma size_bytes_four n : 0 <= n < 2 ^ 31 -> four_bytes n = size_bytes n.
Proof.
  intros H. unfold four_bytes. rewrite to_i32_id by lia. rewrite be32_sync_closed. unfold size_bytes.
  assert (Q : zb (n / 2 ^ 21) = zb (n / 2 ^ 21 mod 256)) by (apply zb_eqm; change (2 ^ 21) with 2097152; lia).
  now rewrite Q.
Qed.

Lemma big_image maj mi fl n fs : 0 <= n < 2 ^ 31 -> tag_image maj mi fl n fs = big_bytes maj mi fl n fs.
Proof. intros H. unfold tag_image, big_bytes. now rewrite size_bytes_four. Qed.

Lemma size_bytes_value n : 0 <= n < 2 ^ 31 -> synchsafe_value (size_bytes n) = n mod 2 ^ 29.
Proof. intros H. rewrite <- size_bytes_four by exact H. unfold four_bytes. rewrite to_i32_id by lia. apply synchsafe_value_sync. Qed.

Lemma big_zlen maj mi fl n fs : oks fs -> frames_size fs <= n -> zlen (big_bytes maj mi fl n fs) = 10 + n.
Proof.
  intros K L. unfold big_bytes, zeros. rewrite !zlen_app, images_zlen, zlen_repeat by (auto; reflexivity).
  change (zlen (lit "ID3")) with 3. change (zlen [maj; mi; fl]) with 3. change (zlen (size_bytes n)) with 4. lia.
Qed.

Lemma big_small maj mi fl n fs : 0 <= n < 2 ^ 28 -> big_bytes maj mi fl n fs = tag_bytes maj mi fl n fs.
Proof.
  intros H. assert (Q : size_bytes n = synchsafe32 n).
  { unfold size_bytes, synchsafe32. rewrite (Z.mod_small (n / 2 ^ 21) 256), (Z.mod_small (n / 2 ^ 21) 128); [reflexivity| |];
    change (2 ^ 21) with 2097152; change (2 ^ 28) with 268435456 in H; lia. }
  unfold big_bytes, tag_bytes, header_image. rewrite Q, <- !app_assoc. reflexivity.
Qed.

Lemma big_write c t fs maj mi fl n ext :
  announces_extended c = false -> tag_has t (map frame_of fs) -> oks fs ->
  t_header t = mkTH (lit "ID3") maj mi fl n ext -> frames_size fs <= n -> n + 10 < 2 ^ 31 ->
  2048 - 2 ^ 31 < t_padding t < 2 ^ 31 ->
  ID3v2_write_tag (Some c) (Some t) = Ok (Some (big_bytes maj mi fl n fs ++ audio c), Some (padded t)).
Proof.
  intros X T K H L B P. pose proof (frames_size_nonneg fs).
  destruct (tag_write t fs maj mi fl n ext T K H) as (cs & E & Z & S); try lia.
  rewrite big_image in S by lia. apply (write_gen c t cs); auto. rewrite big_zlen by auto. lia.
Qed.

Lemma big_file maj mi fl n fs s :
  known_version maj = true -> has_extended_header fl = false -> oks fs -> frames_size fs <= n -> n + 10 < 2 ^ 31 ->
  announces_extended (big_bytes maj mi fl n fs ++ s) = false
  /\ tag_length (big_bytes maj mi fl n fs ++ s) = Some (10 + n mod 2 ^ 29)
  /\ audio (big_bytes maj mi fl n fs ++ s) = left_over maj mi fl n fs ++ s
  /\ zlen (left_over maj mi fl n fs) = n - n mod 2 ^ 29.
Proof.
  intros V X K L B. pose proof (frames_size_nonneg fs).
  set (tail := images be32 fs ++ zeros (n - frames_size fs)).
  assert (S : big_bytes maj mi fl n fs ++ s
    = x49 :: x44 :: x33 :: maj :: mi :: fl :: zb (n / 2 ^ 21 mod 256) :: zb (n / 2 ^ 14 mod 128)
      :: zb (n / 2 ^ 7 mod 128) :: zb (n mod 128) :: tail ++ s) by reflexivity.
  assert (E : tag_length (big_bytes maj mi fl n fs ++ s) = Some (10 + n mod 2 ^ 29)).
  { rewrite S. cbn [tag_length]. change (is_id3 x49 x44 x33) with true. rewrite V. cbn [andb]. do 2 f_equal.
    apply (size_bytes_value n). lia. }
  pose proof (big_zlen maj mi fl n fs K L) as Q.
  assert (M : 0 <= n mod 2 ^ 29 <= n) by (change (2 ^ 29) with 536870912; lia).
  split; [|split; [exact E|split]].
  - rewrite S. cbn [announces_extended]. rewrite X. apply andb_false_r.
  - unfold audio, left_over. rewrite E, skipn_app.
    replace (Z.to_nat (10 + n mod 2 ^ 29) - length (big_bytes maj mi fl n fs))%nat with 0%nat by (unfold zlen in Q; lia).
    reflexivity.
  - unfold left_over, zlen in *. rewrite skipn_length. lia.
Qed.

Lemma big_delete maj mi fl n fs s :
  known_version maj = true -> has_extended_header fl = false -> oks fs -> frames_size fs <= n -> n + 10 < 2 ^ 31 ->
  ID3v2_delete_tag (Some (big_bytes maj mi fl n fs ++ s)) = Ok (Some (left_over maj mi fl n fs ++ s))
  /\ zlen (left_over maj mi fl n fs) = n - n mod 2 ^ 29.
Proof.
  intros V X K L B. destruct (big_file maj mi fl n fs s V X K L B) as (A & _ & U & Z).
  split; [|exact Z]. rewrite delete_file by exact A. now rewrite U.
Qed.

Lemma big_saves fs maj mi fl n ext : known_version maj = true -> has_extended_header fl = false -> oks fs ->
  frames_size fs <= n -> n + 10 < 2 ^ 31 ->
  forall k c t, announces_extended c = false -> tag_has t (map frame_of fs) ->
  t_header t = mkTH (lit "ID3") maj mi fl n ext -> 2048 - 2 ^ 31 < t_padding t < 2 ^ 31 ->
  save_times (S k) (Some c) (Some t)
  = Ok (Some (big_bytes maj mi fl n fs ++ concat (repeat (left_over maj mi fl n fs) k) ++ audio c)).
Proof.
  intros V X K L B. induction k as [|k IH]; intros c t A T H P.
  - cbn [save_times]. rewrite (big_write c t fs maj mi fl n ext) by auto. reflexivity.
  - change (save_times (S (S k)) (Some c) (Some t))
      with (let* (f, u) := ID3v2_write_tag (Some c) (Some t) in save_times (S k) f u).
    rewrite (big_write c t fs maj mi fl n ext) by auto. cbn [bind].
    destruct (big_file maj mi fl n fs (audio c) V X K L B) as (A' & _ & U & _).
    rewrite IH; [|exact A'|exact T|exact H|].
    + rewrite U. change (repeat (left_over maj mi fl n fs) (S k)) with (left_over maj mi fl n fs :: repeat (left_over maj mi fl n fs) k).
      rewrite repeat_cons, concat_app. cbn [concat]. now rewrite app_nil_r, <- !app_assoc.
    + cbn [padded t_padding]. change (2 ^ 31) with 2147483648 in *. destruct (t_padding t <? 0) eqn:Q; lia.
Qed.

Lemma big_unsafe n : 0 <= n -> (exists b, In b (size_bytes n) /\ 128 <= bv b) <-> 2 ^ 28 <= n mod 2 ^ 29.
Proof.
  intros N. unfold size_bytes. change (2 ^ 28) with 268435456. change (2 ^ 29) with 536870912.
  change (2 ^ 21) with 2097152. change (2 ^ 14) with 16384. change (2 ^ 7) with 128. split.
  - intros (b & [<-|[<-|[<-|[<-|[]]]]] & H); rewrite bv_zb in H; lia.
  - intros H. eexists. split; [left; reflexivity|]. rewrite bv_zb. lia.
Qed.

Lemma nothing_left maj mi fl n fs : known_version maj = true -> has_extended_header fl = false -> oks fs ->
  frames_size fs <= n -> n + 10 < 2 ^ 31 -> (left_over maj mi fl n fs = [] <-> n < 2 ^ 29).
Proof.
  intros V X K L B. pose proof (frames_size_nonneg fs). destruct (big_file maj mi fl n fs [] V X K L B) as (_ & _ & _ & Z).
  change (2 ^ 29) with 536870912 in *. split.
  - intros E. rewrite E in Z. change (zlen (@nil byte)) with 0 in Z. lia.
  - intros E. rewrite Z.mod_small in Z by lia. rewrite Z.sub_diag in Z. now apply zlen_0.
Qed.

(** As [tag_parse_gen], with any size bytes. *)
Lemma tag_parse_sized major minor flags s3 s2 s1 s0 sf fs pad (rest : mem) :
  known_version major = true -> has_extended_header flags = false ->
  (forall n, length (sf n) = 4%nat) -> Forall (reads_back (schar major) sf) fs ->
  0 <= pad -> frames_size fs + pad < 2 ^ 29 ->
  let size := frames_size fs + pad in
  synchsafe_value [s3; s2; s1; s0] = size ->
  let bytes := [x49; x44; x33; major; minor; flags; s3; s2; s1; s0] ++ images sf fs ++ zeros pad in
  fits [] (cells bytes ++ rest) ->
  Tag_parse (at_pos [] (cells bytes ++ rest))
  = Ok (Some (mkTag (mkTH (lit "ID3") major minor flags size 0)
                    (list_of (combine (seq 0 (length fs)) (map frame_of fs)))
                    (pad + zlen rest) (length fs))).
Proof.
  intros K X Lsf Hrb P S size Sv bytes F.
  pose proof (frames_size_nonneg fs) as N.
  assert (Hok : Forall (fun f => frame_ok f = true) fs) by (eapply Forall_impl; [|exact Hrb]; intros a Ha; apply Ha).
  unfold Tag_parse. unfold bytes in *.
  rewrite !cells_app, <- !app_assoc in *.
  rewrite header_start by auto. cbv zeta. rewrite K, X. cbn [negb]. go.
  rewrite Sv.
  cbn [th_ext_size th_tag_size th_major]. change (0 <? 0) with false. cbv iota. go.
  unfold ID3v2_Tag_new. cbn [t_frames t_fresh]. change FrameList_new with (list_of []).
  set (h10 := [_; _; _; _; _; _; _; _; _; _]).
  assert (Zh : zlen (cells h10) = 10) by reflexivity.
  assert (Zi : zlen (cells (images sf fs)) = frames_size fs)
    by (rewrite zlen_cells; apply images_zlen; auto).
  assert (Zp : zlen (cells (zeros pad)) = pad).
  { rewrite zlen_cells. unfold zeros. rewrite zlen_repeat. lia. }
  assert (F' : fits (cells h10) (cells (images sf fs) ++ cells (zeros pad) ++ rest)).
  { unfold fits in *. rewrite !zlen_app in *. change (zlen (@nil cell)) with 0 in F. fold h10 in F. lia. }
  rewrite parse_loop_frames; auto.
  - go. cbn [app at_pos cs_size cs_cursor].
    unfold fits in F'. rewrite !zlen_app in *. pose proof (zlen_nonneg rest).
    rewrite isub_ok by lia. go. cbn [Nat.add]. apply f_equal, f_equal. f_equal. lia.
  - pose proof (frames_count fs _ Hok Lsf). cbn [cs_stream at_pos]. rewrite !app_length, !length_cells. lia.
  - rewrite Zh. unfold size. lia.
  - rewrite Zh. destruct (Z.le_gt_cases pad 10) as [L|L]; [left; unfold size; lia|right].
    exists (cells (zeros (pad - 4)) ++ rest). unfold zeros.
    replace (Z.to_nat pad) with (4 + Z.to_nat (pad - 4))%nat by lia. reflexivity.
Qed.

(** What is within the size that is recorded is read. *)
Lemma big_read mi fl n fs s :
  has_extended_header fl = false -> Forall (fun f => frame_ok f = true /\ readable f = true) fs ->
  frames_size fs <= n mod 2 ^ 29 -> 0 <= n -> n + 10 < 2 ^ 31 ->
  exists t, ID3v2_read_tag (Some (big_bytes x03 mi fl n fs ++ s)) = Ok (Some t)
    /\ t_header t = mkTH (lit "ID3") x03 mi fl (n mod 2 ^ 29) 0 /\ tag_has t (map frame_of fs)
    /\ t_padding t = n mod 2 ^ 29 - frames_size fs.
Proof.
  intros X R L N B. pose proof (frames_size_nonneg fs).
  assert (K : oks fs) by (eapply Forall_impl; [|exact R]; intros f [A _]; exact A).
  set (r := n mod 2 ^ 29) in *.
  assert (M : 0 <= r <= n) by (unfold r; change (2 ^ 29) with 536870912; lia).
  assert (M' : r < 2 ^ 29) by (unfold r; change (2 ^ 29) with 536870912; lia).
  destruct (big_file x03 mi fl n fs s eq_refl X K) as (P & T & _ & _); [lia|exact B|]. fold r in T.
  pose proof (big_zlen x03 mi fl n fs K) as Zb. specialize (Zb ltac:(lia)).
  set (content := big_bytes x03 mi fl n fs ++ s) in *.
  destruct (file_header content P) as (h & E & H'). destruct h as [h|]; [|congruence].
  destruct H' as (H0 & _ & _). assert (H1 : 10 + r = declared_length h) by congruence. clear H0.
  assert (Zc : declared_length h <= zlen content).
  { unfold content. rewrite zlen_app, Zb. pose proof (zlen_nonneg s). lia. }
  rewrite (read_file content h P E Zc). rewrite <- H1.
  set (front := [x49; x44; x33; x03; mi; fl; zb (n / 2 ^ 21 mod 256); zb (n / 2 ^ 14 mod 128); zb (n / 2 ^ 7 mod 128); zb (n mod 128)]
    ++ images be32 fs ++ zeros (r - frames_size fs)).
  assert (Zf : zlen front = 10 + r).
  { unfold front, zeros. rewrite !zlen_app, images_zlen, zlen_repeat by (auto; reflexivity). unfold zlen at 1. cbn [length]. lia. }
  assert (F : firstn (Z.to_nat (10 + r)) content = front).
  { assert (Q : content = front ++ zeros (n - r) ++ s).
    { unfold content, big_bytes, front, size_bytes.
      assert (Qz : zeros (n - frames_size fs) = zeros (r - frames_size fs) ++ zeros (n - r)).
      { unfold zeros. rewrite <- repeat_app. f_equal. lia. }
      rewrite Qz, <- !app_assoc. reflexivity. }
    rewrite Q. apply firstn_app_exact. unfold zlen in Zf. lia. }
  rewrite F. unfold ID3v2_read_tag_from_buffer.
  assert (Fb : CharStream_from_buffer (Some (cells front)) (10 + r) = Ok (at_pos [] (cells front))).
  { pose proof (from_buffer_at (cells front) [] (10 + r)) as Q. rewrite app_nil_r in Q. apply Q. now rewrite zlen_cells. }
  rewrite Fb. go. clear Fb.
  eexists. split; [|split; [|split]].
  - rewrite <- (app_nil_r (cells front)). apply tag_parse_sized; auto; try lia.
    + eapply Forall_impl; [|exact (Forall_and R (body_sizes fs (2 ^ 29) ltac:(lia)))]. intros f [[A C] D]. cbn beta in D.
      pose proof (body_size_nonneg f). apply reads_back_size; auto.
      unfold declared_size. change (schar x03 =? 4) with false. cbv iota. rewrite be_value_be32. unfold to_i32.
      change (2 ^ 31) with 2147483648 in *. change (2 ^ 32) with 4294967296. change (2 ^ 29) with 536870912 in *. lia.
    + transitivity r; [apply (size_bytes_value n); lia|lia].
    + unfold fits. rewrite app_nil_r, zlen_cells. change (zlen (@nil cell)) with 0.
      change (0 + zlen front < 2 ^ 31). rewrite Zf. change (2 ^ 31) with 2147483648; change (2 ^ 29) with 536870912 in M'; lia.
  - cbn [t_header]. f_equal. lia.
  - apply tag_has_fresh.
  - cbn [t_padding]. change (zlen (@nil cell)) with 0. lia.
Qed.

(** As [session_gen], up to the sizes that no buffer can have. *)
Lemma big_session major minor flags fs pad sound cs es :
  known_version major = true -> has_extended_header flags = false ->
  Forall (fun f => frame_ok f = true /\ readable f = true) fs ->
  0 <= pad -> frames_size fs + pad < 2 ^ 28 ->
  Forall2 means cs es -> all_proper es fs = true ->
  let content := tagged_file major minor flags fs pad sound in
  let fs' := edited es fs in
  let room := room_left es fs pad in
  let n := frames_size fs' + room in
  - 2 ^ 31 <= n < 2 ^ 32 ->
  if (0 <=? room) && (n + 10 <? 2 ^ 31)
  then run_session cs (Some content) = Ok (Some (big_bytes major minor flags n fs' ++ sound))
  else exists u, run_session cs (Some content) = Ub u.
Proof.
  intros V X K P B M A content fs' room n N.
  assert (Ko : oks fs) by (eapply Forall_impl; [|exact K]; cbn beta; intros ? (? & _); assumption).
  destruct (tagged_holds major minor flags fs pad sound V X K P B) as (Xc & Au & t & Et & Ht & Tt & Pt).
  fold content in Xc, Au, Et.
  pose proof (frames_size_nonneg fs). pose proof (frames_size_nonneg fs') as Nf.
  assert (Ko' : oks fs') by now apply edited_oks.
  assert (Sa : Forall sane (map frame_of fs)) by (apply well_formed_sane, fspecs_well_formed; auto).
  assert (Rt : 0 <= th_tag_size (t_header t) < 2 ^ 32) by (rewrite Ht; cbn [th_tag_size]; change (2 ^ 32) with 4294967296; change (2 ^ 28) with 268435456 in B; lia).
  rewrite <- all_proper_allowed in A.
  destruct (edit_steps cs t (map frame_of fs) es Tt Sa Rt M A) as (t' & Er & T' & _ & H' & P').
  rewrite edits_map in T', H'. fold fs' in T', H'. rewrite !bytes_needed_frames in H'.
  assert (Hn : t_header t' = mkTH (lit "ID3") major minor flags (n mod 2 ^ 32) 0).
  { rewrite H', Ht. unfold sized. cbn [th_identifier th_major th_minor th_flags th_ext_size th_tag_size]. f_equal. f_equal.
    unfold n, room. rewrite room_left_deltas. lia. }
  assert (Pp : 2048 - 2 ^ 31 < t_padding t' < 2 ^ 31) by (rewrite P', Pt; change (2 ^ 31) with 2147483648; change (2 ^ 28) with 268435456 in B; lia).
  change (2 ^ 31) with 2147483648 in N. change (2 ^ 32) with 4294967296 in N.
  unfold run_session. rewrite Et. cbn [bind]. rewrite Er. cbn [bind].
  destruct ((0 <=? room) && (n + 10 <? 2 ^ 31)) eqn:R.
  - change (2 ^ 31) with 2147483648 in R.
    rewrite Z.mod_small in Hn by (change (2 ^ 32) with 4294967296; lia).
    rewrite (big_write content t' fs' major minor flags n 0); auto; [|lia|change (2 ^ 31) with 2147483648; lia].
    cbn [bind]. now rewrite Au.
  - assert (W : exists u, Tag_to_char_stream t' = Ub u).
    { pose proof (tag_write_iff t' fs' major minor flags (n mod 2 ^ 32) 0 T' Ko' Hn) as W.
      assert (Q : 0 <= n mod 2 ^ 32 < 2 ^ 32) by (apply Z.mod_pos_bound; reflexivity). specialize (W Q).
      replace ((frames_size fs' <=? n mod 2 ^ 32) && (n mod 2 ^ 32 + 10 <? 2 ^ 31)) with false in W; [exact W|].
      symmetry. change (2 ^ 31) with 2147483648 in *. change (2 ^ 32) with 4294967296.
      destruct (Z.leb_spec 0 n).
      - rewrite Z.mod_small by lia. lia.
      - replace (n mod 4294967296) with (n + 4294967296); [lia|].
        apply Z.mod_unique with (-1); lia. }
    destruct W as (u & W). exists u. rewrite (write_fails content t' u); auto.
Qed.
