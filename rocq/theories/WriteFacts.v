(** Serialising whole tags. *)
From Verif Require Import File Calls Spec SpecEdit.
From Verif Require Export EditFacts.

(** ** Frames *)

Definition oks (fs : list fspec) : Prop := Forall (fun f => frame_ok f = true) fs.

Lemma write_frames_ok fs : forall ps rest pre k,
  oks fs -> map fp_frame ps = map frame_of fs -> zlen pre + k < 2 ^ 31 -> frames_size fs <= k ->
  write_frames (at_pos pre (zmem k)) (nodes ps ++ rest)
  = write_frames (at_pos (pre ++ cells (images be32 fs)) (zmem (k - frames_size fs))) rest.
Proof.
  induction fs as [|f fs IH]; intros ps rest pre k H M F L; destruct ps as [|p ps]; try discriminate M.
  - change (cells (images be32 [])) with (@nil cell). rewrite app_nil_r. cbn [nodes map app].
    change (frames_size []) with 0. now rewrite Z.sub_0_r.
  - inversion H as [|? ? Hf H']; subst. injection M as Mp M. rewrite frames_size_cons in *.
    pose proof (frames_size_nonneg fs). pose proof (body_size_nonneg f).
    assert (Z : zlen (cells (frame_image be32 f)) = body_size f + 10) by (rewrite zlen_cells; now apply frame_image_length).
    cbn [nodes map app write_frames fnode n_frame option_map]. rewrite Mp, frame_write by auto. go. cbn [cs_stream cs_size].
    rewrite write_z' by lia. go. fold (nodes ps). rewrite Z.
    rewrite IH; auto; [|rewrite zlen_app; lia|lia].
    rewrite images_cons, cells_app, <- app_assoc. do 3 f_equal. lia.
Qed.

Lemma write_frames_over fs : forall ps rest pre k,
  oks fs -> map fp_frame ps = map frame_of fs -> zlen pre + k < 2 ^ 31 -> 0 <= k < frames_size fs ->
  write_frames (at_pos pre (zmem k)) (nodes ps ++ rest) = Ub OobWrite.
Proof.
  induction fs as [|f fs IH]; intros ps rest pre k H M F L; destruct ps as [|p ps]; try discriminate M.
  - change (frames_size []) with 0 in L. lia.
  - inversion H as [|? ? Hf H']; subst. injection M as Mp M. rewrite frames_size_cons in *.
    pose proof (frames_size_nonneg fs). pose proof (body_size_nonneg f).
    assert (Z : zlen (cells (frame_image be32 f)) = body_size f + 10) by (rewrite zlen_cells; now apply frame_image_length).
    cbn [nodes map app write_frames fnode n_frame option_map]. rewrite Mp, frame_write by auto. go. cbn [cs_stream cs_size].
    destruct (Z.le_gt_cases (body_size f + 10) k) as [G|G].
    + rewrite write_z' by lia. go. fold (nodes ps). rewrite Z. apply IH; auto; [rewrite zlen_app; lia|lia].
    + rewrite write_overflow; [reflexivity|lia|rewrite zlen_zmem; lia].
Qed.

(** ** Tags *)

Definition four_bytes (n : Z) : list byte := be32 (sync_closed (to_i32 n)).

Lemma four_bytes_small n : 0 <= n < 2 ^ 28 -> four_bytes n = synchsafe32 n.
Proof.
  intros N. unfold four_bytes. rewrite to_i32_id by lia.
  destruct (sync_small n N) as (e & E & _ & I & _). rewrite syncint_encode_closed in E. injection E as <-.
  rewrite itob_spec in I. now apply cells_inj.
Qed.

(** The header part of Tag_to_char_stream. *)
Definition start_tag (h : TagHeader) : outcome CharStream :=
  let* cs := CharStream_new (to_i32 (to_u32 (th_tag_size h + ID3v2_TAG_HEADER_LENGTH))) in
  let* cs := CharStream_write cs (cells (th_identifier h)) ID3v2_TAG_HEADER_IDENTIFIER_LENGTH in
  let* cs := CharStream_write cs [Some (th_major h)] ID3v2_TAG_HEADER_MAJOR_VERSION_LENGTH in
  let* cs := CharStream_write cs [Some (th_minor h)] ID3v2_TAG_HEADER_MINOR_VERSION_LENGTH in
  let* cs := CharStream_write cs [Some (th_flags h)] ID3v2_TAG_HEADER_FLAGS_LENGTH in
  let* enc := syncint_encode (to_i32 (th_tag_size h)) in
  CharStream_write cs (itob enc) ID3v2_TAG_HEADER_TAG_SIZE_LENGTH.

Lemma bind_assoc {A B C} (o : outcome A) (f : A -> outcome B) (g : B -> outcome C) :
  bind (bind o f) g = bind o (fun x => bind (f x) g).
Proof. now destruct o. Qed.

Lemma tag_write_start t :
  Tag_to_char_stream t = let* cs := start_tag (t_header t) in
    match t_frames t with
    | [] => Ub NullDeref
    | n :: _ => match n_frame n with None => Ok cs | Some _ => write_frames cs (t_frames t) end
    end.
Proof.
  unfold Tag_to_char_stream, start_tag.
  repeat (rewrite ?bind_assoc; match goal with |- bind ?o _ = bind ?o _ => destruct o; go; auto end).
Qed.

Lemma start_tag_ok maj mi fl n ext :
  0 <= n -> n + 10 < 2 ^ 31 ->
  start_tag (mkTH (lit "ID3") maj mi fl n ext)
  = Ok (at_pos (cells (lit "ID3" ++ [maj; mi; fl] ++ four_bytes n)) (zmem n)).
Proof.
  intros N L. unfold start_tag. cbn [th_tag_size th_identifier th_major th_minor th_flags].
  change ID3v2_TAG_HEADER_LENGTH with 10. rewrite to_u32_id, to_i32_id by lia.
  rewrite new_z by lia. go.
  rewrite write_z'; [|change (zlen (@nil cell)) with 0; lia|reflexivity|change (zlen (cells (lit "ID3"))) with 3; lia]. go.
  change (zlen (cells (lit "ID3"))) with 3.
  rewrite write_z'; [|change (zlen ([] ++ cells (lit "ID3"))) with 3; lia|reflexivity|change (zlen [Some maj]) with 1; lia]. go.
  change (zlen [Some maj]) with 1.
  rewrite write_z'; [|change (zlen (([] ++ cells (lit "ID3")) ++ [Some maj])) with 4; lia|reflexivity|change (zlen [Some mi]) with 1; lia]. go.
  change (zlen [Some mi]) with 1.
  rewrite write_z'; [|change (zlen ((([] ++ cells (lit "ID3")) ++ [Some maj]) ++ [Some mi])) with 5; lia|reflexivity|change (zlen [Some fl]) with 1; lia]. go.
  change (zlen [Some fl]) with 1.
  rewrite syncint_encode_closed. go. rewrite itob_spec. fold (four_bytes n).
  rewrite write_z'; [|change (zlen (((([] ++ cells (lit "ID3")) ++ [Some maj]) ++ [Some mi]) ++ [Some fl])) with 6; lia|reflexivity|change (zlen (cells (four_bytes n))) with 4; lia].
  change (zlen (cells (four_bytes n))) with 4. rewrite !cells_app. cbn [app]. rewrite <- !app_assoc.
  f_equal. unfold four_bytes, be32. cbn [cells map app lit]. repeat f_equal. lia.
Qed.

(** A size that wraps: too little is allocated, or nothing. *)
Lemma start_tag_big maj mi fl n ext :
  2 ^ 31 <= n + 10 -> n < 2 ^ 32 -> exists u, start_tag (mkTH (lit "ID3") maj mi fl n ext) = Ub u.
Proof.
  intros N L. unfold start_tag. cbn [th_tag_size th_identifier th_major th_minor th_flags].
  change ID3v2_TAG_HEADER_LENGTH with 10.
  destruct (Z.lt_ge_cases (n + 10) (2 ^ 32)) as [C|C].
  - rewrite to_u32_id by lia. assert (to_i32 (n + 10) < 0) as Neg.
    { unfold to_i32. rewrite <- (Zmod_unique (n + 10 + 2 ^ 31) (2 ^ 32) 1 (n + 10 - 2 ^ 31)) by lia. lia. }
    unfold CharStream_new. replace (_ <? 0) with true by lia. eexists. reflexivity.
  - assert (exists s, to_i32 (to_u32 (n + 10)) = s /\ (s = 0 \/ s = 1 \/ s = 2 \/ s = 3 \/ s = 4 \/ s = 5 \/ s = 6 \/ s = 7 \/ s = 8 \/ s = 9))
      as (s & -> & Hs).
    { exists (n + 10 - 2 ^ 32). split; [|lia]. unfold to_u32.
      rewrite <- (Zmod_unique (n + 10) (2 ^ 32) 1 (n + 10 - 2 ^ 32)) by lia. apply to_i32_id. lia. }
    rewrite syncint_encode_closed. generalize (sync_closed (to_i32 n)). intros e. go.
    exists OobWrite. decompose [or] Hs; subst s; reflexivity.
Qed.

Definition tag_image (maj mi fl : byte) (n : Z) (fs : list fspec) : list byte :=
  lit "ID3" ++ [maj; mi; fl] ++ four_bytes n ++ images be32 fs ++ zeros (n - frames_size fs).

Lemma tag_write_gen t fs maj mi fl n ext :
  tag_has t (map frame_of fs) -> oks fs -> t_header t = mkTH (lit "ID3") maj mi fl n ext ->
  0 <= n -> n + 10 < 2 ^ 31 -> frames_size fs <= n ->
  Tag_to_char_stream t
  = Ok (at_pos (cells (lit "ID3" ++ [maj; mi; fl] ++ four_bytes n ++ images be32 fs)) (zmem (n - frames_size fs))).
Proof.
  intros T H Hh N L R. rewrite tag_write_start, Hh, start_tag_ok by auto. go.
  apply tag_has_owns in T. destruct T as (ps & (Hl & _) & M). rewrite Hl.
  destruct ps as [|p ps].
  - destruct fs; [|discriminate M]. cbn [list_of n_frame]. change (frames_size []) with 0. rewrite Z.sub_0_r.
    change (images be32 []) with (@nil byte). now rewrite app_nil_r.
  - rewrite list_of_nodes by discriminate. change (nodes (p :: ps)) with (fnode p :: nodes ps) at 1. cbn [fnode n_frame].
    rewrite <- (app_nil_r (nodes (p :: ps))). rewrite (write_frames_ok fs); auto.
    + rewrite zlen_cells. change (zlen (lit "ID3" ++ [maj; mi; fl] ++ four_bytes n)) with 10. lia.
Qed.

Lemma at_pos_stream p r : cs_stream (at_pos p r) = p ++ r.
Proof. reflexivity. Qed.

Lemma cells_zeros k : cells (zeros k) = zmem k.
Proof. unfold zeros, zmem, cells. induction (Z.to_nat k) as [|j IH]; [reflexivity|]. cbn [repeat map]. now rewrite IH. Qed.

Lemma tag_write t fs maj mi fl n ext :
  tag_has t (map frame_of fs) -> oks fs -> t_header t = mkTH (lit "ID3") maj mi fl n ext ->
  0 <= n -> n + 10 < 2 ^ 31 -> frames_size fs <= n ->
  exists cs, Tag_to_char_stream t = Ok cs /\ cs_size cs = n + 10 /\ cs_stream cs = cells (tag_image maj mi fl n fs).
Proof.
  intros T H Hh N L R. eexists. split; [eapply tag_write_gen; eauto|].
  pose proof (frames_size_nonneg fs).
  assert (Z : zlen (cells (lit "ID3" ++ [maj; mi; fl] ++ four_bytes n ++ images be32 fs)) = 10 + frames_size fs).
  { rewrite zlen_cells, !zlen_app. rewrite images_zlen by (auto; reflexivity).
    change (zlen (lit "ID3")) with 3. change (zlen [maj; mi; fl]) with 3. change (zlen (four_bytes n)) with 4. lia. }
  split.
  - unfold at_pos. cbn [cs_size]. rewrite Z, zlen_zmem by lia. lia.
  - unfold at_pos, tag_image. cbn [cs_stream]. rewrite <- cells_zeros, <- cells_app, <- !app_assoc. reflexivity.
Qed.

Lemma tag_write_over t fs maj mi fl n ext :
  tag_has t (map frame_of fs) -> oks fs -> t_header t = mkTH (lit "ID3") maj mi fl n ext ->
  0 <= n -> n + 10 < 2 ^ 31 -> n < frames_size fs ->
  Tag_to_char_stream t = Ub OobWrite.
Proof.
  intros T H Hh N L R. rewrite tag_write_start, Hh, start_tag_ok by auto. go.
  apply tag_has_owns in T. destruct T as (ps & (Hl & _) & M). rewrite Hl.
  destruct ps as [|p ps].
  - destruct fs; [|discriminate M]. change (frames_size []) with 0 in R. lia.
  - rewrite list_of_nodes by discriminate. change (nodes (p :: ps)) with (fnode p :: nodes ps) at 1. cbn [fnode n_frame].
    rewrite <- (app_nil_r (nodes (p :: ps))). apply (write_frames_over fs); auto.
    rewrite zlen_cells. change (zlen (lit "ID3" ++ [maj; mi; fl] ++ four_bytes n)) with 10. lia.
Qed.

Lemma tag_write_big t maj mi fl n ext :
  t_header t = mkTH (lit "ID3") maj mi fl n ext -> 2 ^ 31 <= n + 10 -> n < 2 ^ 32 ->
  exists u, Tag_to_char_stream t = Ub u.
Proof.
  intros Hh N L. rewrite tag_write_start, Hh. destruct (start_tag_big maj mi fl n ext N L) as (u & ->). now exists u.
Qed.

(** Writing succeeds exactly when there is room. *)
Lemma tag_write_iff t fs maj mi fl n ext :
  tag_has t (map frame_of fs) -> oks fs -> t_header t = mkTH (lit "ID3") maj mi fl n ext ->
  0 <= n < 2 ^ 32 ->
  if (frames_size fs <=? n) && (n + 10 <? 2 ^ 31)
  then exists cs, Tag_to_char_stream t = Ok cs
  else exists u, Tag_to_char_stream t = Ub u.
Proof.
  intros T H Hh N. destruct (n + 10 <? 2 ^ 31) eqn:B; [destruct (frames_size fs <=? n) eqn:A|rewrite andb_false_r]; cbn [andb].
  - destruct (tag_write t fs maj mi fl n ext) as (cs & E & _); auto; try lia. eauto.
  - exists OobWrite. apply (tag_write_over t fs maj mi fl n ext); auto; lia.
  - apply (tag_write_big t maj mi fl n ext); auto; lia.
Qed.

(** A hole ends the process, when everything before it was written. *)
Lemma tag_write_hole t ps fs maj mi fl n ext :
  t_frames t = nodes ps ++ [empty_node] -> ps <> [] -> map fp_frame ps = map frame_of fs -> oks fs ->
  t_header t = mkTH (lit "ID3") maj mi fl n ext ->
  0 <= n -> n + 10 < 2 ^ 31 -> frames_size fs <= n ->
  Tag_to_char_stream t = Exit 1.
Proof.
  intros Hl P M H Hh N L R. rewrite tag_write_start, Hh, start_tag_ok by auto. go. rewrite Hl.
  destruct ps as [|p ps]; [congruence|]. change (nodes (p :: ps)) with (fnode p :: nodes ps) at 1. cbn [app fnode n_frame].
  rewrite (write_frames_ok fs); auto.
  rewrite zlen_cells. change (zlen (lit "ID3" ++ maj :: mi :: fl :: four_bytes n)) with 10. lia.
Qed.
