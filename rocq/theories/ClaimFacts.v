(** The lemmas on lists, edits and writing, in the form of the properties. *)
From Verif Require Import File Calls Spec SpecEdit.
From Verif Require Export HistFacts.

(** ** Lookup *)

Lemma lookup t ps arg id :
  t_frames t = list_of ps -> Forall sane (map fp_frame ps) -> points_to arg id -> length id = 4%nat ->
  ID3v2_Tag_get_frame (Some t) arg = Ok (find (fun p => named id (fp_frame p)) ps)
  /\ ID3v2_Tag_get_frames (Some t) arg = Ok (list_of (filter (fun p => named id (fp_frame p)) ps)).
Proof.
  intros Hl S P L. apply all_sane_map in S. cbn [ID3v2_Tag_get_frame ID3v2_Tag_get_frames]. rewrite Hl.
  split; [apply (get_list_of arg id)|apply (get_frames_list_of arg id)]; auto.
Qed.

Lemma lookup_named t ps :
  t_frames t = list_of ps -> Forall sane (map fp_frame ps) ->
  let first id := Ok (find (fun p => named (lit id) (fp_frame p)) ps) in
  let all id := Ok (list_of (filter (fun p => named (lit id) (fp_frame p)) ps)) in
  ID3v2_Tag_get_artist_frame (Some t) = first "TPE1"%string
  /\ ID3v2_Tag_get_album_frame (Some t) = first "TALB"%string
  /\ ID3v2_Tag_get_title_frame (Some t) = first "TIT2"%string
  /\ ID3v2_Tag_get_track_frame (Some t) = first "TRCK"%string
  /\ ID3v2_Tag_get_album_artist_frame (Some t) = first "TPE2"%string
  /\ ID3v2_Tag_get_genre_frame (Some t) = first "TCON"%string
  /\ ID3v2_Tag_get_year_frame (Some t) = first "TYER"%string
  /\ ID3v2_Tag_get_disc_number_frame (Some t) = first "TPOS"%string
  /\ ID3v2_Tag_get_composer_frame (Some t) = first "TCOM"%string
  /\ ID3v2_Tag_get_comment_frame (Some t) = first "COMM"%string
  /\ ID3v2_Tag_get_album_cover_frame (Some t) = first "APIC"%string
  /\ ID3v2_Tag_get_comment_frames (Some t) = all "COMM"%string
  /\ ID3v2_Tag_get_apic_frames (Some t) = all "APIC"%string.
Proof.
  intros Hl S first all. subst first all. cbv beta.
  repeat (split; [apply (lookup t ps _ _ Hl S (points_to_lit _)); reflexivity|]).
  apply (lookup t ps _ _ Hl S (points_to_lit _)); reflexivity.
Qed.

Lemma lookup_null :
  (forall arg, ID3v2_Tag_get_frame None arg = Ok None /\ ID3v2_Tag_get_frames None arg = Ok [])
  /\ ID3v2_Tag_get_artist_frame None = Ok None /\ ID3v2_Tag_get_album_frame None = Ok None
  /\ ID3v2_Tag_get_title_frame None = Ok None /\ ID3v2_Tag_get_track_frame None = Ok None
  /\ ID3v2_Tag_get_album_artist_frame None = Ok None /\ ID3v2_Tag_get_genre_frame None = Ok None
  /\ ID3v2_Tag_get_year_frame None = Ok None /\ ID3v2_Tag_get_disc_number_frame None = Ok None
  /\ ID3v2_Tag_get_composer_frame None = Ok None /\ ID3v2_Tag_get_comment_frame None = Ok None
  /\ ID3v2_Tag_get_album_cover_frame None = Ok None
  /\ ID3v2_Tag_get_comment_frames None = Ok [] /\ ID3v2_Tag_get_apic_frames None = Ok [].
Proof. repeat split. Qed.

(** ** Set and add *)

Lemma set_shape t fs c f :
  tag_has t fs -> Forall sane fs -> 0 <= th_tag_size (t_header t) < 2 ^ 32 ->
  means c (Put f) -> frame_ok f = true ->
  exists t', run_call t c = Ok t'
    /\ ((existsb (named (frame_id f)) fs = false /\ tag_has t' (fs ++ [frame_of f]))
        \/ exists l1 x l2, fs = l1 ++ x :: l2 /\ existsb (named (frame_id f)) l1 = false
             /\ named (frame_id f) x = true /\ tag_has t' (l1 ++ frame_of f :: l2)).
Proof.
  intros T S R M K. destruct (edit_step t fs c (Put f) T S R M K eq_refl) as (t' & E & T' & _).
  exists t'. split; [exact E|]. cbn [apply_edit] in T'.
  destruct (put_shape (named (frame_id f)) (frame_of f) fs) as [[N Q]|(l1 & x & l2 & -> & N & Px & Q)]; rewrite Q in T'.
  - now left.
  - right. exists l1, x, l2. auto.
Qed.

Lemma add_shape t fs c f :
  tag_has t fs -> Forall sane fs -> 0 <= th_tag_size (t_header t) < 2 ^ 32 ->
  means c (Append f) -> frame_ok f = true ->
  exists t', run_call t c = Ok t' /\ tag_has t' (fs ++ [frame_of f]).
Proof.
  intros T S R M K. destruct (edit_step t fs c (Append f) T S R M K eq_refl) as (t' & E & T' & _). eauto.
Qed.

(** ** Delete *)

Lemma frames_in_nodes ps rest : frames_in (nodes ps ++ rest) = map fp_frame ps ++ frames_in rest.
Proof. induction ps as [|p ps IH]; [reflexivity|]. cbn [nodes map app frames_in flat_map fnode n_frame]. cbn [app]. f_equal. exact IH. Qed.

Lemma frames_in_has t fs : tag_has t fs -> frames_in (t_frames t) = fs.
Proof.
  intros (ps & -> & <- & _). destruct ps as [|p ps]; [reflexivity|].
  rewrite list_of_nodes by discriminate. rewrite <- (app_nil_r (nodes _)), frames_in_nodes. apply app_nil_r.
Qed.

Lemma no_hole_split {A} (l1 : list A) x l2 :
  (S (length l1) <? length (l1 ++ x :: l2))%nat || (length (l1 ++ x :: l2) =? 1)%nat = true <-> l1 = [] \/ l2 <> [].
Proof.
  rewrite app_length. cbn [length]. rewrite orb_true_iff, Nat.ltb_lt, Nat.eqb_eq.
  destruct l1, l2; cbn [length]; split; intros H; try lia; try (left; congruence); try (right; congruence).
  destruct H; congruence.
Qed.

Lemma remove_gen t c e l1 x l2 :
  let fs := l1 ++ x :: l2 in
  tag_has t fs -> Forall sane fs -> 0 <= th_tag_size (t_header t) < 2 ^ 32 ->
  means c e -> is_set e = false -> victim_pos e fs = Some (length l1) -> apply_edit e fs = l1 ++ l2 ->
  exists t', run_call t c = Ok t'
    /\ frames_in (t_frames t') = l1 ++ l2
    /\ t_header t' = sized (t_header t) ((th_tag_size (t_header t) + size_delta e fs) mod 2 ^ 32)
    /\ t_padding t' = t_padding t
    /\ (l1 = [] \/ l2 <> [] -> tag_has t' (l1 ++ l2)).
Proof.
  intros fs T S R M I V Q.
  destruct (leaves_no_hole (length l1) fs) eqn:H.
  - assert (edit_ok e = true) by (destruct e; try discriminate I; reflexivity).
    assert (allowed e fs = true) by (destruct e; try discriminate I; cbn [allowed]; now rewrite V).
    destruct (edit_step t fs c e) as (t' & E & T' & _ & Hh & Hp); auto.
    rewrite Q in T'. exists t'. repeat split; auto. now apply frames_in_has.
  - assert (W : ~ (l1 = [] \/ l2 <> [])).
    { intros W. apply (no_hole_split l1 x l2) in W. unfold leaves_no_hole, fs in H. congruence. }
    assert (l2 = []) by (destruct l2; [auto|exfalso; apply W; right; congruence]). subst l2.
    destruct (hole_delete t fs c e (length l1) T S R M V) as (t' & ps & E & Hf & Hm & Hh & Hp).
    { unfold fs. rewrite app_length. cbn [length]. lia. }
    exists t'. repeat split; auto; [|tauto].
    rewrite Hf, frames_in_nodes, Hm. unfold fs. rewrite firstn_app, Nat.sub_diag, firstn_all. now rewrite !app_nil_r.
Qed.

Lemma delete_first t c id l1 x l2 :
  let fs := l1 ++ x :: l2 in
  tag_has t fs -> Forall sane fs -> 0 <= th_tag_size (t_header t) < 2 ^ 32 ->
  means c (Remove id) -> existsb (named id) l1 = false -> named id x = true ->
  exists t', run_call t c = Ok t'
    /\ frames_in (t_frames t') = l1 ++ l2
    /\ t_header t' = sized (t_header t) ((th_tag_size (t_header t) - (10 + fh_size (f_hdr x))) mod 2 ^ 32)
    /\ t_padding t' = t_padding t
    /\ (l1 = [] \/ l2 <> [] -> tag_has t' (l1 ++ l2)).
Proof.
  intros fs T S R M N X.
  assert (V : victim_pos (Remove id) fs = Some (length l1)) by (now apply first_pos_shape).
  assert (D : size_delta (Remove id) fs = - (10 + fh_size (f_hdr x))).
  { unfold size_delta, victim. rewrite V. unfold fs. rewrite nth_error_app2, Nat.sub_diag by lia. reflexivity. }
  pose proof (remove_gen t c (Remove id) l1 x l2 T S R M eq_refl V) as G. cbv zeta in G. fold fs in G.
  rewrite D in G. apply G. now apply remove_first_shape.
Qed.

Lemma delete_absent t c id fs :
  tag_has t fs -> Forall sane fs -> means c (Remove id) -> existsb (named id) fs = false ->
  run_call t c = Ub NullDeref.
Proof.
  intros T S M N. apply tag_has_owns in T. destruct T as (ps & O & <-). apply all_sane_map in S.
  destruct (run_remove t c id M) as (arg & P & L & ->).
  rewrite (delete_frame_at t ps arg id) by (auto; apply O).
  replace (first_pos (pnamed id) ps) with (@None nat); [reflexivity|].
  clear -N. induction ps as [|p ps IH]; [reflexivity|]. cbn [map existsb first_pos] in *.
  unfold pnamed at 1. destruct (named id (fp_frame p)); [discriminate|]. rewrite <- IH; auto.
Qed.

Lemma delete_nth t c id i l1 x l2 :
  let fs := l1 ++ x :: l2 in
  tag_has t fs -> Forall sane fs -> 0 <= th_tag_size (t_header t) < 2 ^ 32 ->
  means c (RemoveNth id i) -> named id x = true -> zlen (filter (named id) l1) = i ->
  exists t', run_call t c = Ok t'
    /\ frames_in (t_frames t') = l1 ++ l2
    /\ t_header t' = t_header t /\ t_padding t' = t_padding t
    /\ (l1 = [] \/ l2 <> [] -> tag_has t' (l1 ++ l2)).
Proof.
  intros fs T S R M X L.
  destruct (remove_nth_shape (named id) l1 x l2 i X L) as [Q V].
  destruct (remove_gen t c (RemoveNth id i) l1 x l2 T S R M eq_refl V Q) as (t' & E & F & H & P & W).
  exists t'. repeat split; auto. rewrite H. cbn [size_delta]. rewrite Z.add_0_r, Z.mod_small by auto. now apply sized_same.
Qed.

Lemma delete_nth_out t c id i fs :
  tag_has t fs -> Forall sane fs -> means c (RemoveNth id i) ->
  i < 0 \/ zlen (filter (named id) fs) <= i ->
  run_call t c = Ok t.
Proof.
  intros T S M R. apply tag_has_owns in T. destruct T as (ps & O & <-). apply all_sane_map in S.
  destruct (remove_nth_range (named id) (map fp_frame ps) i R) as [_ V].
  destruct (run_remove_nth t c id i M) as (Li & arg & P & ->).
  rewrite (delete_nth_at t ps arg id) by auto.
  rewrite (map_nth_pos fp_frame (named id)) in V. change (fun a => named id (fp_frame a)) with (pnamed id) in V.
  rewrite V. now destruct t.
Qed.

(** ** Holes *)

Lemma frames_size_last fs f : frames_size (fs ++ [f]) = frames_size fs + (10 + body_size f).
Proof. rewrite frames_size_app, frames_size_cons. change (frames_size []) with 0. lia. Qed.

(** The tag after its last frame has been deleted. *)
Lemma hole_after t fs f c e maj mi fl n ext :
  let frames := map frame_of (fs ++ [f]) in
  tag_has t frames -> oks (fs ++ [f]) -> t_header t = mkTH (lit "ID3") maj mi fl n ext ->
  frames_size (fs ++ [f]) <= n -> n + 10 < 2 ^ 31 ->
  means c e -> victim_pos e frames = Some (length fs) ->
  exists t' ps n', run_call t c = Ok t' /\ t_frames t' = nodes ps ++ [empty_node] /\ map fp_frame ps = map frame_of fs
    /\ t_header t' = mkTH (lit "ID3") maj mi fl n' ext /\ frames_size fs <= n' <= n /\ t_padding t' = t_padding t.
Proof.
  intros frames T K Hh Rm B M V. rewrite frames_size_last in Rm.
  pose proof (frames_size_nonneg fs). pose proof (body_size_nonneg f).
  assert (Sa : Forall sane frames) by (apply well_formed_sane, fspecs_well_formed; auto).
  destruct (hole_delete t frames c e (length fs) T Sa) as (t' & ps & E & Hf & Hm & H' & Hp); auto.
  { rewrite Hh. cbn [th_tag_size]. lia. }
  { unfold frames. rewrite map_length, app_length. cbn [length]. lia. }
  assert (D : size_delta e frames = 0 \/ size_delta e frames = - (10 + body_size f)).
  { destruct e; cbn [victim_pos] in V; try discriminate V; [right|now left].
    unfold size_delta, victim. cbn [victim_pos]. rewrite V. unfold frames. rewrite map_app, nth_error_app2, map_length, Nat.sub_diag by (rewrite map_length; lia).
    reflexivity. }
  exists t', ps, (n + size_delta e frames). rewrite Hh in H'. unfold sized in H'.
  cbn [th_identifier th_major th_minor th_flags th_ext_size th_tag_size] in H'.
  rewrite Z.mod_small in H' by lia. repeat split; auto; try lia.
  rewrite Hm. unfold frames. rewrite map_app, firstn_app, map_length, Nat.sub_diag.
  rewrite <- (map_length frame_of fs), firstn_all. apply app_nil_r.
Qed.

Lemma padding_ok p : 0 <= p < 2 ^ 31 ->
  exists q, (let* d := isub ID3v2_TAG_DEFAULT_PADDING_LENGTH p in
             iadd p (clamp_int d 0 ID3v2_TAG_DEFAULT_PADDING_LENGTH)) = Ok q /\ q = Z.max p 2048.
Proof.
  intros R. unfold ID3v2_TAG_DEFAULT_PADDING_LENGTH. rewrite isub_ok by lia. go.
  unfold clamp_int.
  destruct (Z.ltb_spec (2048 - p) 0); [|destruct (Z.ltb_spec 2048 (2048 - p))]; eexists;
    (split; [rewrite iadd_ok by lia; reflexivity|lia]).
Qed.

Lemma write_tag_starts content t h :
  ID3v2_read_tag_header (Some content) = Ok h -> 0 <= t_padding t < 2 ^ 31 ->
  ID3v2_write_tag_states (Some content) (Some t)
  = let t' := mkTag (t_header t) (t_frames t) (Z.max (t_padding t) 2048) (t_fresh t) in
    let* cs := Tag_to_char_stream t in
    let* bytes := fwrite_bytes (firstn (Z.to_nat (cs_size cs)) (cs_stream cs)) in
    let final := copy_loop (from_offset content (match h with Some h => declared_length h | None => 0 end)) bytes in
    Ok (Some content :: Some [] :: map Some (copy_states final []), Some t').
Proof.
  intros E P. cbn [ID3v2_write_tag_states]. rewrite E. go.
  destruct (padding_ok (t_padding t) P) as (q & Q & ->).
  unfold bind in Q at 1. destruct (isub ID3v2_TAG_DEFAULT_PADDING_LENGTH (t_padding t)) eqn:I; try discriminate Q. go.
  rewrite Q. go. reflexivity.
Qed.

Lemma hole_write t fs f c e maj mi fl n ext content h :
  let frames := map frame_of (fs ++ [f]) in
  fs <> [] -> tag_has t frames -> oks (fs ++ [f]) -> t_header t = mkTH (lit "ID3") maj mi fl n ext ->
  frames_size (fs ++ [f]) <= n -> n + 10 < 2 ^ 31 -> 0 <= t_padding t < 2 ^ 31 ->
  means c e -> victim_pos e frames = Some (length fs) ->
  ID3v2_read_tag_header (Some content) = Ok h ->
  exists t', run_call t c = Ok t' /\ Tag_to_char_stream t' = Exit 1
    /\ ID3v2_write_tag (Some content) (Some t') = Exit 1.
Proof.
  intros frames N T K Hh Rm B Pd M V Hc.
  destruct (hole_after t fs f c e maj mi fl n ext T K Hh Rm B M V) as (t' & ps & n' & E & Hf & Hm & H' & R' & Hp).
  assert (K' : oks fs) by (apply Forall_app in K; apply K).
  pose proof (frames_size_nonneg fs).
  assert (W : Tag_to_char_stream t' = Exit 1).
  { apply (tag_write_hole t' ps fs maj mi fl n' ext); auto; try lia.
    intros ->. destruct fs; [congruence|discriminate Hm]. }
  exists t'. repeat split; auto.
  unfold ID3v2_write_tag. rewrite (write_tag_starts content t' h Hc) by (rewrite Hp; lia).
  cbv zeta. rewrite W. reflexivity.
Qed.

Lemma hole_hides t fs f c e maj mi fl n ext c' g arg id :
  let frames := map frame_of (fs ++ [f]) in
  fs <> [] -> tag_has t frames -> oks (fs ++ [f]) -> t_header t = mkTH (lit "ID3") maj mi fl n ext ->
  frames_size (fs ++ [f]) <= n -> n + 10 < 2 ^ 31 ->
  means c e -> victim_pos e frames = Some (length fs) ->
  frame_ok g = true -> means c' (Append g) \/ means c' (Put g) ->
  id = frame_id g -> existsb (named id) (map frame_of fs) = false -> points_to arg id ->
  exists t' t'', run_call t c = Ok t' /\ run_call t' c' = Ok t''
    /\ frames_in (t_frames t'') = map frame_of fs ++ [frame_of g]
    /\ ID3v2_Tag_get_frame (Some t'') arg = Ok None.
Proof.
  intros frames N T K Hh Rm B M V Kg M' -> Ab Pa.
  destruct (hole_after t fs f c e maj mi fl n ext T K Hh Rm B M V) as (t' & ps & n' & E & Hf & Hm & H' & R' & Hp).
  assert (K' : oks fs) by (apply Forall_app in K; apply K).
  assert (Np : ps <> []) by (intros ->; destruct fs; [congruence|discriminate Hm]).
  assert (Sp : all_sane ps).
  { apply all_sane_map. rewrite Hm. apply well_formed_sane, fspecs_well_formed; auto. }
  assert (Lg : length (frame_id g) = 4%nat) by (apply frame_ok_common in Kg; apply Kg).
  assert (Fn : find (pnamed (frame_id g)) ps = None).
  { rewrite <- Hm in Ab. clear -Ab. induction ps as [|p ps IH]; [reflexivity|]. cbn [map existsb find] in *.
    unfold pnamed at 1. destruct (named (frame_id g) (fp_frame p)); [discriminate|]. auto. }
  assert (R : run_call t' c' = append_frame t' (frame_of g)).
  { destruct M' as [M'|M']; [now apply run_append|]. apply run_put_gen; auto.
    intros a Pt. rewrite Hf, (get_hole a (frame_id g)) by auto. now rewrite Fn. }
  destruct (add_after_hole t' ps g Hf Np) as (t'' & A & F'').
  exists t', t''. rewrite R. repeat split; auto.
  - rewrite F'', frames_in_nodes, Hm. reflexivity.
  - cbn [ID3v2_Tag_get_frame]. rewrite F'', (get_hole arg (frame_id g)) by auto. now rewrite Fn.
Qed.

(** Any other delete of a present frame leaves the list as it should be. *)
Lemma no_hole t fs c e n :
  tag_has t fs -> Forall sane fs -> 0 <= th_tag_size (t_header t) < 2 ^ 32 ->
  means c e -> victim_pos e fs = Some n -> (S n < length fs)%nat \/ length fs = 1%nat ->
  exists t', run_call t c = Ok t' /\ tag_has t' (apply_edit e fs).
Proof.
  intros T S R M V L.
  assert (leaves_no_hole n fs = true).
  { unfold leaves_no_hole. rewrite orb_true_iff, Nat.ltb_lt, Nat.eqb_eq. exact L. }
  destruct (edit_step t fs c e) as (t' & E & T' & _); eauto.
  - destruct e; try discriminate V; reflexivity.
  - destruct e; try discriminate V; cbn [allowed]; now rewrite V.
Qed.

(** ** Histories *)

Lemma history t fs cs es :
  tag_has t fs -> Forall sane fs -> 0 <= th_tag_size (t_header t) < 2 ^ 32 ->
  Forall2 means cs es -> all_allowed es fs = true ->
  exists t', run_calls t cs = Ok t' /\ tag_has t' (apply_edits es fs) /\ t_padding t' = t_padding t.
Proof.
  intros T S R M A. destruct (edit_steps cs t fs es T S R M A) as (t' & E & T' & _ & _ & P). eauto.
Qed.

Lemma history_room t fs cs es room :
  tag_has t fs -> Forall sane fs -> 0 <= th_tag_size (t_header t) < 2 ^ 32 ->
  th_tag_size (t_header t) = bytes_needed fs + room ->
  Forall2 means cs es -> all_allowed es fs = true ->
  let fs' := apply_edits es fs in
  exists t', run_calls t cs = Ok t' /\ tag_has t' fs'
    /\ t_header t' = sized (t_header t) ((bytes_needed fs' + (room + room_deltas es fs)) mod 2 ^ 32).
Proof.
  intros T S R E M A fs'. destruct (edit_steps cs t fs es T S R M A) as (t' & Er & T' & _ & H & _).
  exists t'. repeat split; auto. rewrite H. unfold fs'. do 2 f_equal. lia.
Qed.

(** ** Tags made from scratch *)

Lemma sets_room es : forall fs, forallb is_set es = true ->
  room_deltas es fs = -10 * (zlen (apply_edits es fs) - zlen fs).
Proof.
  induction es as [|e es IH]; intros fs H; [cbn [room_deltas apply_edits]; lia|]. cbn [forallb room_deltas apply_edits] in *.
  apply andb_true_iff in H. destruct H as [He H]. rewrite IH by auto.
  enough (room_delta e fs = -10 * (zlen (apply_edit e fs) - zlen fs)) by lia.
  destruct e as [f|f|id|id i]; try discriminate He; cbn [room_delta apply_edit].
  - clear. induction fs as [|g fs IH]; [reflexivity|]. cbn [find put]. destruct (named (frame_id f) g).
    + rewrite !zlen_cons. lia.
    + rewrite !zlen_cons, IH. lia.
  - rewrite zlen_app. change (zlen [frame_of f]) with 1. lia.
Qed.

Lemma sets_allowed es : forall fs, forallb is_set es = true -> forallb edit_ok es = true -> all_allowed es fs = true.
Proof.
  induction es as [|e es IH]; intros fs H K; [reflexivity|]. cbn [forallb all_allowed] in *.
  apply andb_true_iff in H, K. destruct H as [He H], K as [Ke K]. rewrite Ke, IH by auto.
  destruct e; try discriminate He; reflexivity.
Qed.

Lemma sets_nonempty es fs : es <> [] -> forallb is_set es = true -> apply_edits es fs <> [].
Proof.
  revert fs. induction es as [|e es IH]; [congruence|]. intros fs _ H. cbn [forallb apply_edits] in *.
  apply andb_true_iff in H. destruct H as [He H]. destruct es as [|e' es].
  - cbn [apply_edits]. destruct e; try discriminate He; cbn [apply_edit]; [apply put_not_nil|]. destruct fs; discriminate.
  - apply IH; [discriminate|exact H].
Qed.

Lemma scratch_short cs es :
  Forall2 means cs es -> es <> [] -> forallb is_set es = true -> forallb edit_ok es = true ->
  let fs := apply_edits es [] in
  bytes_needed fs < 2 ^ 31 ->
  exists t, run_calls ID3v2_Tag_new_empty cs = Ok t /\ tag_has t fs
    /\ th_tag_size (t_header t) = bytes_needed fs - 10 * zlen fs
    /\ Tag_to_char_stream t = Ub OobWrite.
Proof.
  intros M N I K fs B. pose proof (sets_allowed es [] I K) as A.
  assert (Ws : Forall well_formed fs) by (apply applies_well_formed; auto).
  destruct (edit_steps cs ID3v2_Tag_new_empty [] es new_empty_has (Forall_nil _)) as (t & E & T & S & H & _); auto.
  { cbn. lia. }
  fold fs in T, H, S. rewrite sets_room in H by auto. fold fs in H.
  change (zlen (@nil frame)) with 0 in H. change (bytes_needed []) with 0 in H.
  change (th_tag_size (t_header ID3v2_Tag_new_empty)) with 0 in H.
  assert (L : 10 * zlen fs <= bytes_needed fs).
  { clear -S. induction S as [|f fs (_ & Sf) _ IH]; [reflexivity|]. rewrite zlen_cons. cbn [bytes_needed fold_right]. fold (bytes_needed fs). lia. }
  pose proof (sets_nonempty es [] N I) as Ne. fold fs in Ne.
  assert (0 < zlen fs) by (destruct fs; [congruence|rewrite zlen_cons; pose proof (zlen_nonneg fs); lia]).
  replace ((bytes_needed fs + (0 - 0) + -10 * (zlen fs - 0)) mod 2 ^ 32) with (bytes_needed fs - 10 * zlen fs) in H
    by (rewrite Z.mod_small; lia).
  exists t. split; [exact E|]. split; [exact T|]. rewrite H. split; [reflexivity|].
  destruct (well_formed_fspecs fs Ws) as (ss & Ks & Es). rewrite Es in *. rewrite bytes_needed_frames in *.
  apply (tag_write_over t ss x03 x00 x00 (frames_size ss - 10 * zlen (map frame_of ss)) 0); auto; try lia.
Qed.

Lemma scratch_empty :
  exists cs, Tag_to_char_stream ID3v2_Tag_new_empty = Ok cs /\ cs_size cs = 10
    /\ cs_stream cs = cells (header_image x03 x00 x00 0).
Proof. eexists. split; [reflexivity|]. split; reflexivity. Qed.

(** ** Writing *)

Lemma write_fits t fs maj mi fl n ext :
  tag_has t (map frame_of fs) -> oks fs -> t_header t = mkTH (lit "ID3") maj mi fl n ext ->
  0 <= n -> n + 10 < 2 ^ 31 -> frames_size fs <= n ->
  exists cs, Tag_to_char_stream t = Ok cs /\ cs_size cs = n + 10
    /\ exists size_bytes, length size_bytes = 4%nat /\ (n < 2 ^ 28 -> size_bytes = synchsafe32 n)
    /\ cs_stream cs = cells (lit "ID3" ++ [maj; mi; fl] ++ size_bytes ++ images be32 fs ++ zeros (n - frames_size fs)).
Proof.
  intros T K H N B L. destruct (tag_write t fs maj mi fl n ext T K H N B L) as (cs & E & Z & S).
  exists cs. repeat split; auto. exists (four_bytes n). repeat split; auto. intros. apply four_bytes_small. lia.
Qed.

Lemma scratch_history cs es :
  Forall2 means cs es -> es <> [] -> all_allowed es [] = true ->
  forallb (fun e => match e with RemoveNth _ _ => false | _ => true end) es = true ->
  10 * zlen es < 2 ^ 31 -> bytes_needed (apply_edits es []) < 2 ^ 32 ->
  exists t, run_calls ID3v2_Tag_new_empty cs = Ok t
    /\ tag_has t (apply_edits es []) /\ exists u, Tag_to_char_stream t = Ub u.
Proof.
  intros M N A X. apply scratch_overflows; auto. rewrite <- X. clear. induction es as [|e es IH]; [reflexivity|].
  cbn [forallb]. rewrite IH. now destruct e.
Qed.
