(** Histories of edits: holes, tags made from scratch. *)
From Verif Require Import File Calls Spec SpecEdit.
From Verif Require Export WriteFacts.

(** ** Shapes of the results *)

Section Shapes.
  Context {A : Type} (P : A -> bool).

  Lemma put_shape g l :
    (existsb P l = false /\ put P g l = l ++ [g])
    \/ (exists l1 x l2, l = l1 ++ x :: l2 /\ existsb P l1 = false /\ P x = true /\ put P g l = l1 ++ g :: l2).
  Proof.
    induction l as [|a l IH]; [now left|]. cbn [put existsb]. destruct (P a) eqn:E; cbn [orb].
    - right. exists [], a, l. auto.
    - destruct IH as [[N ->]|(l1 & x & l2 & -> & N & Px & ->)]; [now left|].
      right. exists (a :: l1), x, l2. cbn [existsb]. rewrite E. auto.
  Qed.

  Lemma remove_first_shape l1 x l2 :
    existsb P l1 = false -> P x = true -> remove_first P (l1 ++ x :: l2) = l1 ++ l2.
  Proof.
    induction l1 as [|a l1 IH]; cbn [app remove_first existsb]; intros N Px; [now rewrite Px|].
    apply orb_false_iff in N. destruct N as [-> N]. now rewrite IH.
  Qed.

  Lemma first_pos_shape l1 x l2 :
    existsb P l1 = false -> P x = true -> first_pos P (l1 ++ x :: l2) = Some (length l1).
  Proof.
    induction l1 as [|a l1 IH]; cbn [app first_pos existsb length]; intros N Px; [now rewrite Px|].
    apply orb_false_iff in N. destruct N as [-> N]. now rewrite IH.
  Qed.

  Lemma existsb_shape l : existsb P l = true -> exists l1 x l2, l = l1 ++ x :: l2 /\ existsb P l1 = false /\ P x = true.
  Proof.
    induction l as [|a l IH]; [discriminate|]. cbn [existsb]. destruct (P a) eqn:E; cbn [orb].
    - intros _. exists [], a, l. auto.
    - intros H. destruct (IH H) as (l1 & x & l2 & -> & N & Px). exists (a :: l1), x, l2. cbn [existsb]. rewrite E. auto.
  Qed.

  Lemma remove_nth_shape l1 x l2 i :
    P x = true -> zlen (filter P l1) = i ->
    remove_nth P i (l1 ++ x :: l2) = l1 ++ l2 /\ nth_pos P i (l1 ++ x :: l2) = Some (length l1).
  Proof.
    revert i. induction l1 as [|a l1 IH]; cbn [app remove_nth nth_pos filter length]; intros i Px L.
    - rewrite Px. change (zlen (@nil A)) with 0 in L. subst. auto.
    - destruct (P a).
      + rewrite zlen_cons in L. pose proof (zlen_nonneg (filter P l1)). replace (i =? 0) with false by lia.
        destruct (IH (i - 1) Px) as [-> ->]; [lia|]. auto.
      + destruct (IH i Px L) as [-> ->]. auto.
  Qed.

  Lemma remove_nth_range l i :
    i < 0 \/ zlen (filter P l) <= i -> remove_nth P i l = l /\ nth_pos P i l = None.
  Proof.
    revert i. induction l as [|a l IH]; intros i R; [auto|]. cbn [remove_nth nth_pos filter] in *. destruct (P a).
    - rewrite zlen_cons in R. pose proof (zlen_nonneg (filter P l)). replace (i =? 0) with false by lia.
      destruct (IH (i - 1)) as [-> ->]; [lia|]. auto.
    - destruct (IH i R) as [-> ->]. auto.
  Qed.

  Lemma nth_shape l i : 0 <= i < zlen (filter P l) ->
    exists l1 x l2, l = l1 ++ x :: l2 /\ P x = true /\ zlen (filter P l1) = i.
  Proof.
    revert i. induction l as [|a l IH]; intros i R; cbn [filter] in R; [change (zlen (@nil A)) with 0 in R; lia|].
    destruct (P a) eqn:E.
    - rewrite zlen_cons in R. destruct (Z.eq_dec i 0) as [->|N].
      + exists [], a, l. auto.
      + destruct (IH (i - 1)) as (l1 & x & l2 & -> & Px & L); [lia|]. exists (a :: l1), x, l2.
        cbn [filter app]. rewrite E, zlen_cons. repeat split; auto. lia.
    - destruct (IH i R) as (l1 & x & l2 & -> & Px & L). exists (a :: l1), x, l2. cbn [filter app]. rewrite E. auto.
  Qed.
End Shapes.

(** ** Holes *)

Lemma hole_delete t fs c e n :
  tag_has t fs -> Forall sane fs -> 0 <= th_tag_size (t_header t) < 2 ^ 32 -> means c e ->
  victim_pos e fs = Some n -> S n = length fs ->
  exists t' ps, run_call t c = Ok t' /\ t_frames t' = nodes ps ++ [empty_node] /\ map fp_frame ps = firstn n fs
    /\ t_header t' = sized (t_header t) ((th_tag_size (t_header t) + size_delta e fs) mod 2 ^ 32)
    /\ t_padding t' = t_padding t.
Proof.
  intros T S R M V L. apply tag_has_owns in T. destruct T as (ps & O & <-). apply all_sane_map in S. rewrite map_length in L.
  assert (U : unlinked n ps = nodes (firstn n ps) ++ [empty_node]).
  { unfold unlinked. rewrite L. now rewrite Nat.eqb_refl. }
  destruct e as [f|f|id|id i]; cbn [victim_pos] in V; try discriminate V.
  - destruct (run_remove t c id M) as (arg & P & Li & ->).
    rewrite (delete_frame_at t ps arg id) by (auto; apply O).
    unfold size_delta, victim. cbn [victim_pos]. rewrite V.
    rewrite (map_first_pos fp_frame (named id)) in V. change (fun a => named id (fp_frame a)) with (pnamed id) in V.
    rewrite V. eexists _, (firstn n ps). split; [reflexivity|]. cbn [t_frames t_header t_padding].
    rewrite U, firstn_map, nth_error_map, with_sized. repeat split; auto.
  - destruct (run_remove_nth t c id i M) as (Li & arg & P & ->).
    rewrite (delete_nth_at t ps arg id) by auto. cbn [size_delta].
    rewrite (map_nth_pos fp_frame (named id)) in V. change (fun a => named id (fp_frame a)) with (pnamed id) in V.
    rewrite V. eexists _, (firstn n ps). split; [reflexivity|]. cbn [t_frames t_header t_padding].
    rewrite U, firstn_map, Z.add_0_r, Z.mod_small by auto. repeat split; auto. now rewrite sized_same.
Qed.

(** Lookups stop at the hole. *)
Lemma get_hole arg id ps rest :
  all_sane ps -> points_to arg id -> length id = 4%nat ->
  FrameList_get_frame_by_id (nodes ps ++ empty_node :: rest) arg = Ok (find (pnamed id) ps).
Proof.
  intros H P L. induction H as [|p ps Hp H IH]; [reflexivity|].
  cbn [nodes map app FrameList_get_frame_by_id fnode n_frame find]. rewrite (id_matches_ok _ _ id) by auto. go.
  unfold pnamed at 1. destruct (named id (fp_frame p)); [reflexivity|exact IH].
Qed.

(** What an added frame is worth after that. *)
Lemma add_after_hole t ps f :
  t_frames t = nodes ps ++ [empty_node] -> ps <> [] ->
  exists t', append_frame t (frame_of f) = Ok t' /\ t_frames t' = nodes ps ++ [empty_node; fnode (t_fresh t, frame_of f)].
Proof.
  intros Hl N. unfold append_frame, install_frame. rewrite Hl. destruct ps as [|p ps]; [congruence|].
  cbn [nodes map app FrameList_add_frame fnode n_start negb]. go. eexists. split; [reflexivity|].
  cbn [with_frames t_frames app]. fold fnode. fold (nodes ps). rewrite <- app_assoc. reflexivity.
Qed.

(** ** Well-formed frames *)

Lemma well_formed_sane fs : Forall well_formed fs -> Forall sane fs.
Proof. apply Forall_impl. intros g (f & K & ->). now apply frame_of_sane. Qed.

Lemma well_formed_fspecs gs : Forall well_formed gs -> exists fs, oks fs /\ gs = map frame_of fs.
Proof.
  induction 1 as [|g gs (f & K & ->) _ (fs & H & ->)]; [exists []; split; [constructor|reflexivity]|].
  exists (f :: fs). split; [now constructor|reflexivity].
Qed.

Lemma fspecs_well_formed fs : oks fs -> Forall well_formed (map frame_of fs).
Proof. intros H. rewrite Forall_map. eapply Forall_impl; [|exact H]. intros f K. now exists f. Qed.

Lemma Forall_delete_at {A} (Q : A -> Prop) n l : Forall Q l -> Forall Q (delete_at n l).
Proof. rewrite !Forall_forall. intros H x Hx. apply H. now apply delete_at_incl in Hx. Qed.

Lemma Forall_put {A} (Q : A -> Prop) P g l : Q g -> Forall Q l -> Forall Q (put P g l).
Proof. intros G H. induction H as [|a l Ha H IH]; cbn [put]; [auto|]. destruct (P a); constructor; auto. Qed.

Lemma apply_well_formed e fs : edit_ok e = true -> Forall well_formed fs -> Forall well_formed (apply_edit e fs).
Proof.
  intros K H. destruct e as [f|f|id|id i]; cbn [apply_edit edit_ok] in *.
  - apply Forall_put; auto. now exists f.
  - apply Forall_app. split; auto. constructor; auto. now exists f.
  - rewrite remove_first_pos. destruct (first_pos _ fs); auto. now apply Forall_delete_at.
  - rewrite remove_nth_pos. destruct (nth_pos _ _ fs); auto. now apply Forall_delete_at.
Qed.

Lemma applies_well_formed es : forall fs, all_allowed es fs = true -> Forall well_formed fs ->
  Forall well_formed (apply_edits es fs).
Proof.
  induction es as [|e es IH]; intros fs A H; [exact H|]. cbn [all_allowed apply_edits] in *.
  apply andb_true_iff in A. destruct A as [A A']. apply andb_true_iff in A. destruct A as [K A].
  apply IH; auto. now apply apply_well_formed.
Qed.

Lemma bytes_needed_frames fs : bytes_needed (map frame_of fs) = frames_size fs.
Proof. induction fs as [|f fs IH]; [reflexivity|]. change (bytes_needed (map frame_of (f :: fs))) with (10 + body_size f + bytes_needed (map frame_of fs)). now rewrite IH. Qed.

Lemma bytes_needed_nonneg fs : Forall sane fs -> 0 <= bytes_needed fs.
Proof. induction 1 as [|f fs (_ & S) _ IH]; [discriminate|]. cbn [bytes_needed fold_right]. fold (bytes_needed fs). lia. Qed.

(** ** Tags made from scratch *)

Lemma new_empty_has : tag_has ID3v2_Tag_new_empty [].
Proof. exists []. repeat split; constructor. Qed.

Definition indexed (e : edit) : bool := match e with RemoveNth _ _ => true | _ => false end.

Lemma room_never_grows es : forall fs, forallb (fun e => negb (indexed e)) es = true ->
  -10 * zlen es <= room_deltas es fs <= 0.
Proof.
  induction es as [|e es IH]; intros fs H; [cbn; lia|]. cbn [forallb room_deltas] in *.
  apply andb_true_iff in H. destruct H as [He H]. specialize (IH (apply_edit e fs) H). rewrite zlen_cons.
  assert (-10 <= room_delta e fs <= 0).
  { destruct e; try discriminate He; cbn [room_delta]; try lia. destruct (find _ fs); lia. }
  lia.
Qed.

Lemma room_from_scratch es : es <> [] -> forallb (fun e => negb (indexed e)) es = true -> all_allowed es [] = true ->
  -10 * zlen es <= room_deltas es [] <= -10.
Proof.
  destruct es as [|e es]; [congruence|]. intros _ H A. pose proof (room_never_grows (e :: es) [] H).
  cbn [forallb room_deltas all_allowed] in *.
  apply andb_true_iff in H. destruct H as [He H]. pose proof (room_never_grows es (apply_edit e []) H).
  assert (room_delta e [] = -10).
  { destruct e; try discriminate He; try reflexivity. cbn in A. discriminate A. }
  lia.
Qed.

Lemma scratch_overflows cs es :
  Forall2 means cs es -> es <> [] -> all_allowed es [] = true -> forallb (fun e => negb (indexed e)) es = true ->
  10 * zlen es < 2 ^ 31 -> bytes_needed (apply_edits es []) < 2 ^ 32 ->
  exists t, run_calls ID3v2_Tag_new_empty cs = Ok t
    /\ tag_has t (apply_edits es []) /\ exists u, Tag_to_char_stream t = Ub u.
Proof.
  intros F N A X L B.
  assert (Ws : Forall well_formed (apply_edits es [])) by (apply applies_well_formed; auto).
  destruct (edit_steps cs ID3v2_Tag_new_empty [] es new_empty_has (Forall_nil _)) as (t & E & T & S & H & _); auto.
  { cbn. lia. }
  exists t. split; [exact E|]. split; [exact T|].
  destruct (well_formed_fspecs _ Ws) as (fs & K & M). rewrite M in *. rewrite bytes_needed_frames in *.
  pose proof (frames_size_nonneg fs). pose proof (room_from_scratch es N X A) as R.
  change (bytes_needed []) with 0 in H.
  change (th_tag_size (t_header ID3v2_Tag_new_empty)) with 0 in H.
  set (n := (frames_size fs + (0 - 0) + room_deltas es []) mod 2 ^ 32) in *.
  change (t_header ID3v2_Tag_new_empty) with (mkTH (lit "ID3") x03 x00 x00 0 0) in H.
  unfold sized in H. cbn [th_identifier th_major th_minor th_flags th_ext_size] in H.
  pose proof (tag_write_iff t fs x03 x00 x00 n 0 T K H) as W.
  assert (0 <= n < 2 ^ 32) by (apply Z.mod_pos_bound; lia). specialize (W H1).
  replace ((frames_size fs <=? n) && (n + 10 <? 2 ^ 31)) with false in W; [exact W|].
  symmetry. apply andb_false_iff.
  destruct (Z.le_gt_cases 0 (frames_size fs + room_deltas es [])) as [G|G].
  - left. unfold n. rewrite Z.mod_small by lia. lia.
  - right. unfold n. rewrite <- (Zmod_unique (frames_size fs + (0 - 0) + room_deltas es []) (2 ^ 32) (-1) (frames_size fs + room_deltas es [] + 2 ^ 32)) by lia. lia.
Qed.
