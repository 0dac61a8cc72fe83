(** Files that are edited through both interfaces in turn. *)
From Verif Require Import File Calls Spec SpecEdit SpecFile Compat SpecCompat SpecSession SpecHole SpecTotal SpecSaves SpecLife SpecBoth.
From Verif Require Import BaseFacts ListFacts EditFacts HistFacts ClaimFacts WriteFacts FileFacts CompatFacts SessionFacts CompatSessionFacts HoleFacts TotalFacts SavesFacts LifeFacts Race RaceFacts.
From Coq Require Import Lia ZifyBool ZifyNat.

Lemma set_old ccs : forall c fs gs fs',
  mirrors c fs -> Forall2 cmeans ccs gs -> put_frames gs fs = Some fs' ->
  exists c' cs, run_ccalls ccs c = Ok c' /\ mirrors c' fs' /\ ct_raw c' = ct_raw c
    /\ Forall2 means cs (map Put gs) /\ run_calls (ct_tag c) cs = Ok (ct_tag c').
Proof.
  induction ccs as [|cc ccs IH]; intros c fs gs fs' M F P; inversion F as [|? g ? gs' C F']; subst.
  - injection P as <-. exists c, []. cbn. auto.
  - cbn [put_frames] in P. destruct (frame_ok g && existsb (has_id (frame_id g)) fs) eqn:E; [|discriminate P].
    apply andb_true_iff in E. destruct E as (K & E).
    destruct M as (afs & M & <-). rewrite has_phas in E. pose proof (set_mirrored c afs cc g M C K) as H. rewrite E in H.
    destruct H as (c1 & R & M1 & Hr & _ & Rc).
    assert (Ms : mirrors c1 (put_frame g (map snd afs))).
    { eexists. split; [exact M1|]. unfold put_frame. apply map_snd_put. }
    destruct (IH c1 _ _ _ Ms F' P) as (c2 & cs & R2 & M2 & Hr2 & Fm & Rc2).
    exists c2, (call_of cc g :: cs). cbn [run_ccalls run_calls map]. rewrite R, Rc. cbn [bind].
    split; [exact R2|]. split; [exact M2|]. split; [congruence|]. split; [|exact Rc2].
    constructor; [now apply cmeans_means|exact Fm].
Qed.

Lemma load_raw f c : load_tag f = Ok c -> exists raw, ct_raw c = Some raw.
Proof.
  unfold load_tag, load_tag_with_buffer.
  destruct (ID3v2_read_tag_header f) as [[h|]| | |]; try discriminate. cbn [bind deref].
  destruct f as [content|]; [|discriminate]. cbn [bind deref].
  destruct (ID3v2_read_tag_from_buffer _ _) as [t| | |]; try discriminate. cbn [bind].
  destruct (memcpy_from _ _) as [raw| | |]; try discriminate. cbn [bind].
  destruct t as [t|]; [|discriminate]. cbn [bind deref].
  destruct (load_frames _ _) as [l| | |]; try discriminate. cbn [bind]. intros H. injection H as <-. now exists raw.
Qed.

Lemma id_bytes_of f : id_bytes (frame_of f) = frame_id f.
Proof. unfold id_bytes. destruct f; cbn [frame_of f_hdr fh_id frame_id]; unfold cells; rewrite map_map, map_id; reflexivity. Qed.

Lemma there_frames id fs : existsb (named id) (map frame_of fs) = existsb (has_id id) fs.
Proof.
  induction fs as [|f fs IH]; [reflexivity|]. cbn [map existsb]. rewrite IH. f_equal.
  unfold named, has_id. f_equal. apply id_bytes_of.
Qed.

Lemma same_id_trans a b c : same_id a b = true -> same_id a c = same_id b c.
Proof.
  unfold same_id. intros H. destruct (bytes_eqb_spec (id_key a) (id_key b)) as [->|]; [reflexivity|discriminate H].
Qed.

Lemma there_put g id fs : existsb (has_id (frame_id g)) fs = true ->
  existsb (has_id id) (put_frame g fs) = existsb (has_id id) fs.
Proof.
  unfold put_frame. induction fs as [|f fs IH]; [discriminate|]. cbn [existsb put].
  destruct (has_id (frame_id g) f) eqn:E; cbn [existsb].
  - intros _. f_equal. unfold has_id in *. symmetry. now apply same_id_trans.
  - cbn [orb]. intros H. now rewrite IH.
Qed.

Lemma there_puts gs : forall fs, forallb frame_ok gs = true ->
  match put_frames gs fs with Some _ => true | None => false end = all_there gs (map frame_of fs).
Proof.
  induction gs as [|g gs IH]; intros fs K; [reflexivity|]. cbn [forallb put_frames] in *. apply andb_prop in K. destruct K as (K & Ks).
  unfold all_there in *. cbn [forallb]. rewrite K, there_frames. cbn [andb].
  destruct (existsb (has_id (frame_id g)) fs) eqn:E; [|reflexivity]. rewrite IH by exact Ks. cbn [andb].
  clear - E. induction gs as [|g' gs IH]; [reflexivity|]. cbn [forallb]. rewrite IH, !there_frames, there_put by exact E. reflexivity.
Qed.

Lemma write_keeps f t f' v : ID3v2_write_tag f (Some t) = Ok (f', v) ->
  exists t', v = Some t' /\ t_frames t' = t_frames t /\ t_fresh t' = t_fresh t.
Proof.
  rewrite write_alone. unfold ID3v2_write_tag_r, fetch.
  destruct (look f) as [k| | |]; try discriminate. cbn [bind].
  destruct (isub _ _) as [d| | |]; try discriminate. cbn [bind].
  destruct (iadd _ _) as [p| | |]; try discriminate. cbn [bind].
  destruct (Tag_to_char_stream _) as [cs| | |]; try discriminate. cbn [bind].
  destruct (fwrite_bytes _) as [bytes| | |]; try discriminate. cbn [bind].
  destruct f as [content|]; [|discriminate]. cbn [bind]. intros H. injection H as _ <-. eexists. split; [reflexivity|]. split; reflexivity.
Qed.

(** On any file in which well formed frames are seen, the old interface does
    what the new one does with the same frames, if they are there. *)
Lemma old_is_new f t fs ccs gs :
  ID3v2_read_tag f = Ok (Some t) -> tag_has t (map frame_of fs) -> Forall (fun f => frame_ok f = true) fs ->
  Forall2 cmeans ccs gs -> forallb frame_ok gs = true ->
  if negb (length fs =? 0)%nat && all_there gs (map frame_of fs)
  then exists cs, Forall2 means cs (map Put gs) /\ run_old ccs f = run_session cs f
  else run_old ccs f = Ub NullDeref.
Proof.
  intros E T K F Kg. pose proof (load_file_gen f t fs E T K) as G. unfold run_old.
  destruct fs as [|f0 fs0]; [cbn [length Nat.eqb negb andb]; now rewrite G|].
  cbn [length Nat.eqb negb andb]. set (fs := f0 :: fs0) in *.
  destruct G as (c & Ec & Tc & M & _). rewrite Ec. cbn [bind].
  rewrite <- there_puts by exact Kg. destruct (put_frames gs fs) as [fs'|] eqn:P.
  - destruct (set_old ccs c fs gs fs' M F P) as (c' & cs & R & M' & Hr & Fm & Rc).
    exists cs. split; [exact Fm|]. rewrite R. cbn [bind]. unfold run_session. rewrite E. cbn [bind]. rewrite <- Tc, Rc. cbn [bind].
    unfold set_tag. cbn [deref bind].
    destruct (ID3v2_write_tag f (Some (ct_tag c'))) as [[f' v]| | |] eqn:W; try reflexivity.
    destruct (write_keeps _ _ _ _ W) as (inner & -> & Wf & Wn).
    cbn [bind deref]. destruct (load_raw _ _ Ec) as (raw & Er).
      rewrite (free_loaded _ fs' raw); [reflexivity| | |].
      * destruct M' as (afs & (H1 & H2 & H3 & H4 & H5) & Hs). exists afs. split; [|exact Hs].
        split; [cbn [ct_tag]; now rewrite Wf|]. split; [exact H2|]. split; [exact H3|]. split; [cbn [ct_tag]; now rewrite Wn|exact H5].
      * apply (put_frames_some gs fs); [discriminate|exact P].
      * cbn [ct_raw]. congruence.
  - now rewrite (put_frames_none ccs c fs gs).
Qed.

(** ** All steps *)

Lemma load_bare sound : no_tag sound -> load_tag (Some sound) = Ub NullDeref.
Proof.
  intros N. unfold load_tag. destruct (file_header sound (no_tag_not_extended _ N)) as (h & E & H). rewrite E. cbn [bind].
  destruct h as [h|]; [|reflexivity]. destruct H as (H & _). unfold no_tag in N. congruence.
Qed.

Lemma bare_both sound : no_tag sound -> forall steps ws, Forall2 any_asks steps ws ->
  match both_fate ws None with
  | Lives None => run_both steps (Some sound) = Ok (Some sound)
  | Breaks => run_both steps (Some sound) = Ub NullDeref
  | _ => False
  end.
Proof.
  intros N steps ws H. induction H as [|st w steps ws A H IH]; [reflexivity|].
  destruct st as [s|ccs|]; destruct w as [w|gs|]; cbn [any_asks] in A; try easy; cbn [run_both both_fate one_fate].
  - destruct (bare_life sound N [s] [w] ltac:(repeat constructor; exact A)) as (E1 & E2). rewrite E1, E2. exact IH.
  - unfold run_old. now rewrite load_bare.
  - unfold remove_tag. rewrite delete_file, no_tag_audio by (auto using no_tag_not_extended). exact IH.
Qed.

Lemma life_bound major es fs n gs m : forallb (edit_keeps major) es = true ->
  Forall (fun f => survives major f = true) fs -> frames_size fs <= n -> n + edits_growth es < 2 ^ 28 ->
  life [Edit es] (Some (map frame_of fs, n)) = Lives (Some (gs, m)) -> m <= n + edits_growth es.
Proof.
  intros Ke Sv L B. cbn [life]. pose proof (held_whole (map frame_of fs)) as Hw.
  assert (G : Forall (kept major) (held (whole (map frame_of fs)))) by (rewrite Hw; now apply list_kept).
  destruct (edit_shelves es (whole (map frame_of fs))) as [[s d]|] eqn:E; [|discriminate].
  destruct (edit_shelves_kept major es _ _ _ Ke G E) as (G' & D).
  rewrite Hw, bytes_needed_frames in D. pose proof (needed_kept major (held s) G'). pose proof (growth_nonneg es).
  pose proof (frames_size_nonneg fs).
  cbv zeta. set (k := (n + d) mod 2 ^ 32). intros H2.
  destruct ((bytes_needed (seen s) <=? k) && (k + 10 <? 2 ^ 31)) eqn:F; [|discriminate H2].
  assert (k = m) as <-.
  { destruct (seen s), (has_hole s); try discriminate H2; now injection H2. }
  clear H2. apply andb_prop in F. change (2 ^ 32) with 4294967296 in *. change (2 ^ 31) with 2147483648 in *. change (2 ^ 28) with 268435456 in *.
  pose proof (Z.div_mod (n + d) 4294967296) as Q1. fold k in Q1. pose proof (Z.mod_pos_bound (n + d) 4294967296) as Q2. fold k in Q2. lia.
Qed.

Lemma puts_keep major gs : forallb (edit_keeps major) (map Put gs) = true -> forallb frame_ok gs = true.
Proof.
  induction gs as [|g gs IH]; [reflexivity|]. cbn [map forallb edit_keeps]. intros H. apply andb_prop in H. destruct H as (H & H').
  now rewrite (survives_ok _ _ H), IH.
Qed.

Definition ends (major minor flags : byte) (sound : list byte) (r : outcome file) (x : fate) : Prop :=
  match x with
  | Lives (Some (gs, m)) => exists fs', gs = map frame_of fs' /\ Forall (fun f => survives major f = true) fs'
      /\ frames_size fs' <= m < 2 ^ 28 /\ r = Ok (Some (tag_bytes major minor flags m fs' ++ sound))
  | Lives None => r = Ok (Some sound)
  | Quits => r = Exit 1
  | Breaks => exists u, r = Ub u
  end.

Definition run_one (s : any_step) (f : file) : outcome file :=
  match s with New s => run_life [s] f | Old ccs => run_old ccs f | OldErase => remove_tag f end.

Lemma run_both_cons s steps f : run_both (s :: steps) f = let* f := run_one s f in run_both steps f.
Proof. destruct s; reflexivity. Qed.

Lemma one_ends major minor flags sound :
  known_version major = true -> has_extended_header flags = false -> no_tag sound ->
  forall st w, any_asks st w -> wish_keeps major (as_wish w) = true ->
  forall fs n, Forall (fun f => survives major f = true) fs -> frames_size fs <= n -> n + growth [as_wish w] < 2 ^ 28 ->
  ends major minor flags sound (run_one st (Some (tag_bytes major minor flags n fs ++ sound))) (one_fate w (Some (map frame_of fs, n))).
Proof.
  intros V X N st w A Kw fs n S L B.
  assert (Go : forall s w', asks s w' -> as_wish w = w' -> ends major minor flags sound
     (run_life [s] (Some (tag_bytes major minor flags n fs ++ sound))) (life [w'] (Some (map frame_of fs, n)))).
  { intros s w' A' <-. unfold ends. apply (whole_life major minor flags sound V X N [s] [as_wish w]); auto.
    cbn [forallb]. now rewrite Kw. }
  destruct st as [s|ccs|]; destruct w as [w|gs|]; cbn [any_asks] in A; try easy; cbn [run_one one_fate as_wish] in *.
  - now apply Go.
  - change (growth [Edit (map Put gs)]) with (edits_growth (map Put gs) + 0) in B. pose proof (growth_nonneg (map Put gs)).
    pose proof (frames_size_nonneg fs).
    assert (Hh : holds (tag_bytes major minor flags n fs ++ sound) major minor flags fs (n - frames_size fs) sound).
    { replace n with (frames_size fs + (n - frames_size fs)) at 1 by lia. apply written_holds; auto; lia. }
    destruct Hh as (_ & _ & t & Et & _ & Tt & _).
    pose proof (old_is_new _ t fs ccs gs Et Tt (kept_oks _ _ S) A (puts_keep major gs Kw)) as R.
    destruct fs as [|f0 fs0]; [cbn in R |- *; eauto|]. cbn [length Nat.eqb negb andb] in R.
    cbn [map] in *. destruct (all_there gs _); [|cbn; eauto].
    destruct R as (cs & M & R). rewrite R.
    specialize (Go (Visit cs) (Edit (map Put gs)) M eq_refl). cbn [run_life] in Go.
    replace (let* f := run_session cs _ in Ok f) with (run_session cs (Some (tag_bytes major minor flags n (f0 :: fs0) ++ sound))) in Go
      by (destruct (run_session cs _); reflexivity).
    exact Go.
  - specialize (Go Erase Strip I eq_refl). cbn [run_life] in Go. unfold remove_tag.
    destruct (ID3v2_delete_tag _); exact Go.
Qed.

Lemma both_life major minor flags sound :
  known_version major = true -> has_extended_header flags = false -> no_tag sound ->
  forall steps ws, Forall2 any_asks steps ws -> forallb (wish_keeps major) (map as_wish ws) = true ->
  forall fs n, Forall (fun f => survives major f = true) fs -> frames_size fs <= n -> n + growth (map as_wish ws) < 2 ^ 28 ->
  match both_fate ws (Some (map frame_of fs, n)) with
  | Lives (Some (gs, m)) => exists fs', gs = map frame_of fs' /\ Forall (fun f => survives major f = true) fs'
      /\ frames_size fs' <= m < 2 ^ 28
      /\ run_both steps (Some (tag_bytes major minor flags n fs ++ sound)) = Ok (Some (tag_bytes major minor flags m fs' ++ sound))
  | Lives None => run_both steps (Some (tag_bytes major minor flags n fs ++ sound)) = Ok (Some sound)
  | Quits => run_both steps (Some (tag_bytes major minor flags n fs ++ sound)) = Exit 1
  | Breaks => exists u, run_both steps (Some (tag_bytes major minor flags n fs ++ sound)) = Ub u
  end.
Proof.
  intros V X N steps ws H. induction H as [|st w steps ws A H IH]; intros K fs n S L B.
  - cbn [both_fate run_both]. exists fs. change (growth (map as_wish [])) with 0 in B. repeat split; auto. lia.
  - cbn [map forallb] in K. apply andb_prop in K. destruct K as (Kw & K).
    change (growth (map as_wish (w :: ws))) with (match as_wish w with Edit es => edits_growth es | Strip => 0 end + growth (map as_wish ws)) in B.
    assert (G1 : growth [as_wish w] = match as_wish w with Edit es => edits_growth es | Strip => 0 end) by (unfold growth; cbn [fold_right]; lia).
    pose proof (growths_nonneg (map as_wish ws)) as Gn. rewrite run_both_cons. cbn [both_fate].
    pose proof (one_ends major minor flags sound V X N st w A Kw fs n S L ltac:(lia)) as O.
    assert (Bd : forall gs m, one_fate w (Some (map frame_of fs, n)) = Lives (Some (gs, m)) -> m <= n + growth [as_wish w]).
    { intros gs m E. destruct w as [[es|]|gs0|]; cbn [one_fate as_wish wish_keeps] in *; try (cbn in E; discriminate E).
      - rewrite G1. apply (life_bound major es fs n gs m); auto. lia.
      - destruct (map frame_of fs) as [|f0 l0] eqn:Ef; [discriminate E|]. destruct (all_there gs0 (f0 :: l0)); [|discriminate E].
        rewrite <- Ef in E. rewrite G1. apply (life_bound major (map Put gs0) fs n gs m); auto. lia. }
    destruct (one_fate w (Some (map frame_of fs, n))) as [[[gs m]|]| |] eqn:E; cbn [ends] in O.
    + destruct O as (fs1 & -> & S1 & L1 & ->). cbn [bind]. specialize (Bd _ m eq_refl). apply IH; auto; lia.
    + rewrite O. cbn [bind]. pose proof (bare_both sound N steps ws H) as Q.
      destruct (both_fate ws None) as [[[? ?]|]| |]; try contradiction; [exact Q|now exists NullDeref].
    + now rewrite O.
    + destruct O as (u & ->). now exists u.
Qed.
