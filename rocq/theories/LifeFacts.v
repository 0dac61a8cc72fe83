(** The life of a tagged file. *)
From Coq Require Import Permutation.
From Verif Require Import File Calls Spec SpecEdit SpecFile SpecSession SpecHole SpecTotal SpecSaves SpecLife.
From Verif Require Import BaseFacts EditFacts HistFacts ClaimFacts WriteFacts FileFacts SessionFacts HoleFacts TotalFacts SavesFacts.
From Coq Require Import Lia ZifyBool ZifyNat.

(** ** The frames stay such that they are kept *)

Definition kept (maj : byte) (f : frame) : Prop := exists g, survives maj g = true /\ f = frame_of g.

Lemma survives_ok maj f : survives maj f = true -> frame_ok f = true.
Proof. unfold survives. intros H. apply andb_prop in H. destruct H as [H _]. now apply andb_prop in H. Qed.

Lemma kept_list maj l : Forall (kept maj) l -> exists fs, l = map frame_of fs /\ Forall (fun f => survives maj f = true) fs.
Proof.
  induction 1 as [|f l (g & G & ->) _ (fs & -> & K)].
  - exists []. split; [reflexivity|constructor].
  - exists (g :: fs). split; [reflexivity|now constructor].
Qed.

Lemma list_kept maj fs : Forall (fun f => survives maj f = true) fs -> Forall (kept maj) (map frame_of fs).
Proof. intros K. apply Forall_map. eapply Forall_impl; [|exact K]. intros f F. now exists f. Qed.

Lemma kept_oks maj fs : Forall (fun f => survives maj f = true) fs -> oks fs.
Proof. intros K. eapply Forall_impl; [|exact K]. intros f. apply survives_ok. Qed.

Lemma keeps_ok maj es : forallb (edit_keeps maj) es = true -> forallb edit_ok es = true.
Proof.
  induction es as [|e es IH]; [reflexivity|]. cbn [forallb]. intros H. apply andb_prop in H. destruct H as (H & H').
  rewrite (IH H'), andb_true_r. destruct e; cbn [edit_keeps edit_ok] in *; try reflexivity; now apply (survives_ok maj).
Qed.

Lemma edit_shelf_kept maj e s s' :
  edit_keeps maj e = true -> Forall (kept maj) (held s) -> edit_shelf e s = Some s' -> Forall (kept maj) (held s').
Proof.
  intros K G E. apply shelf_perm in E. apply Permutation_sym in E.
  assert (H : Forall (kept maj) (put_in e ++ held s)).
  { apply Forall_app. split; [|exact G]. destruct e; cbn [put_in edit_keeps] in *; repeat constructor; eexists; split; eauto. }
  apply (Permutation_Forall E) in H. now apply Forall_app in H.
Qed.

Lemma kept_size maj f : kept maj f -> 0 <= fh_size (f_hdr f).
Proof. intros (g & _ & ->). apply body_size_nonneg. Qed.

Lemma opt_size_nonneg maj l o : Forall (kept maj) l -> (forall f, o = Some f -> In f l) -> 0 <= size_of_opt o.
Proof.
  intros K I. destruct o as [f|]; cbn [size_of_opt]; [|lia]. apply (kept_size maj). rewrite Forall_forall in K. now apply K, I.
Qed.

Lemma victim_in e l f : victim e l = Some f -> In f l.
Proof.
  unfold victim. destruct (victim_pos e l) as [n|]; [|discriminate]. apply nth_error_In.
Qed.

Lemma delta_growth maj e s : Forall (kept maj) (held s) -> size_delta e (seen s) <= edit_growth e.
Proof.
  intros K. apply Forall_app in K. destruct K as (K & _). destruct e; cbn [size_delta edit_growth]; try lia.
  - enough (0 <= size_of_opt (find (named (frame_id f)) (seen s))) by lia.
    apply (opt_size_nonneg maj (seen s)); [exact K|]. intros g F. now apply find_some in F.
  - enough (0 <= size_of_opt (victim (Remove id) (seen s))) by lia.
    apply (opt_size_nonneg maj (seen s)); [exact K|]. intros g F. now apply victim_in in F.
Qed.

Lemma needed_app a b : bytes_needed (a ++ b) = bytes_needed a + bytes_needed b.
Proof. induction a as [|f a IH]; [reflexivity|]. cbn [app]. unfold bytes_needed in *. cbn [fold_right]. lia. Qed.

Lemma needed_perm a b : Permutation a b -> bytes_needed a = bytes_needed b.
Proof. unfold bytes_needed. induction 1; cbn [fold_right] in *; lia. Qed.

Lemma needed_kept maj l : Forall (kept maj) l -> 0 <= bytes_needed l.
Proof.
  unfold bytes_needed. induction 1 as [|f l K _ IH]; cbn [fold_right]; [lia|]. pose proof (kept_size maj f K). lia.
Qed.

Lemma needed_one g : bytes_needed [g] = 10 + fh_size (f_hdr g).
Proof. unfold bytes_needed. cbn [fold_right]. lia. Qed.

Lemma delta_least maj e s s' : Forall (kept maj) (held s) -> edit_shelf e s = Some s' ->
  bytes_needed (held s') - bytes_needed (held s) - edit_growth e <= size_delta e (seen s).
Proof.
  intros K E. pose proof (needed_perm _ _ (shelf_perm _ _ _ E)) as P. rewrite !needed_app in P.
  apply Forall_app in K. destruct K as (K & _).
  assert (O : forall o, (forall f, o = Some f -> In f (seen s)) -> 0 <= size_of_opt o) by (intros o; now apply (opt_size_nonneg maj)).
  destruct e as [f|f|id|id i]; cbn [size_delta edit_growth put_in edit_shelf] in *; unfold taken_out in P.
  - pose proof (O (find (named (frame_id f)) (seen s))) as Q. specialize (Q (fun g F => proj1 (find_some _ _ F))).
    pose proof (body_size_nonneg f).
    destruct (find (named (frame_id f)) (seen s)); cbn [size_of_opt] in *;
      rewrite ?needed_one in P; change (bytes_needed []) with 0 in P; change (fh_size (f_hdr (frame_of f))) with (body_size f) in P; lia.
  - pose proof (body_size_nonneg f). change (victim (Append f) (seen s)) with (@None frame) in P. cbn beta iota in P. rewrite ?needed_one in P; change (bytes_needed []) with 0 in P; change (fh_size (f_hdr (frame_of f))) with (body_size f) in P; lia.
  - pose proof (O (victim (Remove id) (seen s)) (fun g => victim_in _ _ g)) as Q.
    destruct (victim (Remove id) (seen s)) as [g|] eqn:Vi; cbn [size_of_opt] in *.
    + rewrite ?needed_one in P. change (bytes_needed []) with 0 in P. lia.
    + exfalso. unfold victim in Vi. destruct (victim_pos (Remove id) (seen s)) as [k|] eqn:Vp; [|discriminate E].
      apply nth_error_None in Vi. cbn [victim_pos] in Vp. clear - Vp Vi. revert k Vp Vi. generalize (seen s) as l.
      induction l as [|h l IH]; intros k Vp Vi; cbn [first_pos] in Vp; [discriminate Vp|].
      destruct (named id h); [injection Vp as <-; cbn [length] in Vi; lia|].
      destruct (first_pos (named id) l) as [j|] eqn:J; [|discriminate Vp]. injection Vp as <-. cbn [length] in Vi.
      apply (IH j eq_refl). lia.
  - pose proof (O (victim (RemoveNth id i) (seen s)) (fun g => victim_in _ _ g)) as Q.
    destruct (victim (RemoveNth id i) (seen s)) as [g|]; cbn [size_of_opt] in *;
      rewrite ?needed_one in P; change (bytes_needed []) with 0 in P; lia.
Qed.

Lemma edit_shelves_kept maj es : forall s s' d,
  forallb (edit_keeps maj) es = true -> Forall (kept maj) (held s) -> edit_shelves es s = Some (s', d) ->
  Forall (kept maj) (held s') /\ bytes_needed (held s') - bytes_needed (held s) - edits_growth es <= d <= edits_growth es.
Proof.
  induction es as [|e es IH]; intros s s' d K G E; cbn [edit_shelves forallb] in *.
  - injection E as <- <-. split; [exact G|]. cbn. lia.
  - apply andb_prop in K. destruct K as (K & K'). destruct (edit_shelf e s) as [s1|] eqn:E1; [|discriminate E].
    destruct (edit_shelves es s1) as [[s2 d2]|] eqn:E2; [|discriminate E]. injection E as <- <-.
    destruct (IH s1 s2 d2 K') as (G2 & D2); [now apply (edit_shelf_kept maj e s)|exact E2|].
    split; [exact G2|]. cbn [fst snd]. pose proof (delta_growth maj e s G). pose proof (delta_least maj e s s1 G E1).
    change (edits_growth (e :: es)) with (edit_growth e + edits_growth es). lia.
Qed.

Lemma growth_nonneg es : 0 <= edits_growth es.
Proof.
  induction es as [|e es IH]; [cbn; lia|]. change (edits_growth (e :: es)) with (edit_growth e + edits_growth es).
  destruct e; cbn [edit_growth]; try pose proof (body_size_nonneg f); lia.
Qed.

Lemma growths_nonneg ws : 0 <= growth ws.
Proof.
  induction ws as [|w ws IH]; [cbn; lia|].
  change (growth (w :: ws)) with (match w with Edit es => edits_growth es | Strip => 0 end + growth ws).
  destruct w as [es|]; [pose proof (growth_nonneg es)|]; lia.
Qed.

(** ** One session *)

Lemma held_whole fs : held (whole fs) = fs.
Proof. unfold held, whole. cbn [seen behind]. destruct fs; [reflexivity|apply app_nil_r]. Qed.

Lemma visit content major minor flags fs pad sound cs es :
  holds content major minor flags fs pad sound -> Forall (fun f => survives major f = true) fs ->
  0 <= pad -> frames_size fs + pad < 2 ^ 28 ->
  Forall2 means cs es -> forallb (edit_keeps major) es = true ->
  match edit_shelves es (whole (map frame_of fs)) with
  | None => run_session cs (Some content) = Ub NullDeref
  | Some (s, d) =>
      let n := (frames_size fs + pad + d) mod 2 ^ 32 in
      exists fs', seen s = map frame_of fs' /\ Forall (fun f => survives major f = true) fs' /\ - frames_size fs - edits_growth es <= d <= edits_growth es
        /\ match save_ending fs' (has_hole s) n with
           | Saved gs => exists f, run_session cs (Some content) = Ok f /\ written major minor flags n gs sound f
           | Exits => run_session cs (Some content) = Exit 1
           | Undefined => exists u, run_session cs (Some content) = Ub u
           end
  end.
Proof.
  intros (Xc & Au & t & Et & Ht & Tt & Pt) Sv P B M Ke. pose proof (frames_size_nonneg fs).
  pose proof (kept_oks major fs Sv) as Ko. pose proof (keeps_ok major es Ke) as A.
  pose proof (held_whole (map frame_of fs)) as Hw.
  assert (G : Forall (kept major) (held (whole (map frame_of fs)))) by (rewrite Hw; now apply list_kept).
  assert (Sa : Forall sane (held (whole (map frame_of fs)))) by (rewrite Hw; apply well_formed_sane, fspecs_well_formed; auto).
  assert (Rt : 0 <= th_tag_size (t_header t) < 2 ^ 32) by (rewrite Ht; cbn [th_tag_size]; change (2 ^ 32) with 4294967296; change (2 ^ 28) with 268435456 in B; lia).
  apply whole_has in Tt.
  pose proof (any_history cs t _ es Tt Sa Rt M A) as R.
  destruct (edit_shelves es (whole (map frame_of fs))) as [[s d]|] eqn:E.
  2:{ unfold run_session. rewrite Et. go. now rewrite R. }
  destruct R as (t' & Er & T' & H' & P'). intros n.
  destruct (edit_shelves_kept major es _ _ _ Ke G E) as (G' & D). pose proof G' as Gh.
  apply Forall_app in G'. destruct G' as (G' & _). destruct (kept_list _ _ G') as (fs' & Q & K').
  exists fs'. split; [exact Q|]. split; [exact K'|].
  split. { rewrite Hw, bytes_needed_frames in D. pose proof (needed_kept major (held s) Gh). lia. }
  assert (Hn : t_header t' = mkTH (lit "ID3") major minor flags n 0).
  { rewrite H', Ht. reflexivity. }
  assert (Rn : 0 <= n < 2 ^ 32) by (apply Z.mod_pos_bound; reflexivity).
  assert (Pp : 2048 - 2 ^ 31 < t_padding t' < 2 ^ 31) by (rewrite P', Pt; change (2 ^ 31) with 2147483648; change (2 ^ 28) with 268435456 in B; lia).
  pose proof (save_total content t' s fs' major minor flags n 0 T' Q (kept_oks _ _ K') Hn Rn Xc Pp) as W. rewrite Au in W.
  unfold run_session. rewrite Et. go. rewrite Er. go.
  destruct (save_ending fs' (has_hole s) n) as [gs| |].
  - destruct W as (f & -> & W). exists f. split; [reflexivity|exact W].
  - now rewrite W.
  - destruct W as (u & ->). now exists u.
Qed.

(** ** All of them *)

Lemma bare_life sound : no_tag sound -> forall steps ws, Forall2 asks steps ws ->
  run_life steps (Some sound) = Ok (Some sound) /\ life ws None = Lives None.
Proof.
  intros N steps ws H. induction H as [|st w steps ws A H IH]; [split; reflexivity|].
  destruct st as [cs|]; destruct w as [es|]; cbn [asks] in A; try easy; cbn [run_life life].
  - unfold run_session. rewrite read_untagged by exact N. exact IH.
  - rewrite delete_file, no_tag_audio by (auto using no_tag_not_extended). exact IH.
Qed.

Lemma whole_life major minor flags sound :
  known_version major = true -> has_extended_header flags = false -> no_tag sound ->
  forall steps ws, Forall2 asks steps ws -> forallb (wish_keeps major) ws = true ->
  forall fs n, Forall (fun f => survives major f = true) fs -> frames_size fs <= n -> n + growth ws < 2 ^ 28 ->
  match life ws (Some (map frame_of fs, n)) with
  | Lives (Some (gs, m)) => exists fs', gs = map frame_of fs' /\ Forall (fun f => survives major f = true) fs'
      /\ frames_size fs' <= m < 2 ^ 28
      /\ run_life steps (Some (tag_bytes major minor flags n fs ++ sound)) = Ok (Some (tag_bytes major minor flags m fs' ++ sound))
  | Lives None => run_life steps (Some (tag_bytes major minor flags n fs ++ sound)) = Ok (Some sound)
  | Quits => run_life steps (Some (tag_bytes major minor flags n fs ++ sound)) = Exit 1
  | Breaks => exists u, run_life steps (Some (tag_bytes major minor flags n fs ++ sound)) = Ub u
  end.
Proof.
  intros V X N steps ws H. induction H as [|st w steps ws A H IH]; intros K fs n S L B.
  - cbn [life run_life]. exists fs. change (growth []) with 0 in B. repeat split; auto. lia.
  - cbn [forallb] in K. apply andb_prop in K. destruct K as (Kw & K).
    change (growth (w :: ws)) with (match w with Edit es => edits_growth es | Strip => 0 end + growth ws) in B.
    pose proof (growths_nonneg ws) as Gn. pose proof (frames_size_nonneg fs) as Fn.
    destruct st as [cs|]; destruct w as [es|]; cbn [asks] in A; try easy; cbn [run_life life].
    + pose proof (growth_nonneg es) as Ge.
      assert (Hh : holds (tag_bytes major minor flags n fs ++ sound) major minor flags fs (n - frames_size fs) sound).
      { replace n with (frames_size fs + (n - frames_size fs)) at 1 by lia. apply written_holds; auto; lia. }
      pose proof (visit _ major minor flags fs (n - frames_size fs) sound cs es Hh S ltac:(lia) ltac:(lia) A Kw) as W.
      replace (frames_size fs + (n - frames_size fs)) with n in W by lia.
      destruct (edit_shelves es (whole (map frame_of fs))) as [[s d]|].
      2:{ exists NullDeref. now rewrite W. }
      cbv zeta in *. set (m := (n + d) mod 2 ^ 32) in *. destruct W as (fs' & Q & S' & D & W).
      assert (Bn : bytes_needed (seen s) = frames_size fs') by (rewrite Q; apply bytes_needed_frames).
      rewrite Bn. unfold save_ending in W.
      destruct ((frames_size fs' <=? m) && (m + 10 <? 2 ^ 31)) eqn:F.
      2:{ destruct W as (u & W). exists u. now rewrite W. }
      assert (Case : (seen s = [] \/ has_hole s = false)
                \/ (exists f l, seen s = f :: l /\ has_hole s = true)).
      { destruct (seen s) as [|f l]; [auto|]. destruct (has_hole s); eauto 6. }
      destruct Case as [C|(f & l & C1 & C2)].
      * assert (E1 : (match seen s, has_hole s with _ :: _, true => Quits | gs, _ => life ws (Some (gs, m)) end)
                     = life ws (Some (map frame_of fs', m))).
        { rewrite Q. destruct C as [C|C]; [rewrite Q in C; rewrite C; reflexivity|rewrite C; now destruct (map frame_of fs')]. }
        rewrite E1.
        assert (E2 : exists f, run_session cs (Some (tag_bytes major minor flags n fs ++ sound)) = Ok f
                       /\ written major minor flags m fs' sound f).
        { destruct fs' as [|g fs']; [exact W|]. destruct C as [C|C]; [rewrite Q in C; discriminate C|]. rewrite C in W. exact W. }
        destruct E2 as (f & E2 & size & Sl & Sz & E3).
        assert (m = n + d) as Em.
        { apply andb_prop in F. change (2 ^ 32) with 4294967296 in *. change (2 ^ 31) with 2147483648 in *. change (2 ^ 28) with 268435456 in *. pose proof (Z.div_mod (n + d) 4294967296). fold m in H0.
          pose proof (Z.mod_pos_bound (n + d) 4294967296). fold m in H1. lia. }
        assert (Lm : frames_size fs' <= m < 2 ^ 28) by (apply andb_prop in F; lia).
        rewrite Sz in E3 by lia.
        replace (lit "ID3" ++ [major; minor; flags] ++ synchsafe32 m ++ images be32 fs' ++ zeros (m - frames_size fs') ++ sound)
          with (tag_bytes major minor flags m fs' ++ sound) in E3.
        2:{ unfold tag_bytes, header_image. now rewrite <- !app_assoc. }
        rewrite E2, E3. cbn [bind]. apply IH; auto; lia.
      * rewrite C1, C2. rewrite Q in C1. destruct fs' as [|g fs']; [discriminate C1|]. rewrite C2 in W. now rewrite W.
    + destruct (written_file major minor flags n fs sound V X (kept_oks _ _ S) L ltac:(lia)) as (P & _ & Au). cbv zeta in *.
      rewrite delete_file, Au by exact P. cbn [bind].
      destruct (bare_life sound N steps ws H) as (E1 & ->). exact E1.
Qed.
