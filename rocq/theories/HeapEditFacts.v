(** The heap over histories of edits that are given by their meaning. *)
From Verif Require Import File Calls Spec SpecEdit HistFacts Heap SpecHeap HeapFacts HeapFrameFacts HeapListFacts HeapTagFacts HeapLifeFacts.

Lemma begins_cells a b : length a = 4%nat -> length b = 4%nat -> begins (cells a) b = true <-> cells a = cells b.
Proof.
  assert (B : forall x y, beq x y = true <-> x = y) by apply beq_true.
  do 5 (destruct a as [|? a]; try discriminate). do 5 (destruct b as [|? b]; try discriminate). intros _ _.
  cbn [cells map begins]. rewrite !andb_true_iff, !B. split; [intuition congruence|]. intros E. injection E as -> -> -> ->. tauto.
Qed.

Lemma named_begins (id : string) f : length (lit id) = 4%nat -> forallb (fun c => negb (is_zero c)) (lit id) = true ->
  sane f -> begins (fh_id (f_hdr f)) (lit id) = named (lit id) f.
Proof.
  intros L N S. pose proof (named_exact (lit id) f S L N) as X. destruct S as ((i & Hi & Li) & _). rewrite Hi in *.
  pose proof (begins_cells i (lit id) Li L). apply eq_true_iff_eq. tauto.
Qed.

Lemma visible_list_of ps : visible (list_of ps) = map fp_frame ps.
Proof.
  destruct ps as [|p ps]; [reflexivity|]. rewrite list_of_nodes by discriminate.
  induction (p :: ps) as [|q l IH]; [reflexivity|]. cbn [nodes map visible fnode n_frame]. now rewrite <- IH.
Qed.

Lemma count_named_has t fs (id : string) : length (lit id) = 4%nat -> forallb (fun c => negb (is_zero c)) (lit id) = true ->
  tag_has t fs -> Forall sane fs -> count_named id (t_frames t) = length (filter (named (lit id)) fs).
Proof.
  intros L N (ps & -> & <- & _) S. unfold count_named. rewrite visible_list_of. f_equal. apply filter_ext_in.
  intros f If. apply named_begins; auto. eapply Forall_forall in S; eauto.
Qed.

Lemma well_formed_kind f : well_formed f -> kind_ok f.
Proof.
  intros (g & K & ->). unfold frame_ok in K. rewrite !andb_true_iff in K. destruct K as (((L & _) & _) & K).
  destruct g as [id fl t|fl la d c|fl m ty d pic|id fl b]; cbn [frame_id] in L; unfold kind_ok, frame_of; cbn [f_hdr fh_id f_data frame_id].
  - destruct id as [|x id]; [discriminate L|]. exists x, (cells id). split; [reflexivity|].
    apply andb_true_iff in K as (K & _). unfold id_starts in K. now apply Byte.byte_dec_bl.
  - eexists _, _. split; reflexivity.
  - eexists _, _. split; reflexivity.
  - destruct id as [|x id]; [discriminate L|]. exists x, (cells id). split; [reflexivity|].
    rewrite !andb_true_iff, !negb_true_iff in K. destruct K as (((K1 & K2) & K3) & _). unfold id_starts in *.
    repeat split; intros ->; discriminate.
Qed.

Lemma kinds_has t fs : tag_has t fs -> Forall kind_ok fs -> kinds_ok (t_frames t).
Proof.
  intros (ps & -> & <- & _) K. rewrite Forall_map in K. destruct ps as [|p ps]; [repeat constructor|].
  rewrite list_of_nodes by discriminate. unfold kinds_ok, nodes. rewrite Forall_map. exact K.
Qed.

Lemma list_leak_has t fs : tag_has t fs -> list_leak (t_frames t) = list_sum (map frame_leak fs).
Proof.
  intros (ps & -> & <- & _). destruct ps as [|p ps]; [reflexivity|].
  rewrite list_of_nodes by discriminate. unfold list_leak, nodes. rewrite !map_map. reflexivity.
Qed.

Lemma means_kind c e : means c e -> edit_ok e = true -> call_kind c.
Proof.
  destruct 1; try (intros; exact I). intros K. cbn [edit_ok] in K. unfold frame_ok in K. cbn [frame_id] in K. rewrite !andb_true_iff in K.
  destruct K as (((L & _) & _) & K & _). destruct i as [|x i]; [discriminate L|]. unfold id_starts in K.
  apply Byte.byte_dec_bl in K. subst x. destruct H as (r & ->). cbn. eauto.
Qed.

Lemma all_kinds cs es fs : Forall2 means cs es -> all_allowed es fs = true -> Forall call_kind cs.
Proof.
  intros M. revert fs. induction M as [|c e cs es M _ IH]; intros fs A; [constructor|]. cbn [all_allowed] in A.
  rewrite !andb_true_iff in A. destruct A as ((K & _) & A). constructor; [now apply (means_kind c e)|eauto].
Qed.

Lemma node_leak_edit t fs c e : means c e -> tag_has t fs -> Forall sane fs ->
  node_leak c (t_frames t) = match e with RemoveNth id i => sublist_leak i (length (filter (named id) fs)) | _ => 0%nat end.
Proof.
  intros M T S. destruct M; try reflexivity; cbn [node_leak]; f_equal; apply count_named_has; auto.
Qed.

Lemma node_leaks_edits cs : forall t fs es, tag_has t fs -> Forall sane fs -> 0 <= th_tag_size (t_header t) < 2 ^ 32 ->
  Forall2 means cs es -> all_allowed es fs = true -> node_leaks t cs = edit_leaks es fs.
Proof.
  induction cs as [|c cs IH]; intros t fs es T S R M A; inversion M as [|? e ? es' Me Ms]; subst; [reflexivity|].
  cbn [all_allowed] in A. rewrite !andb_true_iff in A. destruct A as ((K & A) & A').
  cbn [node_leaks edit_leaks]. rewrite (node_leak_edit t fs c e Me T S).
  destruct (edit_step t fs c e T S R Me K A) as (t' & -> & T' & S' & H' & _).
  f_equal. apply IH; auto. rewrite H'. cbn [sized th_tag_size]. apply Z.mod_pos_bound. lia.
Qed.

Lemma edits_on_heap h a t rest fs cs es : tag_at h a t rest -> tag_has t fs -> Forall sane fs -> Forall kind_ok fs ->
  0 <= th_tag_size (t_header t) < 2 ^ 32 -> Forall2 means cs es -> all_allowed es fs = true ->
  exists h2 h3 t' lost lost',
    run_calls_h (Some a) cs h = Ok h2 /\ tag_at h2 a t' (lost ++ rest) /\ tag_has t' (apply_edits es fs)
    /\ ID3v2_Tag_free (Some a) h2 = Ok h3 /\ heap_is h3 (lost' ++ lost ++ rest)
    /\ (length lost' + length lost = edit_leaks es fs + list_sum (map frame_leak fs))%nat
    /\ length lost' = list_sum (map frame_leak (apply_edits es fs)).
Proof.
  intros T Th S K R M A. assert (Kt := kinds_has t fs Th K). assert (Ck := all_kinds cs es fs M A).
  destruct (edit_steps cs t fs es Th S R M A) as (t' & E & Th' & _).
  assert (Si := calls_are cs h a t rest T Kt Ck). rewrite E in Si. cbn [agrees] in Si.
  destruct Si as (h2 & E2 & lost & L & T2 & K2 & L2).
  destruct (free_is_all h2 a t' (lost ++ rest) T2 K2) as (h3 & lost' & E3 & H3 & L3 & _).
  rewrite (node_leaks_edits cs t fs es) in L by assumption.
  exists h2, h3, t', lost, lost'. repeat (split; [assumption|]).
  rewrite <- (list_leak_has t' _ Th'), <- (list_leak_has t _ Th). lia.
Qed.

Lemma edits_from_scratch h m cs es : heap_is h m -> Forall2 means cs es -> all_allowed es [] = true ->
  exists a h1 h2 h3 t lost,
    ID3v2_Tag_new_empty_h h = (a, h1) /\ run_calls_h (Some a) cs h1 = Ok h2
    /\ tag_at h2 a t (lost ++ m) /\ tag_has t (apply_edits es [])
    /\ ID3v2_Tag_free (Some a) h2 = Ok h3 /\ heap_is h3 (lost ++ m) /\ length lost = edit_leaks es [].
Proof.
  intros H M A. destruct (new_is h m H) as (a & h1 & E1 & T1 & K1).
  assert (R : 0 <= th_tag_size (t_header ID3v2_Tag_new_empty) < 2 ^ 32) by (cbn; lia).
  destruct (edit_steps cs _ [] es new_empty_has (Forall_nil _) R M A) as (t & E & Th & _).
  destruct (life h m cs t H E (all_kinds cs es [] M A)) as (a' & h1' & h2 & h3 & lost & E1' & E2 & T2 & E3 & H3 & L).
  rewrite E1 in E1'. injection E1' as <- <-. exists a, h1, h2, h3, t, lost. repeat (split; [assumption|]).
  rewrite L. apply (node_leaks_edits cs _ [] es); auto. apply new_empty_has.
Qed.
