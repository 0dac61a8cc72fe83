(** The life of a tag on the heap; lists of found frames; stale pointers. *)
From Verif Require Import BaseFacts Heap SpecHeap HeapFacts HeapFrameFacts HeapListFacts HeapTagFacts.
From Coq Require Import Lia.

Lemma life h m cs t : heap_is h m -> run_calls ID3v2_Tag_new_empty cs = Ok t -> Forall call_kind cs ->
  exists a h1 h2 h3 lost, ID3v2_Tag_new_empty_h h = (a, h1) /\ run_calls_h (Some a) cs h1 = Ok h2
    /\ tag_at h2 a t (lost ++ m) /\ ID3v2_Tag_free (Some a) h2 = Ok h3 /\ heap_is h3 (lost ++ m)
    /\ length lost = node_leaks ID3v2_Tag_new_empty cs.
Proof.
  intros H R C. destruct (new_is h m H) as (a & h1 & E1 & T1 & K1).
  assert (S := calls_are cs h1 a _ m T1 K1 C). rewrite R in S. cbn [agrees] in S.
  destruct S as (h2 & E2 & lost & L & T2 & K2 & L2).
  destruct (free_is_all h2 a t (lost ++ m) T2 K2) as (h3 & lost' & E3 & H3 & L3 & _).
  assert (Z0 : list_leak (t_frames ID3v2_Tag_new_empty) = 0%nat) by reflexivity.
  assert (Zl : lost' = []) by (apply length_zero_iff_nil; lia). subst lost'. cbn [app] in H3.
  exists a, h1, h2, h3, lost. repeat (split; [assumption|]). lia.
Qed.

Lemma no_node_leak cs : (forall c, In c cs -> match c with DeleteCommentFrame _ | DeleteApicFrame _ => False | _ => True end) ->
  forall t, node_leaks t cs = 0%nat.
Proof.
  induction cs as [|c cs IH]; intros N t; [reflexivity|]. cbn [node_leaks].
  assert (E : node_leak c (t_frames t) = 0%nat) by (specialize (N c (or_introl eq_refl)); destruct c; tauto || reflexivity).
  rewrite E. destruct (run_call t c); try reflexivity. apply IH. intros c' Ic. apply N. now right.
Qed.

Lemma life_clean h m cs t : heap_is h m -> run_calls ID3v2_Tag_new_empty cs = Ok t -> Forall call_kind cs ->
  (forall c, In c cs -> match c with DeleteCommentFrame _ | DeleteApicFrame _ => False | _ => True end) ->
  exists a h1 h2 h3, ID3v2_Tag_new_empty_h h = (a, h1) /\ run_calls_h (Some a) cs h1 = Ok h2
    /\ ID3v2_Tag_free (Some a) h2 = Ok h3 /\ heap_is h3 m.
Proof.
  intros H R C N. destruct (life h m cs t H R C) as (a & h1 & h2 & h3 & lost & E1 & E2 & _ & E3 & H3 & L).
  rewrite no_node_leak in L by exact N. apply length_zero_iff_nil in L. subst lost. exists a, h1, h2, h3. auto.
Qed.

Lemma life_exact h a t rest cs t' : tag_at h a t rest -> kinds_ok (t_frames t) -> run_calls t cs = Ok t' -> Forall call_kind cs ->
  exists h2 h3 lost, run_calls_h (Some a) cs h = Ok h2 /\ ID3v2_Tag_free (Some a) h2 = Ok h3 /\ heap_is h3 (lost ++ rest)
    /\ length lost = (node_leaks t cs + list_leak (t_frames t))%nat.
Proof.
  intros T K R C. assert (S := calls_are cs h a _ rest T K C). rewrite R in S. cbn [agrees] in S.
  destruct S as (h2 & E2 & lost & L & T2 & K2 & L2).
  destruct (free_is_all h2 a t' (lost ++ rest) T2 K2) as (h3 & lost' & E3 & H3 & L3 & _).
  exists h2, h3, (lost' ++ lost). split; [exact E2|]. split; [exact E3|]. rewrite <- app_assoc. split; [exact H3|].
  rewrite app_length. lia.
Qed.

(** ** Freed twice, or used after it was freed *)

Lemma free_twice h a t rest h' : tag_at h a t rest -> kinds_ok (t_frames t) -> ID3v2_Tag_free (Some a) h = Ok h' ->
  ID3v2_Tag_free (Some a) h' = Ub UseAfterFree.
Proof.
  intros T K E. destruct (free_is_all h a t rest T K) as (h1 & lost & E1 & H1 & _ & N). rewrite E1 in E. injection E as <-.
  unfold ID3v2_Tag_free, load_tag_block. now rewrite (load_gone _ _ _ H1 N).
Qed.

(** ** Lists of found frames *)

(** The list that ID3v2_Tag_get_frames makes, beside the tag. *)
Lemma get_frames_beside h a ah head t pl rest id : rep h a ah head t pl rest ->
  agrees (fun v r => exists hs sl, fst r = Some hs /\ v = map p_node sl /\ first_addr sl = Some hs
            /\ heap_is (snd r) (node_blocks hs sl ++ tag_blocks a ah head t pl ++ rest)
            /\ Forall (shows pl) sl)
    (FrameList_get_frames_by_id (t_frames t) id) (FrameList_get_frames_by_id_h (Some head) id h).
Proof.
  intros (H & Et & Fh & _). unfold FrameList_get_frames_by_id, FrameList_get_frames_by_id_h, FrameList_new_h. mal H.
  set (n0 := mkP (next h) (mkLay 0 0 0 0 0 0) empty_node).
  set (M := tag_blocks a ah head t pl ++ rest) in *.
  assert (G := get_frames_is head (next h) id M pl pl (enough h0) h0 [n0] [] H eq_refl).
  assert (I1 : incl (node_blocks head pl) M).
  { intros x Ix. unfold M, tag_blocks. rewrite !in_app_iff. tauto. }
  assert (I2 : incl (all_frame_blocks pl) M).
  { intros x Ix. unfold M, tag_blocks. rewrite !in_app_iff. tauto. }
  assert (En : (length pl < enough h0)%nat).
  { apply heap_size in H. unfold M, tag_blocks in H. cbn [length] in H. rewrite !app_length, nodes_length in H. unfold enough. lia. }
  specialize (G I1 I2 (incl_refl _) (Forall_cons n0 (or_introl (eq_refl : n_frame (p_node n0) = None)) (Forall_nil _)) En ltac:(repeat constructor)
     (perm_end (all_frame_blocks pl))).
  rewrite Fh, <- Et in G. change (map p_node [n0]) with FrameList_new in G.
  destruct (get_frames_loop (t_frames t) id FrameList_new) as [v| | |]; cbn [agrees bind] in *; try (rewrite G; reflexivity).
  destruct G as (h1 & -> & sl & -> & H1 & Fsl & Sh & _). cbn [bind]. eexists. split; [reflexivity|].
  exists (next h), sl. cbn [fst snd]. auto 6.
Qed.

(** Unlinking it leaves the tag as it was. *)
Lemma get_frames_unlink h a t rest id v : tag_at h a t rest -> ID3v2_Tag_get_frames (Some t) id = Ok v ->
  exists list h1 h2, ID3v2_Tag_get_frames_h (Some a) id h = Ok (list, h1)
    /\ ID3v2_FrameList_unlink list h1 = Ok h2 /\ tag_at h2 a t rest.
Proof.
  unfold ID3v2_Tag_get_frames, ID3v2_Tag_get_frames_h.
  intros (pl & ah & head & R) E. assert (R0 : rep h a ah head t pl rest) by exact R.
  assert (G := get_frames_beside h a ah head t pl rest id R0). rewrite E in G. cbn [agrees] in G.
  destruct R as (H & Et & Fh & R).
  destruct G as ((list & h1) & E1 & hs & sl & E2 & -> & Fs & H1 & _). cbn [fst snd] in *. subst list.
  unfold tag_blocks in H. cbn [app] in H.
  rewrite (frames_of_is _ _ a ah head (t_padding t) H) by is_in. cbn [bind]. exists (Some hs), h1.
  unfold ID3v2_FrameList_unlink. rewrite <- Fs.
  destruct (unlink_is hs sl (enough h1) h1 _ H1 (enough_for _ _ _ _ H1)) as (h2 & E3 & H2).
  exists h2. split; [now rewrite Fs|]. split; [exact E3|]. exists pl, ah, head. split; [exact H2|]. auto.
Qed.

(** ** Freeing a list of found frames takes the frames from the tag *)

Definition stale (q : pnode) (m R : list (nat * block)) : Prop :=
  ~ In (l_self (p_lay q)) (map fst m) \/
  (~ In (l_header (p_lay q)) (map fst m) /\ In (l_self (p_lay q), BFrame (Some (l_header (p_lay q))) (Some (l_data (p_lay q)))) R).

Lemma header_stale q h m R : stale q m R -> incl R m -> heap_is h m ->
  header_of (Some (l_self (p_lay q))) h = Ub UseAfterFree.
Proof.
  intros [N|(N & I)] IR H; unfold header_of.
  - unfold load_frame. now rewrite (load_gone _ _ _ H N).
  - rewrite (load_frame_is _ _ _ _ _ H (IR _ I)). cbn [bind]. unfold load_frame_header. now rewrite (load_gone _ _ _ H N).
Qed.

Lemma leaked_incl l f : incl (leaked_blocks l f) (frame_blocks l f).
Proof. unfold leaked_blocks, frame_blocks. intros x. destruct (f_data f); intros Ix; try now destruct Ix. destruct Ix as [<-|[]]. now left. Qed.

Lemma free_list_stale head q s2 : n_frame (p_node q) <> None -> forall s1 fuel h R,
  kinds_ok (map p_node s1) -> (length s1 < fuel)%nat ->
  heap_is h (node_blocks head (s1 ++ q :: s2) ++ all_frame_blocks s1 ++ R) ->
  stale q (node_blocks head (s1 ++ q :: s2) ++ all_frame_blocks s1 ++ R) R ->
  free_list fuel (first_addr (s1 ++ q :: s2)) h = Ub UseAfterFree.
Proof.
  intros Nq. induction s1 as [|p s1 IH]; intros fuel h R K L H St; (destruct fuel; [cbn [length] in L; lia|]);
    cbn [app first_addr free_list].
  - cbn [app node_blocks all_frame_blocks flat_map] in *. ld H. unfold p_frame.
    destruct (n_frame (p_node q)) as [e|]; [|congruence]. unfold ID3v2_Frame_free.
    rewrite (header_stale q h _ R St); [reflexivity| |exact H]. intros x Ix. right. apply in_or_app. now right.
  - rewrite frames_cons in H, St. cbn [app node_blocks] in H, St. ld H.
    inversion K as [|? ? K1 K2]; subst.
    set (P := (p_addr p, BNode (p_frame p) (if n_start (p_node p) then Some head else None) (first_addr (s1 ++ q :: s2)))) in *.
    assert (F : exists h', ID3v2_Frame_free (p_frame p) h = Ok h' /\
      heap_is h' (P :: node_blocks head (s1 ++ q :: s2) ++ all_frame_blocks s1 ++ p_leak p ++ R)).
    { unfold p_leak, p_frame_blocks, p_frame in *. destruct (n_frame (p_node p)) as [e|].
      - destruct (frame_free h (p_lay p) (fp_frame e) (P :: node_blocks head (s1 ++ q :: s2) ++ all_frame_blocks s1 ++ R) K1)
          as (h' & E' & H'). { eapply heap_perm; [exact H|perm]. }
        exists h'. split; [exact E'|]. eapply heap_perm; [exact H'|perm].
      - exists h. split; [reflexivity|]. exact H. }
    destruct F as (h1 & -> & H1). cbn [bind]. unfold P in H1. ld H1. fold P in H1.
    destruct (free_is _ _ _ _ H1) as (h2 & -> & H2 & _). cbn [bind].
    eapply IH; [exact K2|cbn [length] in L; lia|exact H2|].
    assert (In' : incl (map fst (node_blocks head (s1 ++ q :: s2) ++ all_frame_blocks s1 ++ p_leak p ++ R))
                       (map fst (P :: node_blocks head (s1 ++ q :: s2) ++ (p_frame_blocks p ++ all_frame_blocks s1) ++ R))).
    { intros x Ix. cbn [map]. right. rewrite !map_app, !in_app_iff in *.
      assert (Lp : In x (map fst (p_leak p)) -> In x (map fst (p_frame_blocks p))).
      { unfold p_leak, p_frame_blocks. destruct (n_frame (p_node p)); [|auto]. intros Iy. apply in_map_iff in Iy as (y & <- & Iy).
        apply in_map, leaked_incl, Iy. }
      tauto. }
    destruct St as [N|(N & I)]; [left|right; split].
    + intros Ix. apply N, In', Ix.
    + intros Ix. apply N, In', Ix.
    + apply in_or_app. now right.
Qed.

(** The first match. *)
Lemma first_match id : forall pl v, get_frames_loop (map p_node pl) id FrameList_new = Ok v -> v <> FrameList_new ->
  exists s1 q s2 e, pl = s1 ++ q :: s2 /\ n_frame (p_node q) = Some e /\ id_matches (fp_frame e) id = Ok true
    /\ Forall (fun p => exists e, n_frame (p_node p) = Some e /\ id_matches (fp_frame e) id = Ok false) s1.
Proof.
  induction pl as [|p pl IH]; intros v; cbn [map get_frames_loop]; [congruence|].
  destruct (n_frame (p_node p)) as [e|] eqn:Fp; [|congruence]. intros E N. binv E. destruct v0.
  - exists [], p, pl, e. auto.
  - destruct (IH v E N) as (s1 & q & s2 & e' & -> & Fq & Mq & F1). exists (p :: s1), q, s2, e'.
    repeat (split; [auto|]). constructor; eauto.
Qed.

Lemma skip_value id q s2 sub : forall s1,
  Forall (fun p => exists e, n_frame (p_node p) = Some e /\ id_matches (fp_frame e) id = Ok false) s1 ->
  get_frames_loop (map p_node (s1 ++ q :: s2)) id sub = get_frames_loop (map p_node (q :: s2)) id sub.
Proof.
  induction s1 as [|p s1 IH]; intros F; [reflexivity|]. inversion F as [|? ? (e & Fp & Mp) F']; subst.
  cbn [app map get_frames_loop]. rewrite Fp, Mp. cbn [bind]. auto.
Qed.

Lemma skip_unmatched head hs id R q s2 : forall s1 fuel h, incl (node_blocks head (s1 ++ q :: s2)) R -> incl (all_frame_blocks s1) R ->
  heap_is h R -> (length s1 <= fuel)%nat ->
  Forall (fun p => exists e, n_frame (p_node p) = Some e /\ id_matches (fp_frame e) id = Ok false) s1 ->
  get_frames_loop_h fuel (first_addr (s1 ++ q :: s2)) id hs h
  = get_frames_loop_h (fuel - length s1) (first_addr (q :: s2)) id hs h.
Proof.
  induction s1 as [|p s1 IH]; intros fuel h I J H L F.
  - cbn [app length]. now rewrite Nat.sub_0_r.
  - destruct fuel; [cbn [length] in L; lia|]. cbn [app] in *. inversion F as [|? ? (e & Fp & Mp) F']; subst.
    cbn [app first_addr get_frames_loop_h].
    apply incl_nodes_cons in I as (I & I'). apply incl_frames_cons in J as (J & J').
    rewrite (load_node_is _ _ _ _ _ _ H I). cbn [bind]. unfold p_frame, p_frame_blocks in *. rewrite Fp in *.
    rewrite (id_matches_is _ _ _ _ id H J), Mp. cbn [bind].
    rewrite (load_node_is _ _ _ _ _ _ H I). cbn [bind]. cbn [length Nat.sub].
    apply IH; auto. cbn [length] in L. lia.
Qed.

Lemma free_found h a t rest id v : tag_at h a t rest -> kinds_ok (t_frames t) ->
  ID3v2_Tag_get_frames (Some t) id = Ok v -> v <> FrameList_new ->
  exists list h1 h2, ID3v2_Tag_get_frames_h (Some a) id h = Ok (list, h1)
    /\ ID3v2_FrameList_free list h1 = Ok h2 /\ ID3v2_Tag_free (Some a) h2 = Ub UseAfterFree.
Proof.
  intros (pl & ah & head & H & Et & Fh & Nk & Ad & Af) K Eg Nv.
  unfold ID3v2_Tag_get_frames, ID3v2_Tag_get_frames_h, FrameList_get_frames_by_id in *. rewrite Et in Eg.
  destruct (first_match id pl v Eg Nv) as (s1 & q & s2 & e & Ep & Fq & Mq & F1).
  set (T1 := (a, BTag (Some ah) (Some head) (t_padding t))) in *. set (T2 := (ah, BTagHeader (t_header t))) in *.
  assert (H0 : heap_is h (node_blocks head pl ++ all_frame_blocks pl ++ T1 :: T2 :: rest)).
  { eapply heap_perm; [exact H|]. unfold tag_blocks. fold T1 T2. perm. }
  clear H. set (M := node_blocks head pl ++ all_frame_blocks pl ++ T1 :: T2 :: rest) in *.
  rewrite (frames_of_is _ _ a ah head (t_padding t) H0) by (unfold M, T1; is_in). cbn [bind].
  unfold FrameList_get_frames_by_id_h, FrameList_new_h.
  assert (En : (length pl < enough h)%nat) by (eapply enough_for; exact H0).
  mal H0. set (hs := next h) in *. rename h0 into h1.
  set (n0 := mkP hs (mkLay 0 0 0 0 0 0) empty_node).
  assert (I1 : incl (node_blocks head pl) M) by (intros x Ix; unfold M; rewrite !in_app_iff; tauto).
  assert (I2 : incl (all_frame_blocks pl) M) by (intros x Ix; unfold M; rewrite !in_app_iff; tauto).
  assert (Lf : (length pl < enough h1)%nat).
  { apply heap_size in H0. unfold M in H0. cbn [length] in H0. rewrite !app_length, nodes_length in H0. unfold enough. lia. }
  assert (E1 : get_frames_loop_h (enough h1) (Some head) id (Some hs) h1
             = get_frames_loop_h (enough h1 - length s1) (first_addr (q :: s2)) id (Some hs) h1).
  { rewrite <- Fh, Ep. eapply (skip_unmatched head); [| |exact H0| |exact F1].
    - rewrite <- Ep. intros x Ix. right. auto.
    - intros x Ix. right. apply I2. rewrite Ep, frames_app. apply in_or_app. now left.
    - rewrite Ep, app_length in Lf. lia. }
  rewrite E1. rewrite Ep, skip_value in Eg by exact F1.
  assert (Lq : (length (q :: s2) < enough h1 - length s1)%nat) by (rewrite Ep, app_length in Lf; lia).
  assert (Iq : incl (node_blocks head (q :: s2)) M).
  { intros x Ix. apply I1. rewrite Ep, nodes_app. apply in_or_app. now right. }
  assert (Jq : incl (all_frame_blocks (q :: s2)) M).
  { intros x Ix. apply I2. rewrite Ep, frames_app. apply in_or_app. now right. }
  destruct (enough h1 - length s1)%nat as [|fuel]; [lia|]. cbn [map get_frames_loop] in Eg. cbn [first_addr get_frames_loop_h].
  apply incl_nodes_cons in Iq as (Iq & Iq'). apply incl_frames_cons in Jq as (Jq & Jq').
  rewrite Fq, Mq in Eg. cbn [bind FrameList_add_frame FrameList_new empty_node n_start negb] in Eg.
  rewrite (load_node_is _ _ _ _ _ _ H0 (or_intror Iq)). cbn [bind].
  assert (Pq : p_frame q = Some (l_self (p_lay q))) by (unfold p_frame; now rewrite Fq). rewrite Pq.
  assert (Bq : p_frame_blocks q = frame_blocks (p_lay q) (fp_frame e)) by (unfold p_frame_blocks; now rewrite Fq).
  rewrite Bq in Jq.
  rewrite (id_matches_is _ _ (p_lay q) (fp_frame e) id H0 (fun x Ix => or_intror (Jq x Ix))), Mq. cbn [bind].
  assert (A := add_frame_is h1 hs [n0] (p_lay q) e M H0 eq_refl).
  cbn [map n0 p_node FrameList_add_frame empty_node n_start negb agrees] in A.
  destruct A as (h2 & -> & pl' & Ev & H2 & F2 & C). cbn [bind].
  destruct C as [(p' & r & En0 & _ & ->)|(c & ->)]; [|discriminate Ev]. injection En0 as <- <-. cbn [p_addr] in *.
  rewrite (load_node_is _ _ _ _ _ _ H2 ltac:(apply in_or_app; right; exact Iq)). cbn [bind].
  set (q' := mkP hs (p_lay q) (mkNode (Some e) true)) in *.
  assert (Bq' : p_frame_blocks q' = frame_blocks (p_lay q) (fp_frame e)) by reflexivity.
  assert (G := get_frames_is head hs id M pl s2 fuel h2 [q'] (all_frame_blocks s1) H2 eq_refl Iq' Jq').
  specialize (G ltac:(intros x Ix; rewrite Ep; apply in_or_app; right; now right)).
  specialize (G ltac:(constructor; [right; exists q; split; [rewrite Ep; apply in_elt|now rewrite Fq]|constructor])).
  specialize (G ltac:(cbn [length] in Lq; lia) ltac:(repeat constructor)).
  specialize (G ltac:(rewrite Ep, frames_app, frames_cons, Bq; unfold all_frame_blocks at 3; cbn [flat_map]; rewrite Bq'; perm)).
  change (map p_node [q']) with [mkNode (Some e) true] in G. rewrite Eg in G. cbn [agrees] in G.
  destruct G as (h3 & -> & sl & -> & H3 & F3 & Sh & Kp & Ns & o2 & Po). cbn [bind].
  exists (Some hs), h3.
  assert (Iq2 : In q' sl) by (apply Kp; [now left|discriminate]).
  assert (H4 : heap_is h3 (node_blocks hs sl ++ all_frame_blocks sl ++ node_blocks head pl ++ all_frame_blocks s1 ++ o2 ++ T1 :: T2 :: rest)).
  { eapply heap_perm; [exact H3|]. unfold M.
    etransitivity; [apply Permutation_app_head, Permutation_app_head, Permutation_app_tail; exact Po|]. perm. }
  assert (Ksl : kinds_ok (map p_node sl)).
  { apply Forall_map. eapply Forall_impl; [|exact Sh]. intros r [Fr|(r' & Ir & Fr & _)]; [now rewrite Fr|].
    rewrite <- Fr. unfold kinds_ok in K. rewrite Et in K. rewrite Forall_map in K.
    eapply Forall_forall in K; [exact K|exact Ir]. }
  destruct (free_list_is hs sl (enough h3) h3 _ H4 Ksl (enough_for _ _ _ _ H4)) as (h4 & E4 & H5).
  exists h4. split; [reflexivity|]. unfold ID3v2_FrameList_free. rewrite <- F3. split; [exact E4|].
  unfold ID3v2_Tag_free. unfold T1, T2 in H5. ld H5.
  destruct (free_at _ _ ah (BTagHeader (t_header t))
    (node_blocks head pl ++ all_frame_blocks s1 ++ T1 :: flat_map p_leak sl ++ o2 ++ rest) H5 ltac:(unfold T1; perm))
    as (h5 & -> & H6 & _). cbn [bind]. unfold T1 in H6. ld H6. fold T1 in H6.
  rewrite Ep in H6 at 1.
  assert (St : stale q (node_blocks head (s1 ++ q :: s2) ++ all_frame_blocks s1 ++ T1 :: flat_map p_leak sl ++ o2 ++ rest)
                 (T1 :: flat_map p_leak sl ++ o2 ++ rest)).
  { destruct (in_split _ _ Iq2) as (u & w & Esl). rewrite Esl in *. clear Esl.
    rewrite frames_app, frames_cons, Bq' in H4. rewrite flat_map_app in *. cbn [flat_map] in *.
    assert (Lq' : p_leak q' = leaked_blocks (p_lay q) (fp_frame e)) by reflexivity. rewrite Lq' in *.
    assert (Hp : heap_is h3 (frame_blocks (p_lay q) (fp_frame e) ++ (node_blocks head (s1 ++ q :: s2) ++ all_frame_blocks s1 ++ T1
                       :: all_frame_blocks u ++ all_frame_blocks w ++ o2 ++ rest) ++ T2 :: node_blocks hs (u ++ q' :: w))).
    { eapply heap_perm; [exact H4|]. rewrite <- Ep. perm. }
    destruct Hp as (_ & D & _).
    assert (Dj : forall x, In x (map fst (frame_blocks (p_lay q) (fp_frame e))) ->
      ~ In x (map fst (node_blocks head (s1 ++ q :: s2) ++ all_frame_blocks s1 ++ T1
                       :: all_frame_blocks u ++ all_frame_blocks w ++ o2 ++ rest))).
    { intros x Ix Jx. rewrite map_app in D.
      clear -D Ix Jx. induction (map fst (frame_blocks (p_lay q) (fp_frame e))) as [|y l IH]; [destruct Ix|].
      cbn [app] in D. inversion D as [|? ? N D']; subst. destruct Ix as [->|Ix]; [|auto].
      apply N. apply in_or_app. right. rewrite map_app. apply in_or_app. left. exact Jx. }
    assert (Lk : forall l x, In x (map fst (flat_map p_leak l)) -> In x (map fst (all_frame_blocks l))).
    { clear. intros l x Ix. apply in_map_iff in Ix as (y & <- & Iy). apply in_map. apply in_flat_map in Iy as (p & Ip & Iy).
      apply in_flat_map. exists p. split; [exact Ip|]. unfold p_leak, p_frame_blocks in *.
      destruct (n_frame (p_node p)); [|destruct Iy]. now apply leaked_incl. }
    assert (Dj' : forall x, In x (map fst (frame_blocks (p_lay q) (fp_frame e))) ->
      In x (map fst (node_blocks head (s1 ++ q :: s2) ++ all_frame_blocks s1 ++ T1
                       :: (flat_map p_leak u ++ leaked_blocks (p_lay q) (fp_frame e) ++ flat_map p_leak w) ++ o2 ++ rest)) ->
      In x (map fst (leaked_blocks (p_lay q) (fp_frame e)))).
    { intros x Ix Jx. specialize (Dj x Ix). pose proof (Lk u x) as Lu. pose proof (Lk w x) as Lw. clear -Dj Jx Lu Lw.
      rewrite !map_app in Dj, Jx. cbn [map] in Dj, Jx. rewrite !map_app in Dj, Jx. rewrite !in_app_iff in *.
      cbn [In] in *. rewrite !in_app_iff in *. rewrite ?(map_app fst o2 rest), ?in_app_iff in *. tauto. }
    destruct (f_data (fp_frame e)) eqn:Fd.
    4:{ right. assert (Le : leaked_blocks (p_lay q) (fp_frame e) = [(l_self (p_lay q), BFrame (Some (l_header (p_lay q))) (Some (l_data (p_lay q))))]).
        { unfold leaked_blocks. now rewrite Fd. }
        split; [|rewrite Le; right; rewrite !in_app_iff; cbn [In]; tauto].
        intros Ix. apply (Dj' (l_header (p_lay q))) in Ix; [|right; now left].
        rewrite Le in Ix. destruct Ix as [Ex|[]]. cbn [fst] in Ex.
        unfold frame_blocks in D. cbn [map fst app] in D. inversion D as [|? ? N _]. apply N. left. symmetry. exact Ex. }
    all: left; intros Ix; apply (Dj' (l_self (p_lay q))) in Ix; [|now left]; unfold leaked_blocks in Ix; rewrite Fd in Ix; destruct Ix. }
  rewrite Ep in Fh. unfold ID3v2_FrameList_free. rewrite <- Fh.
  assert (K1 : kinds_ok (map p_node s1)).
  { unfold kinds_ok in *. rewrite Et, Ep, map_app in K. now apply Forall_app in K as (K & _). }
  assert (L1 : (length s1 < enough h5)%nat).
  { apply enough_for in H6. rewrite app_length in H6. lia. }
  rewrite (free_list_stale head q s2 ltac:(congruence) s1 (enough h5) h5 _ K1 L1 H6 St). reflexivity.
Qed.
