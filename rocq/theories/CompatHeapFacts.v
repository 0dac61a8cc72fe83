(** The functions of CompatHeap.v agree with those of Compat.v. *)
From Verif Require Import Compat CompatHeap Spec SpecEdit SpecCompat TagFacts KindFacts SpecHeap SpecHeapIO SpecCompatHeap
  HeapFacts HeapFrameFacts HeapListFacts HeapTagFacts HeapLifeFacts HeapPtrFacts HeapReadFacts HeapWriteFacts.
From Coq Require Import Lia.

Lemma load_cframe_is h m a i s fl d f : heap_is h m -> In (a, BCFrame i s fl d f) m -> load_cframe (Some a) h = Ok (i, s, fl, d, f).
Proof. intros H I. unfold load_cframe. now rewrite (load_is _ _ _ _ H I). Qed.
Lemma load_cnode_is h m a f s l n : heap_is h m -> In (a, BCNode f s l n) m -> load_cnode (Some a) h = Ok (f, s, l, n).
Proof. intros H I. unfold load_cnode. now rewrite (load_is _ _ _ _ H I). Qed.
Lemma load_ctag_is h m a r hd fr t : heap_is h m -> In (a, BCTag r hd fr t) m -> load_ctag (Some a) h = Ok (r, hd, fr, t).
Proof. intros H I. unfold load_ctag. now rewrite (load_is _ _ _ _ H I). Qed.

Ltac ldc H :=
  first [ erewrite (load_cframe_is _ _ _ _ _ _ _ _ H) by (cbn [app]; is_in)
        | erewrite (load_cnode_is _ _ _ _ _ _ _ H) by (cbn [app]; is_in)
        | erewrite (load_ctag_is _ _ _ _ _ _ _ H) by (cbn [app]; is_in)
        | erewrite (load_bytes_is _ _ _ _ H) by (cbn [app]; is_in)
        | ld H ]; cbn [bind].

(** Rewriting with a result up to conversion. *)
Ltac rwo E :=
  match type of E with
  | _ = ?r => match goal with |- context [store ?a ?b ?h] => replace (store a b h) with r by (symmetry; exact E) end
  end.

Lemma agrees_tail_l {A B C} (R : A -> B -> Prop) (Q : C -> B -> Prop) o o' k :
  agrees R o o' -> (forall a b, R a b -> agrees Q (k a) (Ok b)) -> agrees Q (bind o k) o'.
Proof.
  intros H K. destruct o; cbn [agrees bind] in *; try (rewrite H; reflexivity).
  destruct H as (b & -> & H). apply (K _ _ H).
Qed.

(** ** frame_to_compat_frame *)

Definition cframed (l : lay) (p : fptr) (m : list (nat * block)) (v : cframe) (r : nat * heap) : Prop :=
  exists d lost, heap_is (snd r) ((fst r, BCFrame (cf_id v) (cf_size v) (cf_flags v) (Some d) (Some (l_self l)))
                                  :: (d, BBytes (cf_data v)) :: lost ++ m)
    /\ length lost = (2 * frame_leak (fp_frame p))%nat.

Lemma frame_to_compat_is h m l p : heap_is h m -> incl (frame_blocks l (fp_frame p)) m -> kind_ok (fp_frame p) ->
  agrees (cframed l p m) (frame_to_compat_frame (Some p)) (frame_to_compat_frame_h (Some (l_self l)) h).
Proof.
  intros H I K. unfold frame_to_compat_frame, frame_to_compat_frame_h. cbn [deref bind].
  rewrite (header_of_is _ _ _ _ H I). cbn [bind].
  apply agrees_same. intros id _. apply agrees_same. intros flags _.
  eapply agrees_bind; [exact (frame_stream_is _ _ _ _ H I K)|].
  intros v [r h1] (s & c & st & lost & -> & Er & H1 & L). cbn [fst snd] in *. subst r. cbn [deref bind].
  unfold CharStream_seek_h. mv H1.
  destruct (fh_size (f_hdr (fp_frame p)) <? 0); [reflexivity|].
  unfold read_into_h. rd H1. mal H1.
  destruct (close_is h3 c st s1 ((next h2, BBytes x) :: lost ++ m)) as (h5 & E5 & H5).
  { refine (heap_perm _ _ _ H1 _). perm. }
  rewrite E5. cbn [bind]. mal H5. apply agrees_ok. exists (next h2), lost. split; [exact H5|exact L].
Qed.

(** ** Lists *)

(** The block of one node, in the middle of the others. *)
Lemma c_tail_at head q s2 : forall s1, exists R,
  (forall q', c_addr q' = c_addr q -> cn_start (c_node q') = cn_start (c_node q) ->
     Permutation (c_tail head (s1 ++ q' :: s2))
       ((c_addr q, BCNode (c_frame q') (if cn_start (c_node q) then Some head else None) None (c_first s2)) :: R)).
Proof.
  induction s1 as [|p s1 (R & IH)].
  - exists (c_tail head s2). intros q' <- <-. reflexivity.
  - exists ((c_addr p, BCNode (c_frame p) (if cn_start (c_node p) then Some head else None) None (c_first (s1 ++ q :: s2))) :: R).
    intros q' A S. cbn [app c_tail]. rewrite (IH q' A S).
    replace (c_first (s1 ++ q' :: s2)) with (c_first (s1 ++ q :: s2)) by (destruct s1; cbn; congruence).
    apply perm_swap.
Qed.

Lemma last_addr q q' s2 : c_addr q' = c_addr q -> forall s1 p, c_addr (last (s1 ++ q' :: s2) p) = c_addr (last (s1 ++ q :: s2) p).
Proof.
  intros A.
  induction s1 as [|x s1 IH]; intros p.
  - cbn [app]. destruct s2 as [|y s2]; [exact A|]. reflexivity.
  - cbn [app]. destruct (s1 ++ q' :: s2) eqn:E1; [destruct s1; discriminate|].
    destruct (s1 ++ q :: s2) eqn:E2; [destruct s1; discriminate|]. change (c_addr (last (c :: l) p) = c_addr (last (c0 :: l0) p)).
    apply IH.
Qed.

Lemma c_nodes_at s1 q s2 : exists s la R,
  forall q', c_addr q' = c_addr q -> cn_start (c_node q') = cn_start (c_node q) ->
     Permutation (c_nodes (s1 ++ q' :: s2)) ((c_addr q, BCNode (c_frame q') s la (c_first s2)) :: R).
Proof.
  destruct s1 as [|p s1].
  - exists (if cn_start (c_node q) then Some (c_addr q) else None),
      (if cn_start (c_node q) then Some (Some (c_addr (last s2 q))) else None), (c_tail (c_addr q) s2).
    intros q' A S. cbn [app c_nodes]. rewrite A, S. pose proof (last_addr q q' s2 A [] q) as L. cbn [app] in L.
    replace (c_addr (last s2 q')) with (c_addr (last s2 q)); [destruct (cn_start (c_node q)); reflexivity|].
    destruct s2 as [|y s2]; [now symmetry|].
    clear. revert y. induction s2 as [|z s2 IH]; intros y; [reflexivity|]. exact (IH z).
  - destruct (c_tail_at (c_addr p) q s2 s1) as (R & T).
    exists (if cn_start (c_node q) then Some (c_addr p) else None), None,
      ((c_addr p, if cn_start (c_node p)
         then BCNode (c_frame p) (Some (c_addr p)) (Some (Some (c_addr (last (s1 ++ q :: s2) p)))) (c_first (s1 ++ q :: s2))
         else BCNode (c_frame p) None None (c_first (s1 ++ q :: s2))) :: R).
    intros q' A S. cbn [app c_nodes]. rewrite (last_addr q q' s2 A s1 p), (T q' A S).
    replace (c_first (s1 ++ q' :: s2)) with (c_first (s1 ++ q :: s2)) by (destruct s1; cbn; congruence).
    apply perm_swap.
Qed.

Lemma c_nodes_in l m s1 q s2 : l = s1 ++ q :: s2 -> incl (c_nodes l) m ->
  exists s la, In (c_addr q, BCNode (c_frame q) s la (c_first s2)) m.
Proof.
  intros -> I. destruct (c_nodes_at s1 q s2) as (s & la & R & P). exists s, la. apply I.
  apply (Permutation_in (l := (c_addr q, BCNode (c_frame q) s la (c_first s2)) :: R)); [symmetry; now apply P|now left].
Qed.

Lemma c_tail_length head : forall l, length (c_tail head l) = length l.
Proof. induction l as [|p l IH]; [reflexivity|]. cbn. now rewrite IH. Qed.
Lemma c_nodes_length l : length (c_nodes l) = length l.
Proof. destruct l as [|p l]; [reflexivity|]. cbn. now rewrite c_tail_length. Qed.

Lemma c_enough h l m : heap_is h (c_nodes l ++ m) -> (length l < enough h)%nat.
Proof. intros H. apply heap_size in H. rewrite app_length, c_nodes_length in H. unfold enough. lia. Qed.

Lemma c_tail_snoc head z n : forall r, exists R,
  let st x := if cn_start (c_node x) then Some head else None in
  Permutation (c_tail head (r ++ [z])) ((c_addr z, BCNode (c_frame z) (st z) None None) :: R)
  /\ Permutation (c_tail head ((r ++ [z]) ++ [n]))
       ((c_addr z, BCNode (c_frame z) (st z) None (Some (c_addr n))) :: (c_addr n, BCNode (c_frame n) (st n) None None) :: R).
Proof.
  intros r. rewrite <- app_assoc. cbn [app]. induction r as [|p r (R & A & B)].
  - exists []. split; reflexivity.
  - exists ((c_addr p, BCNode (c_frame p) (if cn_start (c_node p) then Some head else None) None (c_first (r ++ [z]))) :: R).
    cbn zeta in *. cbn [app c_tail]. rewrite A, B.
    replace (c_first (r ++ [z; n])) with (c_first (r ++ [z])) by (destruct r; reflexivity).
    split; perm.
Qed.

Definition c_added (cl : list cpnode) (self data pts : nat) (f : cframe) (m : list (nat * block)) (v : clist) (h : heap) : Prop :=
  exists cl', v = map c_node cl' /\ heap_is h (c_nodes cl' ++ m) /\ c_first cl' = c_first cl
    /\ match cl with
       | p :: rest =>
           if cn_start (c_node p) then exists a, cl' = cl ++ [mkCP a self data pts (mkCNode (Some f) true)]
           else cl' = [mkCP (c_addr p) self data pts (mkCNode (Some f) true)]
       | [] => False
       end.

Lemma add_to_list_is h cl m f self data pts : heap_is h (c_nodes cl ++ m) ->
  match cl with [] => False | p :: rest => cn_start (c_node p) = false -> rest = [] end ->
  agrees (c_added cl self data pts f m) (add_to_list (map c_node cl) f) (add_to_list_h (c_first cl) (Some self) h).
Proof.
  destruct cl as [|p rest]; [contradiction|]. intros H S. cbn [map add_to_list c_first]. unfold add_to_list_h.
  destruct (cn_start (c_node p)) eqn:St; cbn [negb].
  2:{ rewrite (S eq_refl) in *. cbn [c_nodes c_tail app c_first] in H. rewrite St in H.
      ldc H. destruct (store_is _ _ _ _ (BCNode (Some self) (Some (c_addr p)) (Some (Some (c_addr p))) None) H) as (h' & E & H' & _).
      rwo E. apply agrees_ok. exists [mkCP (c_addr p) self data pts (mkCNode (Some f) true)].
      split; [reflexivity|]. split; [exact H'|]. rewrite St. split; reflexivity. }
  clear S. set (n a := mkCP a self data pts (mkCNode (Some f) true)).
  assert (G : forall a h', heap_is h' (c_nodes ((p :: rest) ++ [n a]) ++ m) ->
     agrees (c_added (p :: rest) self data pts f m)
       (Ok ((c_node p :: map c_node rest) ++ [mkCNode (Some f) true])) (Ok h')).
  { intros a h' H'. apply agrees_ok. exists ((p :: rest) ++ [n a]). split; [now rewrite map_app|]. split; [exact H'|].
    split; [reflexivity|]. rewrite St. now exists a. }
  cbn [c_nodes app] in H. rewrite St in H. ldc H.
  unfold new_frame_list_h. mal H. ldc H.
  destruct (store_is _ _ _ _ (BCNode (Some self) (Some (c_addr p)) None None) H) as (h1 & E1 & H1 & _).
  rwo E1. cbn [bind]. ldc H1. cbn [assigned bind].
  destruct rest as [|z0 rest0] eqn:Er.
  - cbn [last c_first c_tail app] in *. ldc H1.
    destruct (store_at _ _ (c_addr p) _ (BCNode (c_frame p) (Some (c_addr p)) (Some (Some (c_addr p))) (Some (next h))) _ H1 (perm_swap _ _ _)) as (h2 & E2 & H2 & _).
    rwo E2. cbn [bind]. ldc H2.
    destruct (store_is _ _ _ _ (BCNode (c_frame p) (Some (c_addr p)) (Some (Some (next h))) (Some (next h))) H2) as (h3 & E3 & H3 & _).
    rwo E3. apply (G (next h)). cbn [app c_nodes c_tail last c_first n c_addr c_node c_frame cn_frame cn_start c_self]. rewrite St. exact H3.
  - destruct (exists_last (l := z0 :: rest0)) as (r & z & Ez); [discriminate|].
    assert (Lz : last (z0 :: rest0) p = z) by (rewrite Ez; apply last_last).
    destruct (c_tail_snoc (c_addr p) z (n (next h)) r) as (R & A & B). cbn zeta in A, B. rewrite <- Ez in A, B.
    rewrite Lz in *.
    set (stz := if cn_start (c_node z) then Some (c_addr p) else None) in *.
    set (hd la := (c_addr p, BCNode (c_frame p) (Some (c_addr p)) la (c_first (z0 :: rest0)))).
    assert (H1' : heap_is h1 ((c_addr z, BCNode (c_frame z) stz None None) :: hd (Some (Some (c_addr z)))
                    :: (next h, BCNode (Some self) (Some (c_addr p)) None None) :: R ++ m)).
    { refine (heap_perm _ _ _ H1 _). unfold hd. rewrite A. perm. }
    erewrite (load_cnode_is _ _ _ _ _ _ _ H1') by now left. cbn [bind].
    destruct (store_is _ _ _ _ (BCNode (c_frame z) stz None (Some (next h))) H1') as (h2 & E2 & H2 & _).
    rwo E2. cbn [bind]. erewrite (load_cnode_is _ _ _ _ _ _ _ H2) by (right; left; reflexivity). cbn [bind].
    destruct (store_at _ _ (c_addr p) _ (BCNode (c_frame p) (Some (c_addr p)) (Some (Some (next h))) (c_first (z0 :: rest0))) _ H2 (perm_swap _ _ _)) as (h3 & E3 & H3 & _).
    rwo E3. apply (G (next h)). refine (heap_perm _ _ _ H3 _).
    cbn [app c_nodes]. rewrite St.
    assert (Ln : last (z0 :: rest0 ++ [n (next h)]) p = n (next h)) by (change (z0 :: rest0 ++ [n (next h)]) with ((z0 :: rest0) ++ [n (next h)]); apply last_last).
    rewrite Ln. change (z0 :: rest0 ++ [n (next h)]) with ((z0 :: rest0) ++ [n (next h)]).
    rewrite B. cbn [c_first app n c_addr c_frame c_node cn_frame cn_start c_self]. perm.
Qed.

(** ** Loading *)

Lemma to_compat_id p f : frame_to_compat_frame (Some p) = Ok f ->
  cf_frame f = fp_addr p /\ cf_id f = firstn 4 (fh_id (f_hdr (fp_frame p))) /\ length (cf_id f) = 4%nat.
Proof.
  unfold frame_to_compat_frame. cbn [deref bind]. intros E. do 5 binv E.
  destruct (_ <? 0); [discriminate|]. binv E. prods. injection E as <-. cbn [cf_frame cf_id].
  split; [reflexivity|]. unfold memcpy_from in E0. cbn [ID3v2_FRAME_HEADER_ID_LENGTH] in E0.
  change ID3v2_FRAME_HEADER_ID_LENGTH with 4 in E0. cbn [Z.ltb Z.compare] in E0.
  destruct (zlen (fh_id (f_hdr (fp_frame p))) <? 4) eqn:L; [discriminate|]. apply ok_inj in E0. rewrite <- E0. change (Z.to_nat 4) with 4%nat.
  split; [reflexivity|]. etransitivity; [apply firstn_length|]. unfold zlen in L. lia.
Qed.

Lemma agrees_eq {A B} (R : A -> B -> Prop) o o' : agrees R o o' -> agrees (fun a b => R a b /\ o = Ok a) o o'.
Proof. destruct o; cbn [agrees]; auto. intros (b & E & X). eauto. Qed.

(** The nodes [s1] of the tag have been copied to the list. *)
Definition copied (s1 : list pnode) (cl : list cpnode) : Prop :=
  (s1 = [] /\ exists a, cl = [mkCP a 0 0 0 cempty_node])
  \/ (cl <> [] /\ Forall2 linked s1 cl /\ Forall (fun p => cn_start (c_node p) = true) cl).

Lemma copied_shape s1 cl : copied s1 cl ->
  match cl with [] => False | p :: rest => cn_start (c_node p) = false -> rest = [] end.
Proof.
  intros [(_ & a & ->)|(N & _ & S)]; [reflexivity|]. destruct cl as [|p cl]; [congruence|].
  inversion S as [|? ? Sp _]; subst. congruence.
Qed.

Lemma copied_step s1 cl q e self data f cl' : copied s1 cl -> n_frame (p_node q) = Some e -> frame_to_compat_frame (Some e) = Ok f ->
  match cl with
  | p :: rest =>
      if cn_start (c_node p) then exists a, cl' = cl ++ [mkCP a self data (l_self (p_lay q)) (mkCNode (Some f) true)]
      else cl' = [mkCP (c_addr p) self data (l_self (p_lay q)) (mkCNode (Some f) true)]
  | [] => False
  end ->
  copied (s1 ++ [q]) cl'
  /\ Permutation (flat_map c_frame_blocks cl')
       ((self, BCFrame (cf_id f) (cf_size f) (cf_flags f) (Some data) (Some (l_self (p_lay q)))) :: (data, BBytes (cf_data f)) :: flat_map c_frame_blocks cl).
Proof.
  intros C F E M. apply to_compat_id in E as (A & B & D).
  assert (L : forall a, linked q (mkCP a self data (l_self (p_lay q)) (mkCNode (Some f) true))).
  { intros a. unfold linked. rewrite F. cbn [c_node cn_frame c_points]. auto. }
  destruct C as [(-> & a & ->)|(N & G & S)].
  - cbn [c_node cempty_node cn_start] in M. subst cl'. split; [|cbn; reflexivity].
    right. split; [discriminate|]. split; constructor; auto.
  - destruct cl as [|p cl]; [congruence|]. assert (Sp := S). inversion Sp as [|? ? Sq _]; subst. rewrite Sq in M.
    destruct M as (a & ->). split.
    + right. split; [discriminate|]. split; [apply Forall2_app; [exact G|repeat constructor; apply L]|].
      apply Forall_app. split; [exact S|repeat constructor].
    + rewrite flat_map_app. cbn [flat_map c_frame_blocks c_node cn_frame c_self c_data c_points app]. perm.
Qed.

Lemma load_frames_is head : forall s2 s1 cl fuel h m,
  heap_is h (c_nodes cl ++ flat_map c_frame_blocks cl ++ m) ->
  incl (node_blocks head s2) m -> incl (all_frame_blocks s2) m -> kinds_ok (map p_node s2) -> copied s1 cl -> (length s2 < fuel)%nat ->
  agrees (fun v h' => exists cl' lost, v = map c_node cl' /\ c_first cl' = c_first cl /\ copied (s1 ++ s2) cl'
       /\ heap_is h' (c_nodes cl' ++ flat_map c_frame_blocks cl' ++ lost ++ m) /\ length lost = (2 * list_leak (map p_node s2))%nat)
    (load_frames (map p_node s2) (map c_node cl)) (load_frames_h fuel (first_addr s2) (c_first cl) h).
Proof.
  induction s2 as [|q s2 IH]; intros s1 cl fuel h m H In' If K C L; (destruct fuel; [cbn [length] in L; lia|]).
  - cbn [map load_frames first_addr load_frames_h]. apply agrees_ok. exists cl, []. rewrite app_nil_r. auto 6.
  - cbn [map load_frames first_addr load_frames_h]. apply incl_nodes_cons in In' as (Iq & In').
    assert (If' := incl_frames_cons _ _ _ If). destruct If' as (Ifq & If').
    erewrite (load_node_is h _ (p_addr q)); [|exact H|apply in_or_app; right; apply in_or_app; right; exact Iq]. cbn [bind].
    inversion K as [|? ? Kq K']; subst. unfold p_frame, p_frame_blocks in *.
    destruct (n_frame (p_node q)) as [e|] eqn:F; [|reflexivity].
    eapply agrees_bind.
    { apply agrees_eq. apply frame_to_compat_is with (l := p_lay q); [exact H| |exact Kq]. intros x Ix. apply in_or_app. right. apply in_or_app. right. now apply Ifq. }
    intros f [self h1] ((d & lost & H1 & L1) & Ef). cbn [fst snd] in *.
    set (B1 := (self, BCFrame (cf_id f) (cf_size f) (cf_flags f) (Some d) (Some (l_self (p_lay q))))) in *. set (B2 := (d, BBytes (cf_data f))) in *.
    eapply agrees_bind.
    { apply (add_to_list_is h1 cl (flat_map c_frame_blocks cl ++ B1 :: B2 :: lost ++ m) f self d (l_self (p_lay q))).
      - refine (heap_perm _ _ _ H1 _). perm.
      - eapply copied_shape. exact C. }
    intros v h2 (cl' & -> & H2 & Fc & M).
    destruct (copied_step _ _ _ _ _ _ _ _ C F Ef M) as (C' & P).
    assert (H2' : heap_is h2 (c_nodes cl' ++ flat_map c_frame_blocks cl' ++ lost ++ m)).
    { refine (heap_perm _ _ _ H2 _). rewrite P. fold B1 B2. perm. }
    erewrite (load_node_is h2 _ (p_addr q)); [|exact H2'|rewrite !in_app_iff; right; right; right; exact Iq]. cbn [bind].
    rewrite <- Fc.
    eapply agrees_weaken.
    { apply (IH (s1 ++ [q]) cl' fuel h2 (lost ++ m) H2').
      - intros x Ix. apply in_or_app. right. now apply In'.
      - intros x Ix. apply in_or_app. right. now apply If'.
      - exact K'.
      - exact C'.
      - cbn [length] in L. lia. }
    intros v h3 (cl2 & lost2 & -> & Fc2 & C2 & H3 & L3). exists cl2, (lost2 ++ lost).
    split; [reflexivity|]. split; [congruence|]. rewrite <- app_assoc in C2. split; [exact C2|]. rewrite <- !app_assoc. split; [exact H3|].
    rewrite app_length, leak_cons, L1, L3. unfold n_leak. rewrite F. lia.
Qed.

Lemma enough_rep h R a ah head t pl : heap_is h (R ++ tag_blocks a ah head t pl) -> (length pl < enough h)%nat.
Proof.
  intros H. apply heap_size in H. unfold tag_blocks in H. rewrite !app_length, nodes_length in H. cbn [length] in H. unfold enough. lia.
Qed.

Lemma load_buffer_is h m p n : heap_is h m -> n < 2 ^ 31 ->
  agrees (v1_loaded m) (load_tag_with_buffer p n) (load_tag_with_buffer_h p n h).
Proof.
  intros H Hn. unfold load_tag_with_buffer, load_tag_with_buffer_h.
  eapply agrees_bind; [apply agrees_eq, read_buffer_is, H|]. intros v [q h1] (Ld & Ev). cbn [loaded fst snd] in *.
  apply agrees_same. intros raw _.
  destruct v as [t|]; cbn [loaded fst snd deref bind] in *; [|destruct Ld as (-> & _); reflexivity].
  destruct Ld as (ia & -> & pl & ah & head & R).
  apply rep_heap in R as H1.
  assert (K := read_buffer_kinds _ _ _ Hn Ev).
  set (T := tag_blocks ia ah head t pl) in *.
  mal H1.
  assert (R1 : rep h0 ia ah head t pl ((next h1, BBytes raw) :: m)) by (eapply rep_swap; [exact R|exact H1]).
  rewrite (rep_header _ _ _ _ _ _ _ R1). cbn [bind].
  set (ch := mkCH _ _ _ _ _ _). mal H1.
  rename h0 into hr. match goal with H1 : heap_is ?x ((next hr, _) :: _) |- _ => rename x into hh end.
  assert (R2 : rep hh ia ah head t pl ((next hr, BCHeader ch) :: (next h1, BBytes raw) :: m)) by (eapply rep_swap; [exact R|exact H1]).
  rewrite (rep_frames _ _ _ _ _ _ _ R2). cbn [bind]. unfold new_frame_list_h. mal H1.
  match goal with H1 : heap_is ?x ((next hh, _) :: _) |- _ => rename x into hn end.
  destruct R as (_ & Et & Fh & X). rewrite Et, <- Fh.
  set (m2 := (next hr, BCHeader ch) :: (next h1, BBytes raw) :: m ++ T) in *.
  set (n0 := mkCP (next hh) 0 0 0 cempty_node).
  change new_frame_list with (map c_node [n0]). change (Some (next hh)) with (c_first [n0]).
  eapply agrees_bind.
  { apply (load_frames_is head pl [] [n0] (enough hn) hn m2).
    - exact H1.
    - intros x Ix. unfold m2, T, tag_blocks. cbn [In app]. rewrite !in_app_iff. cbn [In]. rewrite in_app_iff. tauto.
    - intros x Ix. unfold m2, T, tag_blocks. cbn [In app]. rewrite !in_app_iff. cbn [In]. rewrite in_app_iff. tauto.
    - now rewrite <- Et.
    - left. split; [reflexivity|]. now exists (next hh).
    - unfold m2 in H1. exact (enough_rep _ (_ :: _ :: _ :: m) _ _ _ _ _ H1). }
  intros v h4 (cl & lost & -> & Fc & C & H4 & L4). cbn [app] in C. mal H4. apply agrees_ok.
  assert (N : cl <> []) by (intros ->; discriminate Fc).
  destruct C as [(-> & _)|(_ & G & _)]; [discriminate Fh|].
  exists lost. split; [|cbn [ct_tag]; now rewrite Et].
  cbn [fst snd]. exists pl, cl. exists ia, (next hr), (next h1). cbn [ct_tag ct_frames].
  split; [|split; [reflexivity|split; [exact N|split; [exact G|exact K]]]].
  exists ah, head. split; [|now rewrite Et in *].
  refine (heap_perm _ _ _ H4 _). unfold compat_blocks. cbn [ct_raw ct_header]. rewrite Fc. unfold m2. fold T. cbn [c_first].
  perm.
Qed.

(** The blocks beside a version 1 tag may change as they like. *)
Lemma ctag_open h a c pl cl R : ctag_laid h a c pl cl R ->
  exists M, heap_is h (R ++ M) /\ forall h' R', heap_is h' (R' ++ M) -> ctag_laid h' a c pl cl R'.
Proof.
  intros (ia & ah & ar & (th & head & H & X) & Y). exists (tag_blocks ia th head (ct_tag c) pl ++ compat_blocks a ah ar ia c cl).
  split; [refine (heap_perm _ _ _ H _); perm|]. intros h' R' H'. exists ia, ah, ar. split; [|exact Y].
  exists th, head. split; [|exact X]. refine (heap_perm _ _ _ H' _). perm.
Qed.

Lemma load_tag_is h m f : heap_is h m -> agrees (v1_loaded m) (load_tag f) (load_tag_h f h).
Proof.
  intros H. unfold load_tag, load_tag_h.
  eapply agrees_bind; [apply read_header_is, H|]. intros v [q h1] (a & E & H1). cbn [fst snd] in *. subst q.
  destruct v as [hd|]; cbn [hdr_ptr th_blocks app] in *; [|reflexivity]. ldc H1. cbn [deref bind].
  destruct f as [content|]; cbn [deref bind]; [|reflexivity]. mal H1. ldc H1.
  eapply agrees_tail; [apply load_buffer_is; [exact H1|apply declared_small]|].
  intros c [b h3] (lost & (pl & cl & T) & L). cbn [fst snd bind] in *.
  destruct (ctag_open _ _ _ _ _ _ T) as (M & H3 & Back).
  destruct (free_at h3 _ (next h1) (BBytes (fread_into content (declared_length hd))) (lost ++ (a, BTagHeader hd) :: m ++ M) H3) as (h4 & E4 & H4 & _).
  { perm. }
  rewrite E4. cbn [bind]. unfold ID3v2_TagHeader_free.
  destruct (free_at h4 _ a (BTagHeader hd) (lost ++ m ++ M) H4) as (h5 & E5 & H5 & _).
  { perm. }
  rewrite E5. cbn [bind]. apply agrees_ok. exists lost. split; [|exact L]. cbn [fst snd]. exists pl, cl. apply Back.
  refine (heap_perm _ _ _ H5 _). perm.
Qed.

Lemma new_tag_is h m : heap_is h m -> exists a h', new_tag_h h = (a, h') /\ ctag_at h' a new_tag m.
Proof.
  intros H. unfold new_tag_h. mal H. unfold new_frame_list_h. mal H.
  match goal with H : heap_is ?x ((next ?y, BCNode _ _ _ _) :: (next ?z, _) :: _) |- _ => rename x into hb; rename y into ha end.
  destruct (new_is _ _ H) as (ia & h2 & E2 & (pl & T) & K). rewrite E2. destruct T as (th & head & H2 & X).
  destruct (malloc_is _ _ (BCTag None (Some (next h)) (Some (next ha)) (Some ia)) H2) as (h3 & E3 & H3 & _).
  rewrite E3. eexists _, _. split; [reflexivity|].
  exists pl, [mkCP (next ha) 0 0 0 cempty_node], ia, (next h), 0%nat. split; [|split; [reflexivity|split; [discriminate|split; [|exact K]]]].
  - exists th, head. split; [|exact X]. refine (heap_perm _ _ _ H3 _). unfold compat_blocks. cbn [ct_raw ct_header new_tag ct_tag c_nodes c_node cn_start cempty_node c_frame cn_frame flat_map c_frame_blocks c_first c_tail c_addr app]. perm.
  - destruct X as (Et & _). destruct pl as [|q [|q' pl]]; [discriminate Et| |discriminate Et].
    injection Et as Eq. repeat constructor. unfold linked. rewrite <- Eq. exact I.
Qed.

(** ** Getting *)

Lemma c_frames_in l m q f : In q l -> incl (flat_map c_frame_blocks l) m -> cn_frame (c_node q) = Some f ->
  In (c_self q, BCFrame (cf_id f) (cf_size f) (cf_flags f) (Some (c_data q)) (Some (c_points q))) m /\ In (c_data q, BBytes (cf_data f)) m.
Proof.
  intros I J F. assert (X : incl (c_frame_blocks q) m).
  { intros x Ix. apply J, in_flat_map. eauto. }
  unfold c_frame_blocks in X. rewrite F in X. split; apply X; [now left|right; now left].
Qed.

Lemma get_from_is h m id cl : heap_is h m -> incl (c_nodes cl) m -> incl (flat_map c_frame_blocks cl) m ->
  forall s2 s1 fuel, cl = s1 ++ s2 -> (length s2 < fuel)%nat ->
  agrees (c_pointer cl) (get_from_list (map c_node s2) id) (get_from_loop fuel (c_first s2) id h).
Proof.
  intros H In' If. induction s2 as [|q s2 IH]; intros s1 fuel El L; (destruct fuel; [cbn [length] in L; lia|]).
  - cbn [map get_from_list c_first get_from_loop]. now apply agrees_ok.
  - cbn [map get_from_list c_first get_from_loop]. destruct (c_nodes_in _ _ _ _ _ El In') as (s & la & Iq).
    rewrite (load_cnode_is _ _ _ _ _ _ _ H Iq). cbn [bind]. unfold c_frame.
    assert (Iq' : In q cl) by (rewrite El; apply in_elt).
    destruct (cn_frame (c_node q)) as [f|] eqn:F; [|now apply agrees_ok].
    destruct (c_frames_in _ _ _ _ Iq' If F) as (If1 & _).
    rewrite (load_cframe_is _ _ _ _ _ _ _ _ H If1). cbn [bind].
    apply agrees_same. intros i _. apply agrees_same. intros b _. destruct b.
    + apply agrees_ok. exists q. auto.
    + apply (IH (s1 ++ [q])); [now rewrite <- app_assoc|cbn [length] in L; lia].
Qed.

Lemma laid_parts h a c pl cl R : ctag_laid h a c pl cl R -> exists m r hd ia,
  heap_is h m /\ In (a, BCTag r (Some hd) (c_first cl) (Some ia)) m /\ incl (c_nodes cl) m /\ incl (flat_map c_frame_blocks cl) m
  /\ (length cl < enough h)%nat /\ ct_frames c = map c_node cl.
Proof.
  intros (ia & ah & ar & (th & head & H & X) & Y). eexists _, _, _, _. split; [exact H|].
  split; [|split; [|split; [|split; [|apply Y]]]].
  - rewrite !in_app_iff. unfold compat_blocks. cbn [In]. auto.
  - intros x Ix. unfold compat_blocks. rewrite !in_app_iff. cbn [In]. rewrite !in_app_iff. tauto.
  - intros x Ix. unfold compat_blocks. rewrite !in_app_iff. cbn [In]. rewrite !in_app_iff. tauto.
  - apply heap_size in H. unfold compat_blocks in H. cbn [app] in H. rewrite !app_length in H. cbn [length] in H. rewrite !app_length, c_nodes_length in H.
    unfold enough. lia.
Qed.

Lemma get_compat_is h a c pl cl R id : ctag_laid h a c pl cl R ->
  agrees (c_pointer cl) (get_compat (Some c) id) (get_compat_h (Some a) id h).
Proof.
  intros T. destruct (laid_parts _ _ _ _ _ _ T) as (m & r & hd & ia & H & It & In' & If & L & Ef).
  unfold get_compat, get_compat_h. cbn [deref bind]. rewrite (load_ctag_is _ _ _ _ _ _ _ H It). cbn [bind].
  rewrite Ef. unfold get_from_list_h. now apply (get_from_is h m id cl H In' If cl []).
Qed.

(** ** Replacing *)

(** The node [q] gets the frame [f]. *)
Definition with_cframe (q : cpnode) (self data pts : nat) (f : cframe) : cpnode :=
  mkCP (c_addr q) self data pts (mkCNode (Some f) (cn_start (c_node q))).

Definition c_matches (f : cframe) (b : bool) (q : cpnode) : Prop :=
  exists g, cn_frame (c_node q) = Some g /\ memcmp_cells 4 (cf_id g) (cf_id f) = Ok b.

Definition c_replaced (s1 s2 : list cpnode) (self data pts : nat) (f : cframe) (m : list (nat * block)) (v : clist) (h : heap) : Prop :=
  exists u q w, s2 = u ++ q :: w /\ Forall (c_matches f false) u /\ c_matches f true q
    /\ ~ In (c_self q) (map fst (live h)) /\ ~ In (c_data q) (map fst (live h))
    /\ let l := u ++ with_cframe q self data pts f :: w in
       v = map c_node l /\ heap_is h (c_nodes (s1 ++ l) ++ flat_map c_frame_blocks (s1 ++ l) ++ m).

Lemma add_uniq_is h cl m self data pts f :
  heap_is h (c_nodes cl ++ flat_map c_frame_blocks cl
             ++ (self, BCFrame (cf_id f) (cf_size f) (cf_flags f) (Some data) (Some pts)) :: (data, BBytes (cf_data f)) :: m) ->
  forall s2 s1 fuel, cl = s1 ++ s2 -> (length s2 < fuel)%nat ->
  agrees (c_replaced s1 s2 self data pts f m) (add_uniq_to_list (map c_node s2) f) (add_uniq_loop fuel (c_first s2) (Some self) h).
Proof.
  intros H. set (B1 := (self, _)) in *. set (B2 := (data, _)) in *.
  induction s2 as [|q s2 IH]; intros s1 fuel El L; (destruct fuel; [cbn [length] in L; lia|]).
  - reflexivity.
  - cbn [map add_uniq_to_list c_first add_uniq_loop].
    assert (In' : incl (c_nodes cl) (c_nodes cl ++ flat_map c_frame_blocks cl ++ B1 :: B2 :: m)) by (intros x Ix; apply in_or_app; now left).
    assert (If : incl (flat_map c_frame_blocks cl) (c_nodes cl ++ flat_map c_frame_blocks cl ++ B1 :: B2 :: m)) by (intros x Ix; rewrite !in_app_iff; tauto).
    destruct (c_nodes_in _ _ _ _ _ El In') as (s & la & Iq).
    rewrite (load_cnode_is _ _ _ _ _ _ _ H Iq). cbn [bind].
    assert (Iq' : In q cl) by (rewrite El; apply in_elt).
    unfold c_frame. destruct (cn_frame (c_node q)) as [g|] eqn:F; [|reflexivity]. cbn [deref bind].
    destruct (c_frames_in _ _ _ _ Iq' If F) as (If1 & _).
    rewrite (load_cframe_is _ _ _ _ _ _ _ _ H If1). cbn [bind].
    rewrite (load_cframe_is h _ self (cf_id f) (cf_size f) (cf_flags f) (Some data) (Some pts) H) by (rewrite !in_app_iff; cbn [In]; tauto).
    cbn [bind]. apply agrees_same. intros b Eb. destruct b.
    + clear IH. destruct (c_nodes_at s1 q s2) as (s' & la' & R & P).
      assert (P0 := P q eq_refl eq_refl). unfold c_frame in P0. rewrite F in P0.
      unfold free_frame_h. rewrite (load_cframe_is _ _ _ _ _ _ _ _ H If1). cbn [bind].
      set (F1 := flat_map c_frame_blocks s1). set (F2 := flat_map c_frame_blocks s2).
      assert (H0 : heap_is h ((c_data q, BBytes (cf_data g)) :: (c_self q, BCFrame (cf_id g) (cf_size g) (cf_flags g) (Some (c_data q)) (Some (c_points q)))
         :: (c_addr q, BCNode (Some (c_self q)) s' la' (c_first s2)) :: R ++ F1 ++ F2 ++ B1 :: B2 :: m)).
      { refine (heap_perm _ _ _ H _). rewrite El, flat_map_app. cbn [flat_map]. unfold c_frame_blocks at 2. rewrite F. rewrite P0. fold F1 F2. perm. }
      destruct (free_is _ _ _ _ H0) as (h1 & E1 & H1 & _). rewrite E1. cbn [bind].
      destruct (free_is _ _ _ _ H1) as (h2 & E2 & H2 & _). rewrite E2. cbn [bind].
      ldc H2. destruct (store_is _ _ _ _ (BCNode (Some self) s' la' (c_first s2)) H2) as (h3 & E3 & H3 & _). rwo E3.
      apply agrees_ok. exists [], q, s2. split; [reflexivity|]. split; [constructor|]. split; [exists g; now split|].
      split; [|split].
      { apply (not_live _ _ _ H3). exact (heap_disjoint _ _ _ _ H1). }
      { apply (not_live _ _ _ H3). intros J. apply (heap_disjoint _ _ _ _ H0). right. exact J. }
      cbn zeta. split; [reflexivity|]. refine (heap_perm _ _ _ H3 _).
      rewrite flat_map_app. cbn [flat_map app]. rewrite (P (with_cframe q self data pts f)) by reflexivity.
      unfold c_frame_blocks at 2. cbn [with_cframe c_node cn_frame c_self c_data c_points c_frame]. fold F1 F2 B1 B2. perm.
    + eapply agrees_tail_l; [apply (IH (s1 ++ [q]) fuel); [rewrite <- app_assoc; exact El|cbn [length] in L; lia]|].
      intros v h' (u & q' & w & E & U & M & G1 & G2 & X). cbn zeta in X. destruct X as (-> & H').
      apply agrees_ok. exists (q :: u), q', w. rewrite E. split; [reflexivity|]. split; [constructor; [exists g; now split|exact U]|].
      split; [exact M|]. split; [exact G1|]. split; [exact G2|]. cbn zeta. split; [reflexivity|]. rewrite <- !app_assoc in H'. exact H'.
Qed.
