(** The programs that walk over a list, and what they access. *)
From Verif Require Import BaseFacts Spec ListFacts HeapFacts HeapFrameFacts HeapListFacts HeapTagFacts SpecShared SharedFacts SharedRunFacts SharedSameFacts SharedLogFacts SharedChangeFacts.
From Coq Require Import Lia.

(** The frame of a node is in the heap. *)
Lemma frame_there p m : incl (p_frame_blocks p) m -> forall a, p_frame p = Some a -> exists x, In (a, x) m.
Proof.
  intros I a. unfold p_frame, p_frame_blocks in *. destruct (n_frame (p_node p)) as [e|]; [|discriminate]. intros [= <-].
  eexists. apply I. now left.
Qed.

Lemma ptr_eqb_refl p : ptr_eqb p p = true.
Proof. destruct p; [apply Nat.eqb_refl|reflexivity]. Qed.
Lemma ptr_eqb_neq p q : p <> q -> ptr_eqb p q = false.
Proof. intros N. destruct (ptr_eqb p q) eqn:E; [|reflexivity]. apply ptr_eqb_true in E. contradiction. Qed.

(** A list as the library makes them, and its frames. *)
Definition good (pl : list pnode) : Prop :=
  (exists p, pl = [p] /\ p_node p = empty_node) \/ (pl <> [] /\ forall p, In p pl -> exists e, p_node p = mkNode (Some e) true).
Definition listed (pl : list pnode) : list (lay * fptr) :=
  flat_map (fun p => match n_frame (p_node p) with Some e => [(p_lay p, e)] | None => [] end) pl.
Definition wanted (id : list byte) (x : lay * fptr) : bool := named id (fp_frame (snd x)).
(** The reads of a walk to the end. *)
Definition walk (pl : list pnode) : list access :=
  flat_map (fun p => [Reads (p_addr p) NodeFrame; Reads (p_addr p) NodeNext]) pl.

Section Old.
  Variable old : list nat.
  Notation seen := (filter (at_old old)).
  Notation leads := (leads old).

  Lemma e_remove_by_id h head q s2 m arg id e : points_to arg id -> length id = 4%nat ->
    n_frame (p_node q) = Some e -> named id (fp_frame e) = true ->
    forall s0 s1 fuel, heap_is h (node_blocks head (s0 ++ s1 ++ q :: s2) ++ m) -> incl old (map fst (node_blocks head (s0 ++ s1 ++ q :: s2) ++ m)) ->
    incl (all_frame_blocks (s1 ++ q :: s2)) m -> pl_sane (s1 ++ q :: s2) ->
    (forall r, In r s1 -> exists e, n_frame (p_node r) = Some e /\ named id (fp_frame e) = false) -> (length s1 < fuel)%nat ->
    leads (remove_by_id_p fuel (first_addr (s1 ++ q :: s2)) arg) h (seen (cut_log q s2)) []
      (fun a h1 => a = Some (l_self (p_lay q)) /\ heap_is h1 (node_blocks head (s0 ++ s1 ++ closed_up q s2) ++ m)).
  Proof.
    intros P L4 Fq Nq. intros s0 s1. revert s0. induction s1 as [|p s1 IH]; intros s0 fuel H O J S N L; (destruct fuel; [cbn [length] in L; lia|]).
    - cbn [app first_addr remove_by_id_p] in *.
      assert (I : incl (node_blocks head (q :: s2)) (node_blocks head (s0 ++ q :: s2) ++ m)).
      { apply incl_appl. rewrite nodes_app. apply incl_appr, incl_refl. }
      assert (J' : incl (p_frame_blocks q) (node_blocks head (s0 ++ q :: s2) ++ m)) by (apply incl_frames_cons in J as (J & _); now apply incl_appr).
      eapply e_read; [eapply d_id_matches; [exact H|exact I|exact J'|exact Fq|eapply S; [now left|exact Fq]|exact P|exact L4]|reflexivity|].
      rewrite Nq. pose proof I as I1. apply incl_nodes_cons in I1 as (I1 & _).
      eapply e_peek; [exact H|exact I1|reflexivity|]. rewrite <- (app_nil_r (seen _)).
      eapply e_cut; [exact H|exact O|]. intros h1 H1. apply e_ret. split; [|exact H1]. unfold p_frame. now rewrite Fq.
    - cbn [app first_addr remove_by_id_p] in *.
      destruct (N p (or_introl eq_refl)) as (ep & Fp & Np).
      assert (I : incl (node_blocks head (p :: s1 ++ q :: s2)) (node_blocks head (s0 ++ p :: s1 ++ q :: s2) ++ m)).
      { apply incl_appl. rewrite nodes_app. apply incl_appr, incl_refl. }
      pose proof J as J0. apply incl_frames_cons in J as (J & J').
      eapply e_read; [eapply d_id_matches; [exact H|exact I|now apply incl_appr|exact Fp|eapply S; [now left|exact Fp]|exact P|exact L4]|reflexivity|].
      rewrite Np. apply incl_nodes_cons in I as (I & _). eapply e_peek; [exact H|exact I|reflexivity|].
      assert (E : forall t, s0 ++ p :: t = (s0 ++ [p]) ++ t) by (intros t; now rewrite <- app_assoc).
      rewrite E in H, O. rewrite E. apply IH; auto; [intros r er Ir; apply S; now right|intros r Ir; apply N; now right|cbn [length] in L; lia].
  Qed.

  Lemma e_remove_frame h head q s2 m to : p_frame q = to -> (forall a, to = Some a -> exists x, In (a, x) m) ->
    forall s0 s1 fuel, heap_is h (node_blocks head (s0 ++ s1 ++ q :: s2) ++ m) -> incl old (map fst (node_blocks head (s0 ++ s1 ++ q :: s2) ++ m)) ->
    incl (all_frame_blocks (s1 ++ q :: s2)) m ->
    (forall r, In r s1 -> p_frame r <> to) -> (length s1 < fuel)%nat ->
    leads (remove_frame_p fuel (first_addr (s1 ++ q :: s2)) to) h (seen (cut_log q s2)) []
      (fun a h1 => a = to /\ heap_is h1 (node_blocks head (s0 ++ s1 ++ closed_up q s2) ++ m)).
  Proof.
    intros Fq Th s0 s1. revert s0. induction s1 as [|p s1 IH]; intros s0 fuel H O J N L; (destruct fuel; [cbn [length] in L; lia|]).
    - cbn [app first_addr remove_frame_p] in *.
      assert (I : incl (node_blocks head (q :: s2)) (node_blocks head (s0 ++ q :: s2) ++ m)).
      { apply incl_appl. rewrite nodes_app. apply incl_appr, incl_refl. }
      apply incl_nodes_cons in I as (I & _). eapply e_peek; [exact H|exact I|reflexivity|].
      destruct (d_same_pointer h _ (p_frame q) to H) as (l & D & F).
      { rewrite Fq. intros a Ea. destruct (Th a Ea) as (x & Ix). exists x. apply in_or_app. now right. }
      { intros a Ea. destruct (Th a Ea) as (x & Ix). exists x. apply in_or_app. now right. }
      eapply e_read; [exact D|exact F|]. rewrite Fq, ptr_eqb_refl. rewrite <- (app_nil_r (seen _)).
      eapply e_cut; [exact H|exact O|]. intros h1 H1. now apply e_ret.
    - cbn [app first_addr remove_frame_p] in *.
      assert (I : incl (node_blocks head (p :: s1 ++ q :: s2)) (node_blocks head (s0 ++ p :: s1 ++ q :: s2) ++ m)).
      { apply incl_appl. rewrite nodes_app. apply incl_appr, incl_refl. }
      apply incl_nodes_cons in I as (I & _). apply incl_frames_cons in J as (J & J').
      eapply e_peek; [exact H|exact I|reflexivity|].
      destruct (d_same_pointer h _ (p_frame p) to H) as (l & D & F).
      { apply frame_there. now apply incl_appr. }
      { intros a Ea. destruct (Th a Ea) as (x & Ix). exists x. apply in_or_app. now right. }
      eapply e_read; [exact D|exact F|]. rewrite ptr_eqb_neq by (apply N; now left).
      eapply e_peek; [exact H|exact I|reflexivity|].
      assert (E : forall t, s0 ++ p :: t = (s0 ++ [p]) ++ t) by (intros t; now rewrite <- app_assoc).
      rewrite E in H, O. rewrite E. apply IH; auto; [intros r Ir; apply N; now right|cbn [length] in L; lia].
  Qed.

  (** FrameList_remove_frame when there is no such node. *)
  Lemma e_remove_absent h m head to : heap_is h m -> (forall a, to = Some a -> exists x, In (a, x) m) ->
    forall pl fuel, incl (node_blocks head pl) m -> incl (all_frame_blocks pl) m -> (forall r, In r pl -> p_frame r <> to) -> (length pl < fuel)%nat ->
    leads (remove_frame_p fuel (first_addr pl) to) h [] [] (fun a h1 => a = None /\ h1 = h).
  Proof.
    intros H Th. induction pl as [|p pl IH]; intros fuel I J N L; (destruct fuel; [cbn [length] in L; lia|]).
    - now apply e_ret.
    - cbn [first_addr remove_frame_p]. apply incl_nodes_cons in I as (I & I'). apply incl_frames_cons in J as (J & J').
      eapply e_peek; [exact H|exact I|reflexivity|].
      destruct (d_same_pointer h _ (p_frame p) to H) as (l & D & F); [now apply frame_there|exact Th|].
      eapply e_read; [exact D|exact F|]. rewrite ptr_eqb_neq by (apply N; now left).
      eapply e_peek; [exact H|exact I|reflexivity|]. apply IH; auto; [intros r Ir; apply N; now right|cbn [length] in L; lia].
  Qed.

  Lemma e_replace h head q s2 m a l f : p_frame q = Some a -> (exists x, In (a, x) m) ->
    forall s0 s1 fuel, heap_is h (node_blocks head (s0 ++ s1 ++ q :: s2) ++ m) ->
    incl (all_frame_blocks (s1 ++ q :: s2)) m -> (forall r, In r s1 -> p_frame r <> Some a) -> (length s1 < fuel)%nat ->
    leads (replace_frame_p fuel (first_addr (s1 ++ q :: s2)) (Some a) (Some (l_self l))) h (seen [Writes (p_addr q) NodeFrame]) []
      (fun _ h1 => heap_is h1 (node_blocks head (s0 ++ s1 ++ mkP (p_addr q) l (mkNode (Some f) (n_start (p_node q))) :: s2) ++ m)).
  Proof.
    intros Fq (xa & Ia) s0 s1. revert s0. induction s1 as [|p s1 IH]; intros s0 fuel H J N L; (destruct fuel; [cbn [length] in L; lia|]).
    - cbn [app first_addr replace_frame_p] in *.
      assert (I : incl (node_blocks head (q :: s2)) (node_blocks head (s0 ++ q :: s2) ++ m)).
      { apply incl_appl. rewrite nodes_app. apply incl_appr, incl_refl. }
      apply incl_nodes_cons in I as (I & _). eapply e_peek; [exact H|exact I|reflexivity|].
      destruct (d_same_pointer h _ (p_frame q) (Some a) H) as (lg & D & F).
      { rewrite Fq. intros b [= <-]. exists xa. apply in_or_app. now right. }
      { intros b [= <-]. exists xa. apply in_or_app. now right. }
      eapply e_read; [exact D|exact F|]. rewrite Fq, ptr_eqb_refl. apply e_tail. rewrite <- (app_nil_r (seen _)). unfold set_ptr.
      rewrite nodes_app in H. cbn [node_blocks first_addr] in H.
      set (QQ := BNode (p_frame q) (if n_start (p_node q) then Some head else None) (first_addr s2)) in *.
      eapply e_set with (x := QQ) (m' := seg head s0 (Some (p_addr q)) ++ node_blocks head s2 ++ m); [exact H|perm|reflexivity|].
      intros h1 H1. apply e_ret. rewrite nodes_app. cbn [node_blocks first_addr p_addr p_node n_start].
      unfold p_frame at 1. cbn [p_node n_frame p_lay]. eapply heap_perm; [exact H1|perm].
    - cbn [app first_addr replace_frame_p] in *.
      assert (I : incl (node_blocks head (p :: s1 ++ q :: s2)) (node_blocks head (s0 ++ p :: s1 ++ q :: s2) ++ m)).
      { apply incl_appl. rewrite nodes_app. apply incl_appr, incl_refl. }
      apply incl_nodes_cons in I as (I & _). apply incl_frames_cons in J as (J & J').
      eapply e_peek; [exact H|exact I|reflexivity|].
      destruct (d_same_pointer h _ (p_frame p) (Some a) H) as (lg & D & F).
      { apply frame_there. now apply incl_appr. }
      { intros b [= <-]. exists xa. apply in_or_app. now right. }
      eapply e_read; [exact D|exact F|]. rewrite ptr_eqb_neq by (apply N; now left).
      eapply e_peek; [exact H|exact I|reflexivity|].
      assert (E : forall t, s0 ++ p :: t = (s0 ++ [p]) ++ t) by (intros t; now rewrite <- app_assoc).
      rewrite E in H. rewrite E. apply IH; auto; [intros r Ir; apply N; now right|cbn [length] in L; lia].
  Qed.

  (** FrameList_add_frame: into an empty list, at the end of another. *)
  Lemma e_add_first h head p m n l e : heap_is h (node_blocks head [p] ++ m) -> p_addr p = head -> p_node p = empty_node ->
    leads (FrameList_add_frame_p n (Some head) (Some (l_self l))) h (seen [Writes head NodeStart; Writes head NodeFrame]) []
      (fun _ h1 => heap_is h1 (node_blocks head [mkP head l (mkNode (Some e) true)] ++ m)).
  Proof.
    intros H Ep Np. unfold FrameList_add_frame_p. cbn [node_blocks app first_addr] in *. unfold p_frame in *. rewrite Np, Ep in H. cbn [empty_node n_frame n_start] in H.
    eapply e_peek; [exact H|now left|reflexivity|]. change [?x; ?y] with ([x] ++ [y]). rewrite filter_app. unfold set_ptr.
    eapply e_set; [exact H|reflexivity|reflexivity|]. intros h1 H1. apply e_tail. rewrite <- (app_nil_r (seen [_])).
    eapply e_set; [exact H1|reflexivity|reflexivity|]. intros h2 H2. apply e_ret. exact H2.
  Qed.
  Lemma e_add_more h head pl q m n l e : heap_is h (node_blocks head (pl ++ [q]) ++ m) -> incl old (map fst (node_blocks head (pl ++ [q]) ++ m)) ->
    first_addr (pl ++ [q]) = Some head -> (forall p, In p (pl ++ [q]) -> n_start (p_node p) = true) -> (length pl < n)%nat ->
    leads (FrameList_add_frame_p n (Some head) (Some (l_self l))) h (seen [Writes (p_addr q) NodeNext]) []
      (fun _ h1 => exists c, heap_is h1 (node_blocks head ((pl ++ [q]) ++ [mkP c l (mkNode (Some e) true)]) ++ m) /\ ~ In c old).
  Proof.
    intros H O Fa St L. unfold FrameList_add_frame_p, FrameList_new_p.
    assert (G : exists f nx, In (head, BNode f (Some head) nx) (node_blocks head (pl ++ [q]))).
    { destruct pl as [|p pl]; cbn [app first_addr] in Fa; injection Fa as Fa.
      - cbn [app node_blocks]. rewrite (St q ltac:(now left)), Fa. eexists _, _. now left.
      - cbn [app node_blocks]. rewrite (St p ltac:(now left)), Fa. eexists _, _. now left. }
    destruct G as (f & nx & G).
    eapply e_peek; [exact H|apply in_or_app; left; exact G|reflexivity|].
    eapply e_make; [exact H|exact O|]. intros c h1 H1 Nc. unfold set_ptr.
    eapply e_set_new; [exact H1|reflexivity|reflexivity|exact Nc|]. intros h2 H2.
    eapply e_peek; [exact H2|right; apply in_or_app; left; exact G|reflexivity|].
    eapply e_set_new; [exact H2|reflexivity|reflexivity|exact Nc|]. intros h3 H3.
    destruct (d_last_node _ _ head q H3 pl n) as (lg & D & F); [|exact L|].
    { intros x Ix. right. apply in_or_app. now left. }
    rewrite Fa in D. eapply e_read; [exact D|exact F|]. apply e_tail. rewrite <- (app_nil_r (seen _)).
    rewrite nodes_app in H3. cbn [node_blocks first_addr] in H3.
    set (QQ := BNode (p_frame q) (if n_start (p_node q) then Some head else None) None) in *.
    set (C := (c, BNode (Some (l_self l)) (Some head) None)) in *.
    eapply e_set with (x := QQ) (m' := C :: seg head pl (Some (p_addr q)) ++ m); [exact H3|perm|reflexivity|].
    intros h4 H4. apply e_ret. exists c. split; [|exact Nc].
    rewrite nodes_app, seg_app. cbn [next_of seg first_addr node_blocks p_addr p_node n_start node_block].
    unfold node_block. change (p_frame (mkP c l (mkNode (Some e) true))) with (Some (l_self l)). fold C. eapply heap_perm; [exact H4|perm].
  Qed.

  Lemma new_node h hs sl m p : heap_is h (node_blocks hs sl ++ m) -> incl old (map fst m) -> In p sl -> ~ In (p_addr p) old.
  Proof.
    intros (_ & D & _) O I J. apply O in J. rewrite map_app in D.
    assert (K : In (p_addr p) (map fst (node_blocks hs sl))).
    { clear D. induction sl as [|r sl IH]; [destruct I|]. cbn [node_blocks map fst]. destruct I as [->|I]; [now left|right; auto]. }
    revert K J D. generalize (map fst (node_blocks hs sl)) (map fst m) (p_addr p). intros l1 l2 x K J. induction l1 as [|y l1 IH]; [destruct K|].
    cbn [app]. intros D. inversion D as [|? ? Ny D']; subst. destruct K as [->|K]; [apply Ny, in_or_app; now right|auto].
  Qed.

  Lemma e_get_frames_loop head hs arg id R0 n : points_to arg id -> length id = 4%nat -> incl old (map fst R0) ->
    forall pl fuel h sl, heap_is h (node_blocks hs sl ++ R0) -> first_addr sl = Some hs -> good sl ->
    incl (node_blocks head pl) R0 -> incl (all_frame_blocks pl) R0 -> pl_sane pl -> (forall p, In p pl -> exists e, n_frame (p_node p) = Some e) ->
    (length pl < fuel)%nat -> (length sl + length pl <= n)%nat ->
    leads (get_frames_loop_p n fuel (first_addr pl) arg (Some hs)) h [] (walk pl)
      (fun _ h1 => exists sl', heap_is h1 (node_blocks hs sl' ++ R0) /\ first_addr sl' = Some hs /\ good sl'
                     /\ listed sl' = listed sl ++ filter (wanted id) (listed pl) /\ (length sl' <= length sl + length pl)%nat).
  Proof.
    intros P L4 O. induction pl as [|p pl IH]; intros fuel h sl H Fa G I J S Al L Ln; (destruct fuel; [cbn [length] in L; lia|]).
    - apply e_ret. exists sl. cbn [listed flat_map filter length]. rewrite app_nil_r. repeat (split; [assumption|]). split; [reflexivity|lia].
    - cbn [first_addr get_frames_loop_p]. cbn [length] in L, Ln.
      destruct (Al p (or_introl eq_refl)) as (e & Fp).
      assert (I0 : incl (node_blocks head (p :: pl)) (node_blocks hs sl ++ R0)) by now apply incl_appr.
      apply incl_nodes_cons in I as (I & I'). apply incl_frames_cons in J as (J & J').
      change (walk (p :: pl)) with (Reads (p_addr p) NodeFrame :: Reads (p_addr p) NodeNext :: walk pl).
      eapply e_look; [exact H|apply in_or_app; right; exact I|reflexivity|]. unfold p_frame at 1. rewrite Fp. cbv iota.
      eapply e_read; [eapply d_id_matches; [exact H|exact I0|now apply incl_appr|exact Fp|eapply S; [now left|exact Fp]|exact P|exact L4]|reflexivity|].
      set (Mid := fun (_ : unit) h1 => exists sl1, heap_is h1 (node_blocks hs sl1 ++ R0) /\ first_addr sl1 = Some hs /\ good sl1
                     /\ listed sl1 = listed sl ++ filter (wanted id) [(p_lay p, e)] /\ (length sl1 <= length sl + 1)%nat).
      eapply e_bind with (W1 := []) (R1 := []) (W2 := []) (Q1 := Mid); [| |reflexivity|apply incl_refl].
      + unfold Mid. cbn [filter]. unfold wanted at 1. cbn [snd]. destruct (named id (fp_frame e)).
        2:{ apply e_ret. exists sl. rewrite app_nil_r. repeat (split; [assumption|]). split; [reflexivity|lia]. }
        eapply e_peek; [exact H|apply in_or_app; right; exact I|reflexivity|]. unfold p_frame. rewrite Fp.
        destruct G as [(r & -> & Nr)|(Ne & Gs)].
        * assert (Er : p_addr r = hs) by (cbn [first_addr] in Fa; congruence).
          assert (Nh : ~ In hs old) by (rewrite <- Er; eapply new_node; [exact H|exact O|now left]).
          eapply e_weak.
          -- pose proof (e_add_first _ _ _ _ n (p_lay p) e H Er Nr) as K. change [?x; ?y] with ([x] ++ [y]) in K.
             rewrite filter_app, !unseen_writes in K by exact Nh. exact K.
          -- apply incl_refl.
          -- intros a h1 H1. exists [mkP hs (p_lay p) (mkNode (Some e) true)]. split; [exact H1|]. split; [reflexivity|].
             split; [right; split; [discriminate|intros x [<-|[]]; eexists; reflexivity]|].
             unfold listed. cbn [flat_map]. rewrite Nr. cbn. split; [reflexivity|lia].
        * destruct (exists_last Ne) as (pre & q & ->).
          assert (Nq : ~ In (p_addr q) old) by (eapply new_node; [exact H|exact O|apply in_or_app; right; now left]).
          rewrite app_length in Ln. cbn [length] in Ln.
          eapply e_weak.
          -- pose proof (fun St L => e_add_more _ _ _ _ _ n (p_lay p) e H ltac:(intros x Ix; rewrite map_app; apply in_or_app; right; apply O, Ix) Fa St L) as K.
             rewrite (unseen_writes _ _ _ Nq) in K. apply K; [|lia]. intros r Ir. destruct (Gs r Ir) as (er & ->). reflexivity.
          -- apply incl_refl.
          -- intros a h1 (c & H1 & _). eexists. split; [exact H1|]. split; [destruct pre; exact Fa|].
             split; [|split].
             ++ right. split; [destruct pre; discriminate|]. intros r Ir. apply in_app_iff in Ir as [Ir|[<-|[]]]; [auto|eexists; reflexivity].
             ++ unfold listed. rewrite !flat_map_app. cbn. now rewrite app_nil_r.
             ++ rewrite (app_length (pre ++ [q])). cbn [length]. lia.
      + intros [] h1 (sl1 & H1 & Fa1 & G1 & L1 & Len).
        eapply e_look; [exact H1|apply in_or_app; right; exact I|reflexivity|].
        eapply e_weak; [apply (IH fuel h1 sl1); auto; try lia|apply incl_refl|].
        * intros r er Ir. apply S. now right.
        * intros r Ir. apply Al. now right.
        * intros _ h2 (sl2 & H2 & Fa2 & G2 & L2 & Len2). exists sl2. repeat (split; [assumption|]). split; [|cbn [length]; lia].
          rewrite L2, L1, <- app_assoc. f_equal. change (listed (p :: pl)) with ((match n_frame (p_node p) with Some e => [(p_lay p, e)] | None => [] end) ++ listed pl).
          rewrite Fp, filter_app. reflexivity.
  Qed.

  Lemma e_get_frames head arg id R0 n h pl : points_to arg id -> length id = 4%nat -> heap_is h R0 -> incl old (map fst R0) ->
    good pl -> incl (node_blocks head pl) R0 -> incl (all_frame_blocks pl) R0 -> pl_sane pl -> (length pl < n)%nat ->
    leads (FrameList_get_frames_by_id_p n (first_addr pl) arg) h [] (match listed pl with [] => map (fun p => Reads (p_addr p) NodeFrame) pl | _ => walk pl end)
      (fun q h1 => exists hs sl, q = Some hs /\ heap_is h1 (node_blocks hs sl ++ R0) /\ first_addr sl = Some hs /\ good sl
                     /\ listed sl = filter (wanted id) (listed pl) /\ (length sl <= S (length pl))%nat).
  Proof.
    intros P L4 H O G I J S L. unfold FrameList_get_frames_by_id_p, FrameList_new_p.
    eapply e_make; [exact H|exact O|]. intros hs h1 H1 Nh.
    set (s0 := [mkP hs (mkLay 0 0 0 0 0 0) empty_node]).
    assert (H1' : heap_is h1 (node_blocks hs s0 ++ R0)) by exact H1.
    assert (G0 : good s0) by (left; eexists; split; reflexivity).
    eapply e_bind with (W1 := []) (W2 := []) (R2 := []);
      [|intros a h2 q; apply e_ret; exact (ex_intro _ hs (match q with ex_intro _ sl x => ex_intro _ sl (conj eq_refl x) end))|reflexivity|rewrite app_nil_r; apply incl_refl].
    destruct G as [(p & -> & Np)|(Ne & Gs)].
    - destruct n; [cbn [length] in L; lia|]. cbn [first_addr get_frames_loop_p]. unfold listed. cbn [flat_map map]. rewrite Np. cbn [n_frame empty_node app].
      apply incl_nodes_cons in I as (I & _). eapply e_look; [exact H1'|apply in_or_app; right; exact I|reflexivity|].
      unfold p_frame. rewrite Np. cbn [n_frame empty_node]. apply e_ret. exists s0. split; [exact H1'|]. split; [reflexivity|]. split; [exact G0|]. split; [reflexivity|cbn; lia].
    - assert (Eq : match listed pl with [] => map (fun p => Reads (p_addr p) NodeFrame) pl | _ => walk pl end = walk pl).
      { destruct pl as [|p pl]; [congruence|]. destruct (Gs p (or_introl eq_refl)) as (e & Ep). cbn [listed flat_map]. now rewrite Ep. }
      rewrite Eq. eapply e_weak; [apply (e_get_frames_loop head hs arg id R0 n P L4 O pl n h1 s0); auto|apply incl_refl|].
      + intros p Ip. destruct (Gs p Ip) as (e & ->). now exists e.
      + intros a h2 (sl & H2 & F2 & G2 & L2 & Len). exists sl. repeat (split; [assumption|]). exact Len.
  Qed.

  (** The caller walks over a list. *)
  Lemma e_frames_on hs h m : heap_is h m -> forall sl fuel, incl (node_blocks hs sl) m -> (forall p, In p sl -> exists e, n_frame (p_node p) = Some e) ->
    (length sl < fuel)%nat -> leads (frames_on fuel (first_addr sl)) h [] [] (fun a h1 => a = map (fun x => Some (l_self (fst x))) (listed sl) /\ h1 = h).
  Proof.
    intros H. induction sl as [|p sl IH]; intros fuel I Al L; (destruct fuel; [cbn [length] in L; lia|]).
    - now apply e_ret.
    - cbn [first_addr frames_on]. apply incl_nodes_cons in I as (I & I'). destruct (Al p (or_introl eq_refl)) as (e & Fp).
      eapply e_peek; [exact H|exact I|reflexivity|]. unfold p_frame at 1. rewrite Fp. cbv iota.
      eapply e_peek; [exact H|exact I|reflexivity|].
      eapply e_bind with (W1 := []) (R1 := []); [apply (IH fuel); auto; [intros r Ir; apply Al; now right|cbn [length] in L; lia]| |reflexivity|apply incl_refl].
      intros a h1 (-> & ->). apply e_ret. split; [|reflexivity]. cbn [listed flat_map]. unfold p_frame. now rewrite Fp.
  Qed.
  Lemma e_frames_on_good hs h m sl fuel : heap_is h m -> good sl -> incl (node_blocks hs sl) m -> (length sl < fuel)%nat ->
    leads (frames_on fuel (first_addr sl)) h [] [] (fun a h1 => a = map (fun x => Some (l_self (fst x))) (listed sl) /\ h1 = h).
  Proof.
    intros H [(p & -> & Np)|(Ne & Gs)] I L.
    - destruct fuel; [cbn in L; lia|]. cbn [first_addr frames_on]. apply incl_nodes_cons in I as (I & _).
      eapply e_peek; [exact H|exact I|reflexivity|]. unfold p_frame, listed. cbn [flat_map]. rewrite Np. cbn [n_frame empty_node]. now apply e_ret.
    - apply (e_frames_on hs h m); auto. intros p Ip. destruct (Gs p Ip) as (e & ->). now exists e.
  Qed.

  Lemma e_unlink hs : forall sl fuel h m, heap_is h (node_blocks hs sl ++ m) -> (forall p, In p sl -> ~ In (p_addr p) old) -> (length sl < fuel)%nat ->
    leads (unlink_p fuel (first_addr sl)) h [] [] (fun _ h1 => heap_is h1 m).
  Proof.
    induction sl as [|p sl IH]; intros fuel h m H N L; (destruct fuel; [cbn [length] in L; lia|]).
    - now apply e_ret.
    - cbn [first_addr unlink_p]. cbn [node_blocks app] in H. eapply e_peek; [exact H|now left|reflexivity|].
      eapply e_drop_new; [exact H|reflexivity|apply N; now left|]. intros h1 H1. apply IH; [exact H1|intros r Ir; apply N; now right|cbn [length] in L; lia].
  Qed.

  Lemma e_nth_found hs h m n tag index x s2 W R Q : heap_is h m -> forall s1 fuel i, incl (node_blocks hs (s1 ++ x :: s2)) m ->
    i + zlen s1 = index -> (length s1 < fuel)%nat ->
    leads (do! fr := look_ptr tag TagFrames in do! _ := remove_frame_p n fr (p_frame x) in do! _ := ID3v2_Frame_free_p (p_frame x) in retp (Some (p_addr x))) h W R Q ->
    leads (delete_nth_loop_p n fuel tag (first_addr (s1 ++ x :: s2)) i index) h W R Q.
  Proof.
    intros H. induction s1 as [|p s1 IH]; intros fuel i I E L K; (destruct fuel; [cbn [length] in L; lia|]).
    - cbn [app first_addr delete_nth_loop_p] in *. apply incl_nodes_cons in I as (I & _). eapply e_peek; [exact H|exact I|reflexivity|].
      replace (i =? index) with true by (unfold zlen in E; cbn [length] in E; lia). exact K.
    - cbn [app first_addr delete_nth_loop_p] in *. apply incl_nodes_cons in I as (I & I'). eapply e_peek; [exact H|exact I|reflexivity|].
      assert (zlen (p :: s1) = zlen s1 + 1) as Z by (unfold zlen; cbn [length]; lia). pose proof (zlen_nonneg s1) as Z0.
      replace (i =? index) with false by lia. eapply e_peek; [exact H|exact I|reflexivity|].
      apply IH; [exact I'|lia|cbn [length] in L; lia|exact K].
  Qed.
  Lemma e_nth_absent hs h m n tag index : heap_is h m -> forall sl fuel i, incl (node_blocks hs sl) m ->
    index < i \/ i + zlen sl <= index -> (length sl < fuel)%nat ->
    leads (delete_nth_loop_p n fuel tag (first_addr sl) i index) h [] [] (fun a h1 => a = None /\ h1 = h).
  Proof.
    intros H. induction sl as [|p sl IH]; intros fuel i I E L; (destruct fuel; [cbn [length] in L; lia|]).
    - now apply e_ret.
    - cbn [first_addr delete_nth_loop_p] in *. apply incl_nodes_cons in I as (I & I'). eapply e_peek; [exact H|exact I|reflexivity|].
      assert (zlen (p :: sl) = zlen sl + 1) as Z by (unfold zlen; cbn [length]; lia). pose proof (zlen_nonneg sl) as Z0.
      replace (i =? index) with false by lia. eapply e_peek; [exact H|exact I|reflexivity|].
      apply IH; [exact I'|lia|cbn [length] in L; lia].
  Qed.

  (** ID3v2_FrameList_free. *)
  Definition free_log (pl : list pnode) : list access :=
    flat_map (fun p => map Frees (match n_frame (p_node p) with Some e => freed (p_lay p) (fp_frame e) | None => [] end) ++ [Frees (p_addr p)]) pl.
  Lemma e_free_list head : forall pl fuel h m, heap_is h (node_blocks head pl ++ all_frame_blocks pl ++ m) -> kinds_ok (map p_node pl) -> (length pl < fuel)%nat ->
    leads (free_list_p fuel (first_addr pl)) h (seen (free_log pl)) [] (fun _ h1 => heap_is h1 (flat_map p_leak pl ++ m)).
  Proof.
    induction pl as [|p pl IH]; intros fuel h m H K L; (destruct fuel; [cbn [length] in L; lia|]).
    - now apply e_ret.
    - cbn [first_addr free_list_p]. rewrite frames_cons in H. cbn [node_blocks app] in H. inversion K as [|? ? K1 K2]; subst.
      set (NB := (p_addr p, BNode (p_frame p) (if n_start (p_node p) then Some head else None) (first_addr pl))) in *.
      eapply e_peek; [exact H|now left|reflexivity|]. cbn [free_log flat_map]. rewrite <- app_assoc. rewrite !filter_app.
      assert (Rest : forall h1, heap_is h1 (p_leak p ++ NB :: node_blocks head pl ++ all_frame_blocks pl ++ m) ->
        leads (do! next_head := look_ptr (Some (p_addr p)) NodeNext in do! _ := drop (Some (p_addr p)) in free_list_p fuel next_head) h1
          (seen [Frees (p_addr p)] ++ seen (free_log pl)) [] (fun _ h1 => heap_is h1 (flat_map p_leak (p :: pl) ++ m))).
      { intros h1 H1. eapply e_peek; [exact H1|apply in_or_app; right; now left|reflexivity|].
        eapply e_drop with (x := snd NB) (m' := node_blocks head pl ++ all_frame_blocks pl ++ p_leak p ++ m); [exact H1|change (p_addr p, snd NB) with NB; perm|].
        intros h2 H2. eapply e_weak; [apply (IH fuel h2 (p_leak p ++ m) H2 K2); cbn [length] in L; lia|apply incl_refl|].
        intros [] h3 H3. eapply heap_perm; [exact H3|]. cbn [flat_map]. perm. }
      assert (Fb : p_frame_blocks p = match n_frame (p_node p) with Some e => frame_blocks (p_lay p) (fp_frame e) | None => [] end) by reflexivity.
      assert (Lb : p_leak p = match n_frame (p_node p) with Some e => leaked_blocks (p_lay p) (fp_frame e) | None => [] end) by reflexivity.
      assert (Pf : p_frame p = match n_frame (p_node p) with Some _ => Some (l_self (p_lay p)) | None => None end) by reflexivity.
      rewrite Lb in Rest. rewrite Fb in H. rewrite Pf. destruct (n_frame (p_node p)) as [e|] eqn:Fe.
      + eapply e_Frame_free with (m := NB :: node_blocks head pl ++ all_frame_blocks pl ++ m); [exact K1|eapply heap_perm; [exact H|perm]|].
        intros h1 H1. apply Rest. exact H1.
      + cbn [ID3v2_Frame_free_p bindp retp map filter app] in *. apply Rest. exact H.
  Qed.
End Old.
