(** Linked lists on the heap do what the lists of FrameList.v do. *)
From Verif Require Import BaseFacts Heap SpecHeap HeapFacts HeapFrameFacts.
From Coq Require Import Lia.

(** ** Segments *)

Definition next_of (l : list pnode) (nx : ptr) : ptr := match l with [] => nx | p :: _ => Some (p_addr p) end.

Definition node_block (head : nat) (p : pnode) (nx : ptr) : nat * block :=
  (p_addr p, BNode (p_frame p) (if n_start (p_node p) then Some head else None) nx).

Fixpoint seg (head : nat) (l : list pnode) (nx : ptr) : list (nat * block) :=
  match l with [] => [] | p :: rest => node_block head p (next_of rest nx) :: seg head rest nx end.

Lemma next_none l : next_of l None = first_addr l.
Proof. now destruct l. Qed.

Lemma seg_none head l : node_blocks head l = seg head l None.
Proof. induction l as [|p l IH]; [reflexivity|]. cbn [node_blocks seg]. rewrite IH, next_none. reflexivity. Qed.

Lemma seg_app head a b nx : seg head (a ++ b) nx = seg head a (next_of b nx) ++ seg head b nx.
Proof.
  induction a as [|p a IH]; [reflexivity|]. cbn [app seg]. rewrite IH. f_equal. f_equal. now destruct a.
Qed.

Lemma nodes_app head a b : node_blocks head (a ++ b) = seg head a (first_addr b) ++ node_blocks head b.
Proof. rewrite !seg_none, seg_app, next_none. reflexivity. Qed.

Lemma seg_length head l nx : length (seg head l nx) = length l.
Proof. induction l as [|p l IH]; [reflexivity|]. cbn [seg length]. now rewrite IH. Qed.

Lemma nodes_length head l : length (node_blocks head l) = length l.
Proof. rewrite seg_none. apply seg_length. Qed.

Lemma frames_app a b : all_frame_blocks (a ++ b) = all_frame_blocks a ++ all_frame_blocks b.
Proof. apply flat_map_app. Qed.

Lemma frames_cons p l : all_frame_blocks (p :: l) = p_frame_blocks p ++ all_frame_blocks l.
Proof. reflexivity. Qed.

Lemma flat_map_unique {A B} (g : A -> list B) l p q b : NoDup (flat_map g l) ->
  In p l -> In q l -> In b (g p) -> In b (g q) -> p = q.
Proof.
  induction l as [|x l IH]; intros D Ip Iq Bp Bq; [destruct Ip|]. cbn [flat_map] in D.
  assert (D' : NoDup (flat_map g l)).
  { clear -D. induction (g x) as [|y m IHm]; [exact D|]. apply IHm. now inversion D. }
  assert (N : forall y, In y l -> In b (g x) -> In b (g y) -> False).
  { intros y Iy Bx By. assert (I : In b (flat_map g l)) by (apply in_flat_map; eauto).
    clear -D Bx I. induction (g x) as [|z m IHm]; [destruct Bx|]. cbn [app] in D. inversion D as [|? ? Nz Dz]; subst.
    destruct Bx as [->|Bx]; [|auto]. apply Nz, in_or_app. now right. }
  destruct Ip as [->|Ip], Iq as [->|Iq]; auto; exfalso; eauto.
Qed.

(** ** Walking *)

Lemma enough_for h head pl m : heap_is h (node_blocks head pl ++ m) -> (length pl < enough h)%nat.
Proof. intros H. apply heap_size in H. rewrite app_length, nodes_length in H. unfold enough. lia. Qed.

Lemma node_in head pl m p s2 s1 : pl = s1 ++ p :: s2 -> incl (node_blocks head pl) m ->
  In (node_block head p (first_addr s2)) m.
Proof. intros -> I. apply I. rewrite nodes_app. apply in_or_app. right. now left. Qed.

Lemma incl_nodes_cons head p pl m : incl (node_blocks head (p :: pl)) m ->
  In (node_block head p (first_addr pl)) m /\ incl (node_blocks head pl) m.
Proof. intros I. cbn [node_blocks] in I. apply incl_cons_inv in I. exact I. Qed.

Lemma incl_frames_cons p pl m : incl (all_frame_blocks (p :: pl)) m ->
  incl (p_frame_blocks p) m /\ incl (all_frame_blocks pl) m.
Proof. intros I. rewrite frames_cons in I. apply incl_app_inv in I. exact I. Qed.

Lemma last_node_is h m head q : heap_is h m -> forall pl fuel, incl (node_blocks head (pl ++ [q])) m ->
  (length pl < fuel)%nat -> last_node fuel (first_addr (pl ++ [q])) h = Ok (Some (p_addr q)).
Proof.
  intros H. induction pl as [|p pl IH]; intros fuel I L.
  - destruct fuel; [lia|]. cbn [app first_addr last_node]. apply incl_nodes_cons in I as (I & _).
    rewrite (load_node_is _ _ _ _ _ _ H I). reflexivity.
  - destruct fuel; [cbn [length] in L; lia|]. cbn [app] in I. cbn [app first_addr last_node]. apply incl_nodes_cons in I as (I & I').
    rewrite (load_node_is _ _ _ _ _ _ H I). cbn [bind]. cbn [length] in L.
    assert (E : first_addr (pl ++ [q]) <> None) by (destruct pl; discriminate).
    destruct (first_addr (pl ++ [q])) as [n|]; [|congruence]. apply IH; [exact I'|lia].
Qed.

Lemma id_matches_is h m l f id : heap_is h m -> incl (frame_blocks l f) m ->
  id_matches_h (Some (l_self l)) id h = id_matches f id.
Proof. intros H I. unfold id_matches_h. rewrite (header_of_is _ _ _ _ H I). reflexivity. Qed.

(** A frame of the list that a pointer points to. *)
Definition points (pl : list pnode) (e : option fptr) (p : ptr) : Prop :=
  match e with
  | None => p = None
  | Some e => exists s1 q s2, pl = s1 ++ q :: s2 /\ n_frame (p_node q) = Some e /\ p = Some (l_self (p_lay q))
  end.

Lemma get_frame_is h m head id : heap_is h m -> forall pl fuel, incl (node_blocks head pl) m ->
  incl (all_frame_blocks pl) m -> (length pl < fuel)%nat ->
  agrees (points pl) (FrameList_get_frame_by_id (map p_node pl) id) (get_frame_by_id_h fuel (first_addr pl) id h).
Proof.
  intros H. induction pl as [|p pl IH]; intros fuel I J L; (destruct fuel; [cbn [length] in L; lia|]).
  - cbn [map FrameList_get_frame_by_id first_addr get_frame_by_id_h]. now apply agrees_ok.
  - cbn [map FrameList_get_frame_by_id first_addr get_frame_by_id_h].
    apply incl_nodes_cons in I as (I & I'). apply incl_frames_cons in J as (J & J').
    rewrite (load_node_is _ _ _ _ _ _ H I). cbn [bind]. unfold p_frame, p_frame_blocks in *.
    destruct (n_frame (p_node p)) as [e|] eqn:F; [|now apply agrees_ok].
    rewrite (id_matches_is _ _ _ _ id H J). apply agrees_same. intros b _. destruct b.
    + apply agrees_ok. exists [], p, pl. now rewrite F.
    + eapply agrees_weaken; [apply IH; auto; cbn [length] in L; lia|]. intros [e'|] q; [|auto].
      intros (s1 & q' & s2 & -> & E). exists (p :: s1), q', s2. auto.
Qed.

(** ** Changing *)

(** The frames of [pl'] are frames of [pl], where they were. *)
Definition from (pl pl' : list pnode) : Prop :=
  forall q' e, In q' pl' -> n_frame (p_node q') = Some e ->
  exists q, In q pl /\ n_frame (p_node q) = Some e /\ p_lay q = p_lay q'.

Lemma cut_is h head s1 q s2 m : heap_is h (node_blocks head (s1 ++ q :: s2) ++ m) ->
  exists h' s2', cut_node (Some (p_addr q)) h = Ok h' /\ heap_is h' (node_blocks head (s1 ++ s2') ++ m)
    /\ first_addr s2' = Some (p_addr q) /\ map p_node s2' = unlink_node (map p_node s2)
    /\ all_frame_blocks s2' = all_frame_blocks s2 /\ from s2 s2'.
Proof.
  intros H. rewrite nodes_app in H. unfold cut_node. cbn [node_blocks] in H.
  rewrite (load_node_is _ _ (p_addr q) (p_frame q) (if n_start (p_node q) then Some head else None) (first_addr s2) H)
    by is_in. cbn [bind].
  destruct s2 as [|r s2].
  - cbn [first_addr node_blocks] in *. unfold FrameList_new_h. mal H. ld H.
    destruct (store_at _ _ (p_addr q) (BNode (p_frame q) (if n_start (p_node q) then Some head else None) None)
                (BNode None None None) ((next h, BNode None None None) :: seg head s1 (Some (p_addr q)) ++ m) H ltac:(perm))
      as (h1 & E1 & H1 & _). rewrite E1. cbn [bind].
    destruct (free_at _ _ (next h) (BNode None None None)
               ((p_addr q, BNode None None None) :: seg head s1 (Some (p_addr q)) ++ m) H1 ltac:(perm)) as (h2 & E2 & H2 & _).
    rewrite E2. exists h2, [mkP (p_addr q) (p_lay q) empty_node]. split; [reflexivity|].
    split; [|split; [reflexivity|split; [reflexivity|split; [reflexivity|intros q' e [<-|[]] Eq; discriminate Eq]]]].
    rewrite nodes_app. cbn [node_blocks first_addr p_addr p_node]. unfold p_frame. cbn [p_node n_frame n_start empty_node].
    eapply heap_perm; [exact H2|perm].
  - cbn [first_addr node_blocks] in *. ld H.
    set (R := BNode (p_frame r) (if n_start (p_node r) then Some head else None) (first_addr s2)) in *.
    set (Q := BNode (p_frame q) (if n_start (p_node q) then Some head else None) (Some (p_addr r))) in *.
    destruct (store_at _ _ (p_addr q) Q R
               ((p_addr r, R) :: seg head s1 (Some (p_addr q)) ++ node_blocks head s2 ++ m) H ltac:(perm))
      as (h1 & E1 & H1 & _). rewrite E1. cbn [bind].
    destruct (free_at _ _ (p_addr r) R
               ((p_addr q, R) :: seg head s1 (Some (p_addr q)) ++ node_blocks head s2 ++ m) H1 ltac:(perm))
      as (h2 & E2 & H2 & _).
    rewrite E2. exists h2, (mkP (p_addr q) (p_lay r) (p_node r) :: s2). split; [reflexivity|].
    split; [|split; [reflexivity|split; [reflexivity|split; [reflexivity|intros q' e [<-|Iq] Eq; [exists r; split; [now left|auto]|exists q'; split; [now right|auto]]]]]].
    rewrite nodes_app. cbn [node_blocks first_addr p_addr p_node].
    change (p_frame (mkP (p_addr q) (p_lay r) (p_node r))) with (p_frame r). fold R.
    eapply heap_perm; [exact H2|perm].
Qed.

(** Overwriting the frame pointer of a node. *)
Lemma store_node h head s1 q s2 m l f : heap_is h (node_blocks head (s1 ++ q :: s2) ++ m) ->
  exists h', store (Some (p_addr q)) (BNode (Some (l_self l)) (if n_start (p_node q) then Some head else None) (first_addr s2)) h = Ok h'
    /\ heap_is h' (node_blocks head (s1 ++ mkP (p_addr q) l (mkNode (Some f) (n_start (p_node q))) :: s2) ++ m).
Proof.
  intros H. rewrite nodes_app in H. cbn [node_blocks first_addr] in H.
  set (Q := BNode (p_frame q) (if n_start (p_node q) then Some head else None) (first_addr s2)) in *.
  set (Q' := BNode (Some (l_self l)) (if n_start (p_node q) then Some head else None) (first_addr s2)).
  destruct (store_at _ _ (p_addr q) Q Q' (seg head s1 (Some (p_addr q)) ++ node_blocks head s2 ++ m) H ltac:(perm))
    as (h1 & E1 & H1 & _).
  exists h1. split; [exact E1|]. rewrite nodes_app. cbn [node_blocks first_addr p_addr p_node n_start].
  unfold p_frame at 1. cbn [p_node n_frame p_lay]. fold Q'. eapply heap_perm; [exact H1|perm].
Qed.

(** FrameList_add_frame: the list afterwards. *)
Definition added (head : nat) (pl : list pnode) (l : lay) (e : fptr) (m : list (nat * block)) (v : flist) (h : heap) : Prop :=
  exists pl', v = map p_node pl' /\ heap_is h (node_blocks head pl' ++ m) /\ first_addr pl' = Some head
    /\ ((exists p rest, pl = p :: rest /\ n_start (p_node p) = false /\ pl' = mkP (p_addr p) l (mkNode (Some e) true) :: rest)
        \/ (exists a, pl' = pl ++ [mkP a l (mkNode (Some e) true)])).

Lemma add_frame_is h head pl l e m : heap_is h (node_blocks head pl ++ m) -> first_addr pl = Some head ->
  agrees (added head pl l e m) (FrameList_add_frame (map p_node pl) e)
         (FrameList_add_frame_h (Some head) (Some (l_self l)) h).
Proof.
  intros H F. destruct pl as [|p pl]; [discriminate F|]. injection F as Fh.
  unfold FrameList_add_frame_h. cbn [map FrameList_add_frame]. rewrite <- Fh at 2.
  rewrite (load_node_is _ _ _ (p_frame p) (if n_start (p_node p) then Some head else None) (first_addr pl) H)
    by (cbn [node_blocks app]; is_in). cbn [bind].
  destruct (n_start (p_node p)) eqn:St; cbn [negb].
  - (* a new node at the end *)
    unfold FrameList_new_h. mal H.
    set (cur := next h) in *.
    assert (Lh : load_node (Some head) h0 = Ok (p_frame p, Some head, first_addr pl)).
    { rewrite <- Fh at 1. eapply load_node_is; [exact H|]. cbn [node_blocks app]. rewrite St. is_in. }
    rewrite Lh. cbn [bind].
    destruct (store_is _ _ _ _ (BNode (Some (l_self l)) (Some head) None) H) as (h1 & E1 & H1 & _).
    rewrite E1. cbn [bind].
    destruct (exists_last (l := p :: pl) ltac:(discriminate)) as (pre & q & Eq). rewrite Eq in *.
    assert (Fa : first_addr (pre ++ [q]) = Some head) by (rewrite <- Eq; cbn [first_addr]; now rewrite Fh).
    assert (Ln : last_node (enough h1) (Some head) h1 = Ok (Some (p_addr q))).
    { rewrite <- Fa. eapply (last_node_is _ _ head); [exact H1| |].
      - intros x Ix. right. apply in_or_app. now left.
      - apply heap_size in H1. cbn [length] in H1. rewrite app_length, nodes_length, app_length in H1.
        unfold enough. cbn [length] in H1. lia. }
    rewrite Ln. cbn [bind].
    rewrite nodes_app in H1. cbn [node_blocks first_addr app] in H1.
    set (Q := BNode (p_frame q) (if n_start (p_node q) then Some head else None) None) in *.
    rewrite (load_node_is _ _ (p_addr q) (p_frame q) (if n_start (p_node q) then Some head else None) None H1) by (fold Q; is_in).
    cbn [bind].
    set (C := BNode (Some (l_self l)) (Some head) None) in *.
    destruct (store_at _ _ (p_addr q) Q (BNode (p_frame q) (if n_start (p_node q) then Some head else None) (Some cur))
               ((cur, C) :: seg head pre (Some (p_addr q)) ++ m) H1 ltac:(perm)) as (h2 & E2 & H2 & _).
    rewrite E2. eexists. split; [reflexivity|].
    exists ((pre ++ [q]) ++ [mkP cur l (mkNode (Some e) true)]). split; [|split; [|split]].
    + change (p_node p :: map p_node pl) with (map p_node (p :: pl)). rewrite Eq, !map_app. reflexivity.
    + rewrite nodes_app, seg_app. cbn [next_of seg first_addr node_blocks p_addr p_node n_start node_block].
      unfold node_block. change (p_frame (mkP cur l (mkNode (Some e) true))) with (Some (l_self l)). fold C.
      eapply heap_perm; [exact H2|perm].
    + rewrite <- Fa. destruct pre; reflexivity.
    + right. now exists cur.
  - (* the first frame *)
    assert (H' := store_node h head [] p pl m l e H). rewrite St in H'. cbn [app] in H'.
    rewrite Fh in H'.
    assert (H1 : exists h', store (Some head) (BNode (Some (l_self l)) (Some head) (first_addr pl)) h = Ok h'
       /\ heap_is h' (node_blocks head (mkP (p_addr p) l (mkNode (Some e) true) :: pl) ++ m)).
    { cbn [node_blocks app] in H.
      destruct (store_is _ _ _ _ (BNode (Some (l_self l)) (Some head) (first_addr pl)) H) as (h1 & E1 & H1 & _).
      rewrite Fh in E1. exists h1. split; [exact E1|]. cbn [node_blocks app p_addr p_node n_start]. exact H1. }
    destruct H1 as (h1 & E1 & H1). rewrite E1. eexists. split; [reflexivity|].
    eexists. split; [|split; [exact H1|split; [cbn [first_addr p_addr]; now rewrite Fh|]]]; [reflexivity|].
    left. exists p, pl. auto.
Qed.

(** ** Removing *)

(** Where a removal happens. *)
Definition found_at (pl : list pnode) (e : option fptr) (v : flist) (h : heap) (o : outcome (ptr * heap)) : Prop :=
  match e with
  | None => v = map p_node pl /\ o = Ok (None, h)
  | Some e =>
      exists s1 q s2, pl = s1 ++ q :: s2 /\ n_frame (p_node q) = Some e
        /\ v = map p_node s1 ++ unlink_node (map p_node s2)
        /\ o = (let* h := cut_node (Some (p_addr q)) h in Ok (Some (l_self (p_lay q)), h))
  end.

Definition follows {A B} (R : A -> outcome B -> Prop) (o : outcome A) (o' : outcome B) : Prop :=
  match o with
  | Ok a => R a o'
  | Ub u => o' = Ub u
  | Exit n => o' = Exit n
  | NoFuel => o' = NoFuel
  end.

Lemma remove_by_id_is h m head id : heap_is h m -> forall pl fuel, incl (node_blocks head pl) m ->
  incl (all_frame_blocks pl) m -> (length pl < fuel)%nat ->
  follows (fun v => found_at pl (fst v) (snd v) h) (FrameList_remove_frame_by_id (map p_node pl) id)
          (remove_by_id fuel (first_addr pl) id h).
Proof.
  intros H. induction pl as [|p pl IH]; intros fuel I J L; (destruct fuel; [cbn [length] in L; lia|]).
  - cbn. auto.
  - cbn [map FrameList_remove_frame_by_id first_addr remove_by_id].
    apply incl_nodes_cons in I as (I & I'). apply incl_frames_cons in J as (J & J').
    rewrite (load_node_is _ _ _ _ _ _ H I). cbn [bind].
    specialize (IH fuel I' J' ltac:(cbn [length] in L; lia)). unfold p_frame, p_frame_blocks in *.
    destruct (n_frame (p_node p)) as [e|] eqn:F; cbn [deref bind follows]; [|reflexivity].
    rewrite (id_matches_is _ _ _ _ id H J).
    destruct (id_matches (fp_frame e) id) as [b| | |]; cbn [bind follows]; try reflexivity. destruct b.
    + cbn [follows found_at fst snd]. exists [], p, pl. auto.
    + destruct (FrameList_remove_frame_by_id (map p_node pl) id) as [[e' v]| | |]; cbn [bind follows fst snd] in *;
        try exact IH.
      destruct e' as [e'|]; cbn [found_at] in *.
      * destruct IH as (s1 & q & s2 & -> & Fq & -> & ->). exists (p :: s1), q, s2. auto.
      * destruct IH as (-> & ->). auto.
Qed.

(** The pointers of the two views compare alike. *)
Definition same_view (pl : list pnode) (e : option fptr) (p : ptr) : Prop :=
  forall q, In q pl -> same_ptr (n_frame (p_node q)) e = ptr_eqb (p_frame q) p.

Lemma usable_frame h m q : heap_is h m -> incl (p_frame_blocks q) m -> usable (p_frame q) h = Ok tt.
Proof.
  intros H I. unfold p_frame, p_frame_blocks in *. destruct (n_frame (p_node q)) as [e|]; [|reflexivity].
  unfold usable. erewrite load_is; [reflexivity|exact H|]. apply I. left. reflexivity.
Qed.

Lemma same_pointer_is h m q e p : heap_is h m -> incl (p_frame_blocks q) m -> usable p h = Ok tt ->
  same_ptr (n_frame (p_node q)) e = ptr_eqb (p_frame q) p -> same_pointer (p_frame q) p h = Ok (same_ptr (n_frame (p_node q)) e).
Proof. intros H I U E. unfold same_pointer. rewrite (usable_frame _ _ _ H I), U, E. reflexivity. Qed.

Definition removed_at (pl : list pnode) (e : option fptr) (p : ptr) (v : option fptr * flist) (h : heap) (o : outcome (ptr * heap)) : Prop :=
  (v = (None, map p_node pl) /\ o = Ok (None, h) /\ (forall q, In q pl -> same_ptr (n_frame (p_node q)) e = false)) \/
  (exists s1 q s2, pl = s1 ++ q :: s2 /\ same_ptr (n_frame (p_node q)) e = true
     /\ v = (e, map p_node s1 ++ unlink_node (map p_node s2))
     /\ o = (let* h := cut_node (Some (p_addr q)) h in Ok (p, h))).

Lemma remove_frame_is h m head e p : heap_is h m -> usable p h = Ok tt ->
  forall pl fuel, incl (node_blocks head pl) m -> incl (all_frame_blocks pl) m -> same_view pl e p -> (length pl < fuel)%nat ->
  removed_at pl e p (FrameList_remove_frame (map p_node pl) e) h (remove_frame fuel (first_addr pl) p h).
Proof.
  intros H U. induction pl as [|r pl IH]; intros fuel I J V L; (destruct fuel; [cbn [length] in L; lia|]).
  - left. repeat split. intros q [].
  - cbn [map FrameList_remove_frame first_addr remove_frame].
    apply incl_nodes_cons in I as (I & I'). apply incl_frames_cons in J as (J & J').
    rewrite (load_node_is _ _ _ _ _ _ H I). cbn [bind].
    rewrite (same_pointer_is _ _ _ e p H J U (V r (or_introl eq_refl))). cbn [bind].
    specialize (IH fuel I' J' (fun q Iq => V q (or_intror Iq)) ltac:(cbn [length] in L; lia)).
    destruct (same_ptr (n_frame (p_node r)) e) eqn:S.
    + right. exists [], r, pl. auto.
    + destruct IH as [(E & -> & N)|(s1 & q & s2 & -> & Sq & E & ->)].
      * left. rewrite E. split; [reflexivity|]. split; [reflexivity|]. intros q [<-|Iq]; auto.
      * right. rewrite E. exists (r :: s1), q, s2. auto.
Qed.

Lemma replace_frame_is h m head e p n nf : heap_is h m -> usable p h = Ok tt ->
  forall s1 q s2 fuel, incl (node_blocks head (s1 ++ q :: s2)) m -> incl (all_frame_blocks (s1 ++ q :: s2)) m ->
  same_view (s1 ++ q :: s2) e p -> (length (s1 ++ q :: s2) < fuel)%nat ->
  (forall r, In r s1 -> same_ptr (n_frame (p_node r)) e = false) -> same_ptr (n_frame (p_node q)) e = true ->
  FrameList_replace_frame (map p_node (s1 ++ q :: s2)) e nf
    = map p_node s1 ++ mkNode (Some nf) (n_start (p_node q)) :: map p_node s2
  /\ replace_frame fuel (first_addr (s1 ++ q :: s2)) p n h
    = store (Some (p_addr q)) (BNode n (if n_start (p_node q) then Some head else None) (first_addr s2)) h.
Proof.
  intros H U. induction s1 as [|r s1 IH]; intros q s2 fuel I J V L N T; cbn [app] in *;
    (destruct fuel; [cbn [length] in L; lia|]);
    cbn [map FrameList_replace_frame first_addr replace_frame];
    apply incl_nodes_cons in I as (I & I'); apply incl_frames_cons in J as (J & J');
    rewrite (load_node_is _ _ _ _ _ _ H I); cbn [bind];
    rewrite (same_pointer_is _ _ _ e p H J U (V _ (or_introl eq_refl))); cbn [bind].
  - rewrite T. auto.
  - rewrite (N r (or_introl eq_refl)).
    destruct (IH q s2 fuel I' J' (fun x Ix => V x (or_intror Ix)) ltac:(cbn [length] in L; lia)
                 (fun x Ix => N x (or_intror Ix)) T) as (-> & ->). auto.
Qed.

(** ** Releasing a list *)

Lemma unlink_is head : forall pl fuel h m, heap_is h (node_blocks head pl ++ m) -> (length pl < fuel)%nat ->
  exists h', unlink fuel (first_addr pl) h = Ok h' /\ heap_is h' m.
Proof.
  induction pl as [|p pl IH]; intros fuel h m H L; (destruct fuel; [cbn [length] in L; lia|]).
  - cbn. eauto.
  - cbn [first_addr unlink]. cbn [node_blocks app] in H. ld H.
    destruct (free_is _ _ _ _ H) as (h1 & E1 & H1 & _). rewrite E1. cbn [bind].
    apply IH; [exact H1|cbn [length] in L; lia].
Qed.

Definition p_leak (p : pnode) : list (nat * block) :=
  match n_frame (p_node p) with Some f => leaked_blocks (p_lay p) (fp_frame f) | None => [] end.

Lemma free_list_is head : forall pl fuel h m, heap_is h (node_blocks head pl ++ all_frame_blocks pl ++ m) ->
  kinds_ok (map p_node pl) -> (length pl < fuel)%nat ->
  exists h', free_list fuel (first_addr pl) h = Ok h' /\ heap_is h' (flat_map p_leak pl ++ m).
Proof.
  induction pl as [|p pl IH]; intros fuel h m H K L; (destruct fuel; [cbn [length] in L; lia|]).
  - cbn. eauto.
  - cbn [first_addr free_list]. rewrite frames_cons in H. cbn [node_blocks app] in H. ld H.
    inversion K as [|? ? K1 K2]; subst. cbn [flat_map].
    assert (F : exists h', ID3v2_Frame_free (p_frame p) h = Ok h' /\
      heap_is h' ((p_addr p, BNode (p_frame p) (if n_start (p_node p) then Some head else None) (first_addr pl))
                  :: node_blocks head pl ++ all_frame_blocks pl ++ p_leak p ++ m)).
    { unfold p_leak, p_frame_blocks, p_frame in *. destruct (n_frame (p_node p)) as [e|].
      - edestruct frame_free as (h' & E' & H'); [exact K1|eapply heap_perm; [exact H|]|].
        2:{ exists h'. split; [exact E'|]. eapply heap_perm; [exact H'|].
            instantiate (1 := (p_addr p, BNode (Some (l_self (p_lay p))) (if n_start (p_node p) then Some head else None) (first_addr pl))
                  :: node_blocks head pl ++ all_frame_blocks pl ++ m). perm. }
        perm.
      - exists h. split; [reflexivity|]. exact H. }
    destruct F as (h1 & -> & H1). cbn [bind]. ld H1.
    destruct (free_is _ _ _ _ H1) as (h2 & E2 & H2 & _). rewrite E2. cbn [bind].
    destruct (IH fuel h2 (p_leak p ++ m) H2 K2 ltac:(cbn [length] in L; lia)) as (h3 & -> & H3).
    exists h3. split; [reflexivity|]. eapply heap_perm; [exact H3|perm].
Qed.

(** ** Sublists *)

(** A node that shows a frame of the list. *)
Definition shows (pl : list pnode) (p : pnode) : Prop :=
  n_frame (p_node p) = None \/ exists q, In q pl /\ n_frame (p_node q) = n_frame (p_node p) /\ p_lay q = p_lay p.

Lemma get_frames_is head hs id R pl0 : forall pl fuel h sl others,
  heap_is h (node_blocks hs sl ++ R) -> first_addr sl = Some hs -> incl (node_blocks head pl) R ->
  incl (all_frame_blocks pl) R -> incl pl pl0 -> Forall (shows pl0) sl -> (length pl < fuel)%nat ->
  Forall node_ok (map p_node sl) -> Permutation (all_frame_blocks pl0) (all_frame_blocks sl ++ all_frame_blocks pl ++ others) ->
  agrees (fun v h' => exists sl', v = map p_node sl' /\ heap_is h' (node_blocks hs sl' ++ R) /\ first_addr sl' = Some hs
            /\ Forall (shows pl0) sl' /\ (forall r, In r sl -> n_frame (p_node r) <> None -> In r sl')
            /\ Forall node_ok (map p_node sl') /\ exists o2, Permutation (all_frame_blocks pl0) (all_frame_blocks sl' ++ others ++ o2))
    (get_frames_loop (map p_node pl) id (map p_node sl)) (get_frames_loop_h fuel (first_addr pl) id (Some hs) h).
Proof.
  induction pl as [|p pl IH]; intros fuel h sl others H F I J P0 Sh L Nk Pm; (destruct fuel; [cbn [length] in L; lia|]).
  - cbn [map get_frames_loop first_addr get_frames_loop_h]. apply agrees_ok. exists sl. repeat (split; [auto|]).
    exists []. now rewrite app_nil_r.
  - cbn [map get_frames_loop first_addr get_frames_loop_h].
    apply incl_nodes_cons in I as (I & I'). apply incl_frames_cons in J as (J & J').
    assert (Ld : forall sl h, heap_is h (node_blocks hs sl ++ R) -> load_node (Some (p_addr p)) h =
                 Ok (p_frame p, (if n_start (p_node p) then Some head else None), first_addr pl)).
    { intros sl' h' Hh. eapply load_node_is; [exact Hh|]. apply in_or_app. right. exact I. }
    rewrite (Ld _ _ H). cbn [bind].
    assert (P1 : In p pl0) by (apply P0; now left).
    assert (P2 : incl pl pl0) by (intros x Ix; apply P0; now right).
    assert (Lf : (length pl < fuel)%nat) by (cbn [length] in L; lia).
    rewrite frames_cons in Pm.
    unfold p_frame in *. destruct (n_frame (p_node p)) as [e|] eqn:Fp.
    2:{ apply agrees_ok. exists sl. repeat (split; [auto|]). exists (p_frame_blocks p ++ all_frame_blocks pl).
        etransitivity; [exact Pm|perm]. }
    assert (Fb : p_frame_blocks p = frame_blocks (p_lay p) (fp_frame e)) by (unfold p_frame_blocks; now rewrite Fp).
    rewrite Fb in *.
    rewrite (id_matches_is _ _ _ _ id H) by (intros x Ix; apply in_or_app; right; apply J, Ix).
    apply agrees_same. intros b _. destruct b.
    + eapply agrees_bind; [apply add_frame_is; eassumption|].
      intros v h' (sl' & -> & H' & F' & C). rewrite (Ld _ _ H'). cbn [bind].
      assert (S1 : forall a, shows pl0 (mkP a (p_lay p) (mkNode (Some e) true))).
      { intros a. right. exists p. auto. }
      assert (Kp : forall r, In r sl -> n_frame (p_node r) <> None -> In r sl').
      { intros r Ir Nr. destruct C as [(p' & rest & -> & St & ->)|(a & ->)]; [|apply in_or_app; now left].
        destruct Ir as [<-|Ir]; [|now right]. inversion Nk as [|? ? Np Nr']; subst. unfold node_ok in Np.
        rewrite St in Np. destruct (n_frame (p_node p')); [discriminate Np|]. now destruct Nr. }
      eapply agrees_weaken; [apply (IH fuel h' sl' others); auto|].
      * destruct C as [(p' & rest & -> & _ & ->)|(a & ->)].
        -- inversion Sh; subst. constructor; auto.
        -- apply Forall_app. auto.
      * destruct C as [(p' & rest & -> & _ & ->)|(a & ->)].
        -- inversion Nk; subst. constructor; [reflexivity|assumption].
        -- rewrite map_app. apply Forall_app. split; [assumption|]. repeat constructor.
      * destruct C as [(p' & rest & -> & St & ->)|(a & ->)].
        -- inversion Nk as [|? ? Np Nr]; subst. unfold node_ok in Np. rewrite St in Np.
           rewrite frames_cons in Pm |- *. unfold p_frame_blocks in Pm |- *. cbn [p_node n_frame p_lay].
           destruct (n_frame (p_node p')); [discriminate Np|]. cbn [app] in Pm. etransitivity; [exact Pm|perm].
        -- rewrite frames_app.
           change (all_frame_blocks [mkP a (p_lay p) (mkNode (Some e) true)]) with (frame_blocks (p_lay p) (fp_frame e) ++ []).
           rewrite app_nil_r. etransitivity; [exact Pm|]. perm.
      * intros v h2 (sl2 & E & Hh & Fh & Ss & Kp2 & Rest). exists sl2. repeat (split; [assumption|]).
        split; [|exact Rest]. auto.
    + cbn [bind]. rewrite (Ld _ _ H). cbn [bind].
      eapply agrees_weaken; [apply (IH fuel h sl (others ++ frame_blocks (p_lay p) (fp_frame e))); auto|].
      * etransitivity; [exact Pm|perm].
      * intros v h' (sl' & E & Hh & Fh & Ss & Kp & Ns & o2 & Po). exists sl'. repeat (split; [assumption|]).
        exists (frame_blocks (p_lay p) (fp_frame e) ++ o2). now rewrite <- app_assoc in Po.
Qed.
