(** The calls on a tag in the heap do what they do on the value of the tag. *)
From Verif Require Import BaseFacts Heap SpecHeap HeapFacts HeapFrameFacts HeapListFacts.
From Coq Require Import Lia.

Definition rep (h : heap) (a ah head : nat) (t : Tag) (pl : list pnode) (rest : list (nat * block)) : Prop :=
  heap_is h (tag_blocks a ah head t pl ++ rest)
  /\ t_frames t = map p_node pl /\ first_addr pl = Some head
  /\ Forall node_ok (t_frames t)
  /\ NoDup (addresses (t_frames t)) /\ Forall (fun x => (x < t_fresh t)%nat) (addresses (t_frames t)).

Lemma rep_tag_at h a ah head t pl rest : rep h a ah head t pl rest -> tag_at h a t rest.
Proof. intros R. exists pl, ah, head. exact R. Qed.

(** ** Pointers *)

Lemma map_fst_flat_map {A B C} (f : B -> C) (g : A -> list B) l :
  map f (flat_map g l) = flat_map (fun x => map f (g x)) l.
Proof. induction l as [|x l IH]; [reflexivity|]. cbn [flat_map]. now rewrite map_app, IH. Qed.

Lemma addresses_map pl : addresses (map p_node pl) =
  flat_map (fun p => match n_frame (p_node p) with Some e => [fp_addr e] | None => [] end) pl.
Proof. induction pl as [|p pl IH]; [reflexivity|]. cbn [map addresses flat_map] in *. now rewrite <- IH. Qed.

Lemma NoDup_app_r {A} (a b : list A) : NoDup (a ++ b) -> NoDup b.
Proof. induction a as [|x a IH]; [auto|]. intros D. inversion D; auto. Qed.
Lemma NoDup_app_l {A} (a b : list A) : NoDup (a ++ b) -> NoDup a.
Proof.
  induction a as [|x a IH]; [constructor|]. intros D. inversion D as [|? ? N D']; subst.
  constructor; [|auto]. intros I. apply N, in_or_app. now left.
Qed.

Lemma view_some h pl m q e : heap_is h (all_frame_blocks pl ++ m) -> NoDup (addresses (map p_node pl)) ->
  In q pl -> n_frame (p_node q) = Some e -> same_view pl (Some e) (Some (l_self (p_lay q))).
Proof.
  intros (_ & D & _) A Iq Fq r Ir. rewrite map_app in D. apply NoDup_app_l in D.
  unfold all_frame_blocks in D. rewrite map_fst_flat_map in D. rewrite addresses_map in A.
  unfold same_ptr, addr_of, p_frame. destruct (n_frame (p_node r)) as [e'|] eqn:Fr; cbn [option_map ptr_eqb]; [|reflexivity].
  destruct (Nat.eqb_spec (fp_addr e') (fp_addr e)) as [E1|E1], (Nat.eqb_spec (l_self (p_lay r)) (l_self (p_lay q))) as [E2|E2];
    try reflexivity; exfalso.
  - assert (E : r = q).
    { eapply (flat_map_unique _ _ _ _ (fp_addr e) A Ir Iq); [rewrite Fr, E1; now left|rewrite Fq; now left]. }
    congruence.
  - assert (E : r = q).
    { eapply (flat_map_unique _ _ _ _ (l_self (p_lay q)) D Ir Iq); unfold p_frame_blocks; rewrite ?Fr, ?Fq;
        cbn [frame_blocks map fst]; left; congruence. }
    subst r. congruence.
Qed.

Lemma view_none pl : same_view pl None None.
Proof. intros q _. unfold same_ptr, p_frame, addr_of. now destruct (n_frame (p_node q)). Qed.

(** ** The header *)

Lemma grow_is h a ah head pad th m d : heap_is h ((a, BTag (Some ah) (Some head) pad) :: (ah, BTagHeader th) :: m) ->
  exists h', grow (Some a) d h = Ok h'
    /\ heap_is h' ((a, BTag (Some ah) (Some head) pad) :: (ah, BTagHeader (with_tag_size th (th_tag_size th + d))) :: m).
Proof.
  intros H. unfold grow. ld H. ld H.
  destruct (store_at _ _ ah (BTagHeader th) (BTagHeader (with_tag_size th (th_tag_size th + d)))
             ((a, BTag (Some ah) (Some head) pad) :: m) H ltac:(perm)) as (h' & E & H' & _).
  exists h'. split; [exact E|]. eapply heap_perm; [exact H'|perm].
Qed.

Lemma frames_of_is h m a ah head pad : heap_is h m -> In (a, BTag (Some ah) (Some head) pad) m ->
  frames_of (Some a) h = Ok (Some head).
Proof. intros H I. unfold frames_of. now rewrite (load_tag_block_is _ _ _ _ _ _ H I). Qed.

(** ** Addresses of the value *)

Lemma addresses_app a b : addresses (a ++ b) = addresses a ++ addresses b.
Proof. apply flat_map_app. Qed.

Lemma addresses_unlink l : addresses (unlink_node l) = addresses l.
Proof. now destruct l. Qed.

Lemma node_ok_unlink l : Forall node_ok l -> Forall node_ok (unlink_node l).
Proof. destruct l; intros H; [|exact H]. repeat constructor. Qed.

Lemma kinds_unlink l : kinds_ok l -> kinds_ok (unlink_node l).
Proof. destruct l; intros H; [|exact H]. repeat constructor. Qed.

(** ** Setting *)

Lemma not_fresh l n : Forall (fun x => (x < n)%nat) l -> ~ In n l.
Proof. intros F I. eapply Forall_forall in F; [|exact I]. cbn in F. lia. Qed.

Lemma Forall_lt_S l n : Forall (fun x => (x < n)%nat) l -> Forall (fun x => (x < S n)%nat) l.
Proof. intros F. eapply Forall_impl; [|exact F]. cbn. lia. Qed.

Lemma leak_app a b : list_leak (a ++ b) = (list_leak a + list_leak b)%nat.
Proof. unfold list_leak. now rewrite map_app, list_sum_app. Qed.

Definition n_leak (n : node) : nat := match n_frame n with Some p => frame_leak (fp_frame p) | None => 0%nat end.

Lemma leak_cons n l : list_leak (n :: l) = (n_leak n + list_leak l)%nat.
Proof. reflexivity. Qed.

Lemma leak_unlink l : list_leak (unlink_node l) = list_leak l.
Proof. now destruct l. Qed.

(** The frames that were in [pl] and are in [pl'] are where they were; the
    headers of those that are not are freed. *)
Definition kept (pl pl' : list pnode) : Prop :=
  forall q' e, In q' pl' -> n_frame (p_node q') = Some e ->
  (exists q, In q pl /\ n_frame (p_node q) = Some e /\ p_lay q = p_lay q') \/ ~ In (fp_addr e) (addresses (map p_node pl)).
Definition dangling (h : heap) (rest : list (nat * block)) (l : lay) : Prop :=
  ~ In (l_self l) (map fst (live h)) \/
  (In (l_self l, BFrame (Some (l_header l)) (Some (l_data l))) rest /\ ~ In (l_header l) (map fst (live h))).
Definition gone (pl pl' : list pnode) (rest : list (nat * block)) (h : heap) : Prop :=
  forall q e, In q pl -> n_frame (p_node q) = Some e ->
  In (fp_addr e) (addresses (map p_node pl')) \/ dangling h rest (p_lay q).

Lemma kept_refl pl : kept pl pl.
Proof. intros q e I E. left. eauto. Qed.

Lemma in_addresses pl q e : In q pl -> n_frame (p_node q) = Some e -> In (fp_addr e) (addresses (map p_node pl)).
Proof. intros I E. rewrite addresses_map. apply in_flat_map. exists q. split; [exact I|]. rewrite E. now left. Qed.

Lemma gone_refl pl rest h : gone pl pl rest h.
Proof. intros q e I E. left. eapply in_addresses; eauto. Qed.

Lemma not_live h m x : heap_is h m -> ~ In x (map fst m) -> ~ In x (map fst (live h)).
Proof. intros (P & _) N I. apply N. eapply Permutation_in; [|exact I]. now apply Permutation_map. Qed.

(** A frame that was freed. *)
Lemma freed_dangling h h' l f m rest : heap_is h (frame_blocks l f ++ m) -> heap_is h' (leaked_blocks l f ++ m) ->
  incl (leaked_blocks l f) rest -> dangling h' rest l.
Proof.
  intros (_ & D & _) H' I. rewrite map_app in D. unfold frame_blocks in D. cbn [map fst app] in D.
  inversion D as [|? ? N1 D1]; subst. inversion D1 as [|? ? N2 _]; subst. unfold leaked_blocks in *.
  destruct (f_data f); cbn [app] in *.
  1-3: left; apply (not_live _ _ _ H'); intros J; apply N1; right; apply in_or_app; now right.
  right. split; [apply I; now left|]. apply (not_live _ _ _ H'). cbn [map fst]. intros [J|J].
  - apply N1. left. now symmetry.
  - apply N2, in_or_app. now right.
Qed.

Lemma freed_away h h' l f m m' rest : heap_is h (frame_blocks l f ++ m) -> heap_is h' m' ->
  incl m' m -> dangling h' rest l.
Proof.
  intros (_ & D & _) H' I. rewrite map_app in D. unfold frame_blocks in D. cbn [map fst app] in D.
  inversion D as [|? ? N1 _]; subst. left. apply (not_live _ _ _ H'). intros J. apply N1. right. apply in_or_app. right.
  apply in_map_iff in J as (y & Ey & Iy). rewrite <- Ey. apply in_map, I, Iy.
Qed.

(** [x] of the [k] structs that freeing the list would leave are gone. *)
Definition done (a : nat) (pl : list pnode) (rest : list (nat * block)) (x k : nat) (t : Tag) (h : heap) : Prop :=
  (exists pl', tag_laid h a t pl' rest /\ kept pl pl' /\ gone pl pl' rest h)
  /\ kinds_ok (t_frames t) /\ (list_leak (t_frames t) + x = k)%nat.

Lemma install_is h a ah head t pl rest l f e ep :
  rep h a ah head t pl (frame_blocks l f ++ rest) -> kinds_ok (t_frames t) -> kind_ok f -> frame_leak f = 0%nat -> points pl e ep ->
  match e with Some e => frame_leak (fp_frame e) = 0%nat | None => True end ->
  agrees (done a pl rest 0 (list_leak (t_frames t))) (install_frame t e f) (install_frame_h (Some a) ep (Some (l_self l)) h).
Proof.
  intros (H & Et & Fh & Nk & Ad & Af) K Kf Lf P Lk. unfold install_frame, install_frame_h, tag_blocks in *. cbn [app] in H.
  rewrite (frames_of_is _ _ a ah head (t_padding t) H) by is_in. cbn [bind].
  destruct t as [th fs pad fresh]. cbn [t_header t_frames t_padding t_fresh] in *. subst fs.
  destruct e as [e|]; cbn [points] in P.
  - (* replace *)
    destruct P as (s1 & q & s2 & -> & Fq & ->). unfold FrameList_replace_frame_h.
    set (T1 := (a, BTag (Some ah) (Some head) pad)) in *. set (T2 := (ah, BTagHeader th)) in *.
    set (FB := frame_blocks l f) in *.
    assert (Hn : heap_is h (node_blocks head (s1 ++ q :: s2) ++ T1 :: T2 :: all_frame_blocks (s1 ++ q :: s2) ++ FB ++ rest))
      by (eapply heap_perm; [exact H|perm]).
    assert (Hf : heap_is h (all_frame_blocks (s1 ++ q :: s2) ++ T1 :: T2 :: node_blocks head (s1 ++ q :: s2) ++ FB ++ rest))
      by (eapply heap_perm; [exact H|perm]).
    assert (V : same_view (s1 ++ q :: s2) (Some e) (Some (l_self (p_lay q)))).
    { eapply view_some; [exact Hf|exact Ad| |exact Fq]. apply in_elt. }
    assert (Iq : incl (frame_blocks (p_lay q) (fp_frame e)) (all_frame_blocks (s1 ++ q :: s2))).
    { intros x Ix. apply in_flat_map. exists q. split; [apply in_elt|]. unfold p_frame_blocks. now rewrite Fq. }
    assert (Uq : usable (Some (l_self (p_lay q))) h = Ok tt).
    { unfold usable. erewrite load_is; [reflexivity|exact Hf|]. apply in_or_app. left. apply Iq. now left. }
    assert (N1 : forall r, In r s1 -> same_ptr (n_frame (p_node r)) (Some e) = false).
    { intros r Ir. destruct (n_frame (p_node r)) as [e'|] eqn:Fr; [|reflexivity].
      unfold same_ptr, addr_of. cbn [option_map]. apply Nat.eqb_neq. intros E.
      rewrite map_app, addresses_app in Ad. cbn [map addresses flat_map] in Ad. rewrite Fq in Ad. cbn [app] in Ad.
      apply NoDup_remove_2 in Ad. apply Ad, in_or_app. left. rewrite addresses_map. apply in_flat_map.
      exists r. split; [exact Ir|]. rewrite Fr. left. exact E. }
    assert (Tq : same_ptr (n_frame (p_node q)) (Some e) = true).
    { rewrite Fq. unfold same_ptr, addr_of. cbn [option_map]. apply Nat.eqb_refl. }
    destruct (replace_frame_is h _ head (Some e) (Some (l_self (p_lay q))) (Some (l_self l)) (fresh, f) Hf Uq
                s1 q s2 (enough h)) as (-> & Er); [ | | exact V | | exact N1 | exact Tq |].
    { intros x Ix. apply in_or_app. right. do 2 right. apply in_or_app. now left. }
    { intros x Ix. apply in_or_app. now left. }
    { eapply enough_for. exact Hn. }
    rewrite Fh in Er. rewrite Er. clear Er.
    destruct (store_node h head s1 q s2 _ l (fresh, f) Hn) as (h1 & E1 & H1). rewrite E1. cbn [bind].
    rewrite (header_of_is _ _ l f H1) by (intros x Ix; apply in_or_app; right; do 2 right; apply in_or_app; right; apply in_or_app; now left).
    cbn [bind].
    rewrite (header_of_is _ _ (p_lay q) (fp_frame e) H1)
      by (intros x Ix; apply in_or_app; right; do 2 right; apply in_or_app; left; apply Iq, Ix).
    cbn [bind]. apply agrees_same. intros d _.
    set (q' := mkP (p_addr q) l (mkNode (Some (fresh, f)) (n_start (p_node q)))) in *.
    destruct (grow_is h1 a ah head pad th (node_blocks head (s1 ++ q' :: s2) ++ all_frame_blocks (s1 ++ q :: s2) ++ FB ++ rest) d)
      as (h2 & E2 & H2). { eapply heap_perm; [exact H1|]. unfold T1, T2. perm. }
    rewrite E2. cbn [bind].
    rewrite frames_app, frames_cons in H2. unfold p_frame_blocks at 1 in H2. rewrite Fq in H2.
    set (T2' := (ah, BTagHeader (with_tag_size th (th_tag_size th + d)))) in *.
    destruct (frame_free h2 (p_lay q) (fp_frame e)
      (T1 :: T2' :: node_blocks head (s1 ++ q' :: s2) ++ all_frame_blocks s1 ++ all_frame_blocks s2 ++ FB ++ rest))
      as (h3 & E3 & H3).
    { unfold kinds_ok in K. rewrite map_app in K. apply Forall_app in K as (_ & K). cbn [map] in K.
      inversion K as [|? ? K1 K2]; subst. now rewrite Fq in K1. }
    { eapply heap_perm; [exact H2|]. unfold T1. perm. }
    rewrite E3. eexists. split; [reflexivity|].
    rewrite map_app in Nk, Ad, Af, K. cbn [map] in Nk, Ad, Af, K.
    rewrite addresses_app in Ad, Af. cbn [addresses flat_map] in Ad, Af. rewrite Fq in Ad, Af. cbn [app] in Ad, Af.
    apply Forall_app in Nk as (Nk1 & Nk2). apply Forall_app in K as (K1 & K2).
    inversion Nk2 as [|? ? Nq Nk3]; subst. inversion K2 as [|? ? Kq K3]; subst.
    apply Forall_app in Af as (Af1 & Af2). inversion Af2 as [|? ? Aq Af3]; subst.
    unfold with_frames. cbn [t_frames t_header t_padding t_fresh].
    split; [|split; [unfold kinds_ok; apply Forall_app; split; [exact K1|constructor; [exact Kf|exact K3]]|]].
    2:{ cbn [t_frames]. rewrite map_app, !leak_app. cbn [map]. rewrite !leak_cons. unfold n_leak. cbn [n_frame fp_frame snd t_frames].
        rewrite Fq, Lk, Lf. lia. }
    exists (s1 ++ q' :: s2). split; [exists ah, head; cbn [t_frames t_fresh]; split; [|split; [|split; [|split; [|split]]]]|split].
    + unfold tag_blocks. cbn [t_header t_padding]. fold T1 T2'. rewrite frames_app, frames_cons.
      change (p_frame_blocks q') with FB.
      assert (L0 : leaked_blocks (p_lay q) (fp_frame e) = []).
      { apply length_zero_iff_nil. now rewrite leaked_length. }
      rewrite L0 in H3. eapply heap_perm; [exact H3|perm].
    + now rewrite map_app.
    + rewrite <- Fh. destruct s1; reflexivity.
    + apply Forall_app. split; [exact Nk1|]. constructor; [|exact Nk3].
      unfold node_ok in Nq |- *. rewrite Fq in Nq. exact Nq.
    + rewrite addresses_app. cbn [addresses flat_map n_frame app fp_addr fst].
      apply (Permutation_NoDup (l := fresh :: addresses (map p_node s1) ++ addresses (map p_node s2))); [perm|].
      constructor; [|eapply NoDup_remove_1; exact Ad].
      apply not_fresh, Forall_app. auto.
    + rewrite addresses_app. cbn [addresses flat_map n_frame app fp_addr fst].
      apply Forall_app. split; [now apply Forall_lt_S|]. constructor; [lia|now apply Forall_lt_S].
    + intros r e' Ir Fr. apply in_app_iff in Ir as [Ir|[<-|Ir]].
      * left. exists r. split; [apply in_or_app; now left|auto].
      * right. injection Fr as <-. rewrite map_app, addresses_app. cbn [map addresses flat_map]. rewrite Fq. cbn [app fp_addr fst].
        apply not_fresh. apply Forall_app. split; [exact Af1|now constructor].
      * left. exists r. split; [apply in_or_app; right; now right|auto].
    + intros r e' Ir Fr. apply in_app_iff in Ir as [Ir|[<-|Ir]].
      * left. eapply in_addresses; [|exact Fr]. apply in_or_app. now left.
      * right. apply (freed_dangling h2 h3 (p_lay q) (fp_frame e)
          (T1 :: T2' :: node_blocks head (s1 ++ q' :: s2) ++ all_frame_blocks s1 ++ all_frame_blocks s2 ++ FB ++ rest)); [|exact H3|].
        -- eapply heap_perm; [exact H2|]. unfold T1. perm.
        -- assert (L0 : leaked_blocks (p_lay q) (fp_frame e) = []) by (apply length_zero_iff_nil; now rewrite leaked_length).
           rewrite L0. intros y [].
      * left. eapply in_addresses; [|exact Fr]. apply in_or_app. right. now right.
  - (* add *)
    subst ep.
    set (T1 := (a, BTag (Some ah) (Some head) pad)) in *. set (T2 := (ah, BTagHeader th)) in *.
    set (FB := frame_blocks l f) in *.
    assert (Hn : heap_is h (node_blocks head pl ++ T1 :: T2 :: all_frame_blocks pl ++ FB ++ rest))
      by (eapply heap_perm; [exact H|perm]).
    eapply agrees_bind; [apply (add_frame_is h head pl l (fresh, f)); [exact Hn|exact Fh]|].
    intros v h1 (pl' & -> & H1 & Fh' & C).
    rewrite (header_of_is _ _ l f H1) by (intros x Ix; apply in_or_app; right; do 2 right; apply in_or_app; right; apply in_or_app; now left).
    cbn [bind].
    destruct (grow_is h1 a ah head pad th (node_blocks head pl' ++ all_frame_blocks pl ++ FB ++ rest) (fh_size (f_hdr f)))
      as (h2 & E2 & H2). { eapply heap_perm; [exact H1|]. unfold T1, T2. perm. }
    rewrite E2. eexists. split; [reflexivity|]. fold T1 in H2.
    set (T2' := (ah, BTagHeader (with_tag_size th (th_tag_size th + fh_size (f_hdr f))))) in *.
    unfold with_frames. cbn [t_frames t_header t_padding t_fresh].
    assert (X : Permutation (all_frame_blocks pl') (all_frame_blocks pl ++ FB) /\ Forall node_ok (map p_node pl')
              /\ Permutation (addresses (map p_node pl')) (fresh :: addresses (map p_node pl)) /\ kinds_ok (map p_node pl')
              /\ list_leak (map p_node pl') = list_leak (map p_node pl) /\ kept pl pl').
    { assert (Kn : forall x r, In r (pl ++ [mkP x l (mkNode (Some (fresh, f)) true)]) -> forall e, n_frame (p_node r) = Some e ->
         (exists q, In q pl /\ n_frame (p_node q) = Some e /\ p_lay q = p_lay r) \/ ~ In (fp_addr e) (addresses (map p_node pl))).
      { intros x r Ir e Fr. apply in_app_iff in Ir as [Ir|[<-|[]]]; [left; eauto|]. right. injection Fr as <-. now apply not_fresh. }
      destruct C as [(p & r & -> & St & ->)|(c & ->)].
      - cbn [map] in Nk, K. inversion Nk as [|? ? Np Nr]; subst. inversion K as [|? ? Kp Kr]; subst.
        unfold node_ok in Np. rewrite St in Np. destruct (n_frame (p_node p)) eqn:Fp; [discriminate Np|].
        rewrite !frames_cons. unfold p_frame_blocks. rewrite Fp. cbn [p_node n_frame p_lay app fp_frame snd].
        fold FB. split; [perm|]. split; [constructor; [reflexivity|exact Nr]|]. split.
        + cbn [map addresses flat_map p_node n_frame]. rewrite Fp. reflexivity.
        + split; [constructor; [exact Kf|exact Kr]|]. cbn [map]. rewrite !leak_cons. unfold n_leak.
          cbn [p_node n_frame fp_frame snd]. rewrite Fp, Lf. split; [reflexivity|].
          intros r' e Ir Fr. apply (Kn (p_addr p) r'); [|exact Fr]. apply in_or_app. destruct Ir as [<-|Ir]; [right; now left|left; now right].
      - rewrite frames_app, map_app, addresses_app. split; [|split; [|split; [|split; [|split]]]].
        + apply Permutation_app_head. cbn [all_frame_blocks flat_map]. rewrite app_nil_r. reflexivity.
        + apply Forall_app. split; [exact Nk|]. repeat constructor.
        + cbn [map addresses flat_map p_node n_frame app fp_addr fst]. symmetry. apply Permutation_cons_append.
        + apply Forall_app. split; [exact K|]. constructor; [exact Kf|constructor].
        + rewrite leak_app. cbn [map]. rewrite leak_cons. unfold n_leak. cbn [p_node n_frame fp_frame snd list_leak map list_sum fold_right].
          rewrite Lf. lia.
        + intros r' e Ir Fr. exact (Kn _ _ Ir _ Fr). }
    destruct X as (X1 & X2 & X3 & X4 & X5 & X6). split; [|split; [exact X4|cbn [t_frames]; lia]].
    exists pl'. split; [exists ah, head; cbn [t_frames t_fresh];
      split; [|split; [reflexivity|split; [exact Fh'|split; [exact X2|split]]]]|split; [exact X6|]].
    + unfold tag_blocks. cbn [t_header t_padding]. fold T1 T2'. eapply heap_perm; [exact H2|].
      etransitivity; [|symmetry; apply Permutation_app_tail, Permutation_app_head, Permutation_app_head; exact X1].
      perm.
    + eapply Permutation_NoDup; [symmetry; exact X3|]. constructor; [|exact Ad]. now apply not_fresh.
    + eapply Permutation_Forall; [symmetry; exact X3|]. constructor; [lia|now apply Forall_lt_S].
    + intros r e Ir Fr. left. eapply Permutation_in; [symmetry; exact X3|]. right. eapply in_addresses; eauto.
Qed.

(** ** What matches an id *)

Lemma match_first f c r : id_matches f (Some (Some c :: r)) = Ok true -> exists r', fh_id (f_hdr f) = Some c :: r'.
Proof.
  unfold id_matches. cbn [deref bind strncmp_eq]. destruct (fh_id (f_hdr f)) as [|[x|] m]; try discriminate.
  destruct (beq x c) eqn:E; [|discriminate]. apply beq_true in E. subst. eauto.
Qed.

Lemma no_leak f c r : kind_ok f -> fh_id (f_hdr f) = Some c :: r -> (c = "T" \/ c = "C" \/ c = "A")%byte -> frame_leak f = 0%nat.
Proof.
  intros (c' & r' & E' & K) E C. unfold frame_leak. destruct (f_data f); try reflexivity.
  rewrite E in E'. injection E' as <- <-. destruct K as (K1 & K2 & K3). destruct C as [C|[C|C]]; contradiction.
Qed.

Lemma leak_letter f c r : kind_ok f -> fh_id (f_hdr f) = Some c :: r ->
  frame_leak f = if beq c "T" || beq c "C" || beq c "A" then 0%nat else 1%nat.
Proof.
  intros (c' & r' & E' & K) E. unfold frame_leak. rewrite E in E'. injection E' as <- <-.
  destruct (f_data f); [subst; reflexivity..|]. destruct K as (K1 & K2 & K3). now rewrite !beq_neq.
Qed.

Lemma get_match l id e : FrameList_get_frame_by_id l id = Ok (Some e) -> id_matches (fp_frame e) id = Ok true.
Proof.
  induction l as [|n l IH]; [discriminate|]. cbn [FrameList_get_frame_by_id]. destruct (n_frame n) as [p|]; [|discriminate].
  intros E. binv E. destruct v; [|auto]. injection E as <-. exact E0.
Qed.

Lemma remove_match l id e v : FrameList_remove_frame_by_id l id = Ok (Some e, v) -> id_matches (fp_frame e) id = Ok true.
Proof.
  revert v. induction l as [|n l IH]; intros v; [discriminate|]. cbn [FrameList_remove_frame_by_id].
  destruct (n_frame n) as [p|]; [|discriminate]. cbn [deref bind]. intros E. binv E. destruct v0.
  - injection E as <- <-. exact E0.
  - binv E. destruct v0 as (r & rest'). injection E as -> _. eapply IH. exact E1.
Qed.

Lemma strncmp_begins t : forall s a b, Forall (fun x => x <> x00) s ->
  strncmp_eq (length s) a (cells s ++ t) = Ok b -> b = begins a s.
Proof.
  induction s as [|y s IH]; intros a b N E; [cbn in E; destruct a; injection E as <-; reflexivity|].
  inversion N; subst. cbn [length cells map app strncmp_eq] in E. cbn [begins].
  destruct a as [|[x|] a]; [discriminate|..|discriminate]. cbv iota in E. cbn [begins].
  destruct (beq x y) eqn:B; [|now injection E as <-]. apply beq_true in B. subst x.
  rewrite (beq_neq y x00) in E by assumption. cbn [andb]. now apply IH.
Qed.

(** ** Deleting *)

Lemma deleted_rep h a ah head t s1 q s2 s2' m : t_frames t = map p_node (s1 ++ q :: s2) ->
  first_addr (s1 ++ q :: s2) = Some head -> first_addr s2' = Some (p_addr q) ->
  map p_node s2' = unlink_node (map p_node s2) -> all_frame_blocks s2' = all_frame_blocks s2 -> from s2 s2' ->
  Forall node_ok (t_frames t) -> NoDup (addresses (t_frames t)) -> Forall (fun x => (x < t_fresh t)%nat) (addresses (t_frames t)) ->
  kinds_ok (t_frames t) -> forall th,
  heap_is h ((a, BTag (Some ah) (Some head) (t_padding t)) :: (ah, BTagHeader th) :: node_blocks head (s1 ++ s2')
     ++ all_frame_blocks s1 ++ all_frame_blocks s2 ++ m) ->
  (n_frame (p_node q) <> None -> dangling h m (p_lay q)) ->
  done a (s1 ++ q :: s2) m (n_leak (p_node q)) (list_leak (t_frames t)) (mkTag th (map p_node s1 ++ unlink_node (map p_node s2)) (t_padding t) (t_fresh t)) h.
Proof.
  intros Et Fh Fs Em Ef Fr Nk Ad Af K th H Gq. rewrite Et in *. rewrite map_app in Nk, Ad, Af, K. cbn [map] in *.
  rewrite addresses_app in Ad, Af.
  rewrite (addresses_app [p_node q] (map p_node s2) : addresses (p_node q :: map p_node s2) = _) in Ad, Af.
  assert (Ad' : NoDup (addresses (map p_node s1) ++ addresses (map p_node s2))).
  { cbn [addresses flat_map app] in Ad. rewrite app_nil_r in Ad. destruct (n_frame (p_node q)); [|exact Ad].
    eapply NoDup_remove_1. exact Ad. }
  apply Forall_app in Nk as (Nk1 & Nk2). inversion Nk2; subst.
  apply Forall_app in K as (K1 & K2). inversion K2; subst.
  apply Forall_app in Af as (Af1 & Af2). apply Forall_app in Af2 as (_ & Af2).
  split; [|split; [cbn [t_frames]; apply Forall_app; split; [exact K1|now apply kinds_unlink]|]].
  2:{ cbn [t_frames]. rewrite map_app, !leak_app, leak_unlink. cbn [map]. rewrite leak_cons. lia. }
  exists (s1 ++ s2'). split; [exists ah, head; cbn [t_frames t_fresh]; split; [|split; [|split; [|split; [|split]]]]|split].
  - unfold tag_blocks. cbn [t_header t_padding]. rewrite frames_app, Ef. eapply heap_perm; [exact H|perm].
  - now rewrite map_app, Em.
  - rewrite <- Fh. destruct s1; [exact Fs|reflexivity].
  - apply Forall_app. split; [exact Nk1|]. now apply node_ok_unlink.
  - rewrite addresses_app, addresses_unlink. exact Ad'.
  - rewrite addresses_app, addresses_unlink. apply Forall_app. auto.
  - intros q' e Iq Fq. left. apply in_app_iff in Iq as [Iq|Iq].
    + exists q'. split; [apply in_or_app; now left|auto].
    + destruct (Fr q' e Iq Fq) as (r & Ir & Er). exists r. split; [apply in_or_app; right; now right|exact Er].
  - intros r e Ir Er. rewrite map_app, Em, addresses_app, addresses_unlink. apply in_app_iff in Ir as [Ir|[<-|Ir]].
    + left. apply in_or_app. left. eapply in_addresses; eauto.
    + right. apply Gq. now rewrite Er.
    + left. apply in_or_app. right. eapply in_addresses; eauto.
Qed.

(** Done, with so many blocks lost. *)
Definition done_leak (a : nat) (pl : list pnode) (rest : list (nat * block)) (n x k : nat) (t : Tag) (h : heap) : Prop :=
  exists lost, length lost = n /\ done a pl (lost ++ rest) x k t h.

Lemma delete_is h a t pl rest c r : tag_laid h a t pl rest -> kinds_ok (t_frames t) ->
  let x := if beq c "T" || beq c "C" || beq c "A" then 0%nat else 1%nat in
  agrees (done_leak a pl rest x x (list_leak (t_frames t)))
    (ID3v2_Tag_delete_frame t (Some (Some c :: r))) (ID3v2_Tag_delete_frame_h (Some a) (Some (Some c :: r)) h).
Proof.
  intros (ah & head & H & Et & Fh & Nk & Ad & Af) K. intros lx.
  unfold ID3v2_Tag_delete_frame, ID3v2_Tag_delete_frame_h, tag_blocks in *. cbn [app] in H.
  rewrite (frames_of_is _ _ a ah head (t_padding t) H) by is_in. cbn [bind]. unfold FrameList_remove_frame_by_id_h.
  set (id := Some (Some c :: r)).
  set (T1 := (a, BTag (Some ah) (Some head) (t_padding t))) in *. set (T2 := (ah, BTagHeader (t_header t))) in *.
  assert (Hn : heap_is h (node_blocks head pl ++ T1 :: T2 :: all_frame_blocks pl ++ rest)) by (eapply heap_perm; [exact H|perm]).
  assert (Fo := remove_by_id_is h _ head id Hn pl (enough h)
                  ltac:(intros x Ix; apply in_or_app; now left)
                  ltac:(intros x Ix; apply in_or_app; right; do 2 right; apply in_or_app; now left)
                  ltac:(eapply enough_for; exact Hn)).
  rewrite Fh in Fo. rewrite <- Et in Fo.
  destruct (FrameList_remove_frame_by_id (t_frames t) id) as [[e v]| | |] eqn:Er; cbn [follows fst snd bind] in *;
    try (rewrite Fo; reflexivity).
  destruct e as [e|]; cbn [found_at] in Fo.
  2:{ destruct Fo as (-> & ->). cbn [bind deref]. unfold header_of, load_frame, load. reflexivity. }
  destruct Fo as (s1 & q & s2 & -> & Fq & -> & ->). cbn [deref bind].
  destruct (cut_is h head s1 q s2 _ Hn) as (h1 & s2' & -> & H1 & Fs & Em & Ef & Fr). cbn [bind].
  rewrite frames_app, frames_cons in H1. unfold p_frame_blocks in H1. rewrite Fq in H1.
  rewrite (header_of_is _ _ (p_lay q) (fp_frame e) H1)
    by (intros x Ix; apply in_or_app; right; do 2 right; apply in_or_app; left; apply in_or_app; right; apply in_or_app; now left).
  cbn [bind]. apply agrees_same. intros n _.
  destruct (grow_is h1 a ah head (t_padding t) (t_header t) (node_blocks head (s1 ++ s2')
    ++ all_frame_blocks s1 ++ frame_blocks (p_lay q) (fp_frame e) ++ all_frame_blocks s2 ++ rest) (- n)) as (h2 & -> & H2).
  { eapply heap_perm; [exact H1|]. unfold T1, T2. perm. }
  cbn [bind]. fold T1 in H2.
  assert (Ke : kind_ok (fp_frame e)).
  { eapply Forall_forall with (x := p_node q) in K.
    - now rewrite Fq in K.
    - rewrite Et, map_app. apply in_elt. }
  destruct (frame_free h2 (p_lay q) (fp_frame e) (T1 :: (ah, BTagHeader (with_tag_size (t_header t) (th_tag_size (t_header t) + - n)))
     :: node_blocks head (s1 ++ s2') ++ all_frame_blocks s1 ++ all_frame_blocks s2 ++ rest) Ke) as (h3 & -> & H3).
  { eapply heap_perm; [exact H2|perm]. }
  eexists. split; [reflexivity|]. exists (leaked_blocks (p_lay q) (fp_frame e)).
  destruct (match_first _ _ _ (remove_match _ _ _ _ Er)) as (r' & Ei).
  assert (Lx : frame_leak (fp_frame e) = lx) by (eapply leak_letter; eassumption).
  split; [now rewrite leaked_length|].
  assert (Nx : n_leak (p_node q) = lx) by (unfold n_leak; now rewrite Fq).
  assert (D := deleted_rep h3 a ah head t s1 q s2 s2' (leaked_blocks (p_lay q) (fp_frame e) ++ rest) Et Fh Fs Em Ef Fr Nk Ad Af K
                 (with_tag_size (t_header t) (th_tag_size (t_header t) + - n))).
  rewrite <- Nx. apply D; [eapply heap_perm; [exact H3|]; unfold T1; perm|].
  intros _. apply (freed_dangling h2 h3 (p_lay q) (fp_frame e) (T1 :: (ah, BTagHeader (with_tag_size (t_header t) (th_tag_size (t_header t) + - n)))
     :: node_blocks head (s1 ++ s2') ++ all_frame_blocks s1 ++ all_frame_blocks s2 ++ rest)); [eapply heap_perm; [exact H2|perm]|exact H3|].
  intros y Iy. apply in_or_app. now left.
Qed.

(** ** The n-th comment or picture *)

Lemma delete_nth_walk h m hs a index frames : heap_is h m -> forall suf fuel i, incl (node_blocks hs suf) m -> (length suf < fuel)%nat ->
  (exists u q w, suf = u ++ q :: w /\ Z.of_nat (length u) = index - i
     /\ delete_nth_loop (map p_node suf) i index frames = snd (FrameList_remove_frame frames (n_frame (p_node q)))
     /\ delete_nth_loop_h fuel a (first_addr suf) i index h
        = (let* fr := frames_of a h in
           let* (_, h) := FrameList_remove_frame_h fr (p_frame q) h in
           let* h := ID3v2_Frame_free (p_frame q) h in Ok (Some (p_addr q), h)))
  \/ ((index < i \/ i + Z.of_nat (length suf) <= index)
     /\ delete_nth_loop (map p_node suf) i index frames = frames
     /\ delete_nth_loop_h fuel a (first_addr suf) i index h = Ok (None, h)).
Proof.
  intros H. induction suf as [|q suf IH]; intros fuel i I L; (destruct fuel; [cbn [length] in L; lia|]).
  - right. split; [cbn; lia|]. auto.
  - cbn [map delete_nth_loop first_addr delete_nth_loop_h].
    apply incl_nodes_cons in I as (I & I'). rewrite (load_node_is _ _ _ _ _ _ H I). cbn [bind].
    destruct (Z.eqb_spec i index) as [->|Ne].
    + left. exists [], q, suf. split; [reflexivity|]. split; [cbn; lia|]. auto.
    + destruct (IH fuel (i + 1) I' ltac:(cbn [length] in L; lia)) as [(u & q' & w & -> & Lu & Ev & Eh)|(Ou & Ev & Eh)].
      * left. exists (q :: u), q', w. split; [reflexivity|]. split; [cbn [length]; lia|]. auto.
      * right. split; [cbn [length]; lia|]. auto.
Qed.

Lemma get_frames_match id : forall l sub v, get_frames_loop l id sub = Ok v ->
  Forall (fun n => match n_frame n with Some e => id_matches (fp_frame e) id = Ok true | None => True end) sub ->
  Forall (fun n => match n_frame n with Some e => id_matches (fp_frame e) id = Ok true | None => True end) v.
Proof.
  induction l as [|n l IH]; intros sub v; cbn [get_frames_loop]; [now intros [= ->]|].
  destruct (n_frame n) as [p|]; [|now intros [= ->]]. intros E F. binv E. destruct v0; [|eauto].
  binv E. eapply IH; [exact E|]. unfold FrameList_add_frame in E1. destruct sub as [|x sub]; [discriminate|].
  destruct (negb (n_start x)); injection E1 as <-.
  - inversion F; subst. constructor; auto.
  - constructor; [now inversion F|]. inversion F; subst. apply Forall_app. auto.
Qed.

Lemma get_frames_length id c s : forall l sub v, c :: s = lit id -> length s = 3%nat -> Forall (fun x => x <> x00) (c :: s) ->
  get_frames_loop l (clit id) sub = Ok v ->
  (sub = [empty_node] -> length v = Nat.max 1 (count_named id l)) /\
  ((exists n rest, sub = n :: rest /\ n_start n = true) -> length v = (length sub + count_named id l)%nat).
Proof.
  intros l sub v Ei Ls Nz. revert sub v. induction l as [|n l IH]; intros sub v; cbn [get_frames_loop].
  - intros [= <-]. split; [intros ->; reflexivity|]. intros _. cbn. lia.
  - unfold count_named in *. cbn [visible]. destruct (n_frame n) as [p|].
    2:{ intros [= <-]. split; [intros ->; reflexivity|]. intros _. cbn. lia. }
    intros E. binv E.
    assert (B : v0 = begins (fh_id (f_hdr (fp_frame p))) (lit id)).
    { unfold id_matches, clit in E0. cbn [deref bind] in E0. rewrite <- Ei in *.
      replace 4%nat with (length (c :: s)) in E0 by (cbn [length]; lia).
      unfold cells in E0. rewrite map_app in E0. exact (strncmp_begins _ _ _ _ Nz E0). }
    cbn [filter]. rewrite <- B. destruct v0; [|now apply IH].
    binv E. apply IH in E. destruct E as (_ & E). cbn [length].
    unfold FrameList_add_frame in E1. destruct sub as [|x sub]; [discriminate|].
    split.
    + intros [= -> ->]. cbn [negb empty_node n_start] in E1. injection E1 as <-. rewrite E by eauto. cbn [length]. lia.
    + intros (x' & rest & [= <- <-] & St). rewrite St in E1. cbn [negb] in E1. injection E1 as <-.
      rewrite E by eauto. cbn [length app]. rewrite app_length. cbn [length]. lia.
Qed.

Lemma same_frame pl h m q r e : heap_is h (all_frame_blocks pl ++ m) -> In q pl -> In r pl ->
  n_frame (p_node q) = Some e -> p_frame r = Some (l_self (p_lay q)) -> r = q.
Proof.
  intros (_ & D & _) Iq Ir Fq Pr. rewrite map_app in D. apply NoDup_app_l in D.
  unfold all_frame_blocks in D. rewrite map_fst_flat_map in D. unfold p_frame in Pr.
  destruct (n_frame (p_node r)) as [e'|] eqn:Fr; [|discriminate Pr]. injection Pr as Pr.
  eapply (flat_map_unique _ _ _ _ (l_self (p_lay q)) D Ir Iq); unfold p_frame_blocks; rewrite ?Fr, ?Fq;
    cbn [frame_blocks map fst]; left; congruence.
Qed.

Lemma ptr_eqb_true p q : ptr_eqb p q = true -> p = q.
Proof. destruct p, q; cbn [ptr_eqb]; intros E; try discriminate; [|reflexivity]. now apply Nat.eqb_eq in E as ->. Qed.

Lemma delete_nth_is h a t pl rest id c s index : tag_laid h a t pl rest -> kinds_ok (t_frames t) ->
  c :: s = lit id -> length s = 3%nat -> Forall (fun x => x <> x00) (c :: s) -> (c = "T" \/ c = "C" \/ c = "A")%byte ->
  agrees (done_leak a pl rest (sublist_leak index (count_named id (t_frames t))) 0 (list_leak (t_frames t)))
    (let* head := FrameList_get_frames_by_id (t_frames t) (clit id) in
     Ok (mkTag (t_header t) (delete_nth_loop head 0 index (t_frames t)) (t_padding t) (t_fresh t)))
    (delete_nth_frame_h (Some a) (clit id) index h).
Proof.
  intros (ah & head & H & Et & Fh & Nk & Ad & Af) K Ei Ls Nz Lt.
  unfold delete_nth_frame_h, FrameList_get_frames_by_id_h, FrameList_get_frames_by_id, tag_blocks, FrameList_new_h in *.
  cbn [app] in H. rewrite (frames_of_is _ _ a ah head (t_padding t) H) by is_in. cbn [bind].
  set (T1 := (a, BTag (Some ah) (Some head) (t_padding t))) in *. set (T2 := (ah, BTagHeader (t_header t))) in *.
  set (M := node_blocks head pl ++ T1 :: T2 :: all_frame_blocks pl ++ rest).
  assert (Hn : heap_is h M) by (eapply heap_perm; [exact H|unfold M; perm]).
  clear H. pose proof (enough_for _ _ _ _ Hn) as En. mal Hn. set (hs := next h) in *.
  set (n0 := mkP hs (mkLay 0 0 0 0 0 0) empty_node).
  assert (En' : (length pl < enough h0)%nat).
  { apply heap_size in Hn. unfold M in Hn. cbn [length] in Hn. rewrite app_length, nodes_length in Hn. unfold enough. lia. }
  assert (G := get_frames_is head hs (clit id) M pl pl (enough h0) h0 [n0] [] Hn eq_refl
     ltac:(intros x Ix; apply in_or_app; now left)
     ltac:(intros x Ix; apply in_or_app; right; do 2 right; apply in_or_app; now left)
     (incl_refl _) ltac:(constructor; [now left|constructor]) En' ltac:(repeat constructor)
     (perm_end (all_frame_blocks pl))).
  rewrite Fh, <- Et in G. change (map p_node [n0]) with FrameList_new in G.
  destruct (get_frames_loop (t_frames t) (clit id) FrameList_new) as [v| | |] eqn:Eg; cbn [agrees bind] in *;
    try (rewrite G; reflexivity).
  destruct G as (h1 & -> & sl & -> & H1 & Fsl & Sh & _). cbn [bind].
  assert (Ml := get_frames_match _ _ _ _ Eg ltac:(repeat constructor)).
  destruct (get_frames_length id c s _ _ _ Ei Ls Nz Eg) as (Ll & _). specialize (Ll eq_refl). rewrite map_length in Ll.
  destruct (delete_nth_walk h1 _ hs (Some a) index (t_frames t) H1 sl (enough h1) 0
              ltac:(intros x Ix; apply in_or_app; now left) (enough_for _ _ _ _ H1))
    as [(u & q & w & Es & Lu & -> & Eh)|(Ou & -> & Eh)].
  - (* the n-th one exists *)
    rewrite Fsl in Eh. rewrite Eh. clear Eh.
    assert (Hf : heap_is h1 (all_frame_blocks pl ++ T1 :: T2 :: node_blocks head pl ++ rest ++ node_blocks hs sl))
      by (eapply heap_perm; [exact H1|unfold M; perm]).
    rewrite (frames_of_is _ _ a ah head (t_padding t) H1) by (unfold M; is_in). cbn [bind].
    rewrite Forall_forall in Sh. assert (Sq : shows pl q) by (apply Sh; rewrite Es; apply in_elt).
    rewrite Forall_forall in Ml. assert (Mq := Ml (p_node q) ltac:(apply in_map; rewrite Es; apply in_elt)).
    assert (V : same_view pl (n_frame (p_node q)) (p_frame q) /\ usable (p_frame q) h1 = Ok tt).
    { unfold p_frame. destruct Sq as [Fq|(r & Ir & Fr & Lr)].
      - rewrite Fq. split; [apply view_none|reflexivity].
      - destruct (n_frame (p_node q)) as [e|] eqn:Fq; [|split; [apply view_none|reflexivity]].
        rewrite <- Lr. split.
        + eapply view_some; [exact Hf|now rewrite <- Et|exact Ir|exact Fr].
        + unfold usable. erewrite load_is; [reflexivity|exact Hf|]. apply in_or_app. left. apply in_flat_map.
          exists r. split; [exact Ir|]. unfold p_frame_blocks. rewrite Fr. now left. }
    destruct V as (V & U).
    assert (Rm := remove_frame_is h1 _ head _ _ Hf U pl (enough h1)
      ltac:(intros x Ix; apply in_or_app; right; do 2 right; apply in_or_app; now left)
      ltac:(intros x Ix; apply in_or_app; now left) V
      ltac:(eapply (enough_for h1 head pl (T1 :: T2 :: all_frame_blocks pl ++ rest ++ node_blocks hs sl)); eapply heap_perm; [exact H1|unfold M; perm])).
    unfold FrameList_remove_frame_h. rewrite Fh, <- Et in Rm.
    assert (Lk : length u = sublist_leak index (count_named id (t_frames t))).
    { unfold sublist_leak. rewrite Es, app_length in Ll. cbn [length] in Ll.
      replace ((0 <=? index) && (index <? Z.of_nat (Nat.max 1 (count_named id (t_frames t))))) with true by lia. lia. }
    rewrite Es, nodes_app in H1. cbn [first_addr] in H1. unfold M in H1.
    set (lost := seg hs u (Some (p_addr q))) in *.
    assert (Ul : forall h2 m2, heap_is h2 (node_blocks hs (q :: w) ++ m2) ->
       exists h3, ID3v2_FrameList_unlink (Some (p_addr q)) h2 = Ok h3 /\ heap_is h3 m2).
    { intros h2 m2 H2. unfold ID3v2_FrameList_unlink. change (Some (p_addr q)) with (first_addr (q :: w)).
      eapply unlink_is; [exact H2|]. eapply enough_for. exact H2. }
    destruct Rm as [(-> & -> & Nf)|(s1 & r' & s2 & Epl & Sr & -> & ->)].
    + (* nothing to remove *)
      cbn [bind snd].
      assert (Fq : n_frame (p_node q) = None).
      { destruct Sq as [Fq|(r & Ir & Fr & Lr)]; [exact Fq|]. specialize (Nf r Ir). rewrite Fr in Nf.
        destruct (n_frame (p_node q)) as [e|]; [|reflexivity]. unfold same_ptr, addr_of in Nf. cbn [option_map] in Nf.
        rewrite Nat.eqb_refl in Nf. discriminate Nf. }
      unfold p_frame. rewrite Fq. cbn [ID3v2_Frame_free bind].
      destruct (Ul h1 (T1 :: T2 :: node_blocks head pl ++ all_frame_blocks pl ++ lost ++ rest)) as (h3 & -> & H3).
      { eapply heap_perm; [exact H1|perm]. }
      eexists. split; [reflexivity|]. exists lost. split; [unfold lost; now rewrite seg_length|].
      rewrite <- Et. split; [|split; [exact K|cbn [t_frames]; lia]]. exists pl.
      split; [|split; [apply kept_refl|apply gone_refl]]. exists ah, head. destruct t as [th fs pad fresh]; cbn [t_frames t_header t_padding t_fresh] in *.
      split; [|auto 6]. unfold tag_blocks. cbn [t_frames t_header t_padding t_fresh app]. fold T1 T2.
      eapply heap_perm; [exact H3|perm].
    + (* the node is cut out and the frame freed *)
      cbn [snd].
      destruct (cut_is h1 head s1 r' s2 (T1 :: T2 :: all_frame_blocks pl ++ rest ++ node_blocks hs (q :: w) ++ lost))
        as (h2 & s2' & E2 & H2 & Fs & Em & Ef & Frs). { rewrite <- Epl. eapply heap_perm; [exact H1|perm]. }
      rewrite E2. cbn [bind].
      assert (Ff : exists h3, ID3v2_Frame_free (p_frame q) h2 = Ok h3 /\
        heap_is h3 (node_blocks hs (q :: w) ++ T1 :: T2 :: node_blocks head (s1 ++ s2') ++ all_frame_blocks s1 ++ all_frame_blocks s2
                    ++ lost ++ rest) /\ n_leak (p_node r') = 0%nat
        /\ (n_frame (p_node r') <> None -> forall h4 m4, heap_is h4 m4 ->
               incl m4 (node_blocks hs (q :: w) ++ T1 :: T2 :: node_blocks head (s1 ++ s2') ++ all_frame_blocks s1 ++ all_frame_blocks s2
                    ++ lost ++ rest) -> dangling h4 (lost ++ rest) (p_lay r'))).
      { rewrite (V r') in Sr by (rewrite Epl; apply in_elt). apply ptr_eqb_true in Sr.
        rewrite Epl, frames_app, frames_cons in H2. rewrite Epl in Hf, Sq. unfold p_frame in *.
        destruct (n_frame (p_node q)) as [e|] eqn:Fq.
        - destruct Sq as [Sq|(r & Ir & Fr & Lr)]; [congruence|]. rewrite Fq in Fr.
          assert (Er : r' = r).
          { eapply same_frame; [exact Hf|exact Ir|apply in_elt|exact Fr|]. unfold p_frame. now rewrite Lr. }
          subst r'. unfold p_frame_blocks in H2. rewrite Fr, Lr in H2.
          assert (Ke : kind_ok (fp_frame e)).
          { eapply Forall_forall with (x := p_node r) in K; [now rewrite Fr in K|].
            rewrite Et. apply in_map. rewrite Epl. apply in_elt. }
          destruct (frame_free h2 (p_lay q) (fp_frame e) (node_blocks hs (q :: w) ++ T1 :: T2 :: node_blocks head (s1 ++ s2')
             ++ all_frame_blocks s1 ++ all_frame_blocks s2 ++ lost ++ rest) Ke) as (h3 & -> & H3).
          { eapply heap_perm; [exact H2|perm]. }
          exists h3. split; [reflexivity|].
          assert (L1 : frame_leak (fp_frame e) = 0%nat).
          { unfold clit in Mq. rewrite <- Ei in Mq.
            destruct (match_first _ _ _ Mq) as (r' & Eid). eapply no_leak; eassumption. }
          assert (L0 : leaked_blocks (p_lay q) (fp_frame e) = []).
          { apply length_zero_iff_nil. now rewrite leaked_length. }
          rewrite L0 in H3. split; [exact H3|]. split; [unfold n_leak; now rewrite Fr|]. intros _ h4 m4 H4 I4. rewrite Lr.
          apply (freed_away h2 h4 (p_lay q) (fp_frame e) (node_blocks hs (q :: w) ++ T1 :: T2 :: node_blocks head (s1 ++ s2') ++ all_frame_blocks s1 ++ all_frame_blocks s2
                    ++ lost ++ rest) m4); [|exact H4|exact I4].
          eapply heap_perm; [exact H2|perm].
        - unfold p_frame_blocks in H2. unfold n_leak. destruct (n_frame (p_node r')); [discriminate Sr|]. exists h2. split; [reflexivity|].
          split; [|split; [reflexivity|tauto]]. eapply heap_perm; [exact H2|perm]. }
      destruct Ff as (h3 & -> & H3 & L3 & G3). cbn [bind]. destruct (Ul h3 _ H3) as (h4 & -> & H4).
      eexists. split; [reflexivity|]. exists lost. split; [unfold lost; now rewrite seg_length|].
      rewrite <- L3. rewrite Epl in Et, Fh |- *. refine (deleted_rep h4 a ah head t s1 r' s2 s2' _ Et Fh Fs Em Ef Frs Nk Ad Af K (t_header t) _ _); [exact H4|].
      intros Nn. eapply (G3 Nn); [exact H4|]. intros y Iy. apply in_or_app. right. exact Iy.
  - (* there is no n-th one *)
    rewrite Fsl in Eh. rewrite Eh. cbn [bind]. unfold ID3v2_FrameList_unlink. cbn [unlink enough].
    eexists. split; [reflexivity|]. exists (node_blocks hs sl). split.
    { rewrite nodes_length. unfold sublist_leak.
      replace ((0 <=? index) && (index <? Z.of_nat (Nat.max 1 (count_named id (t_frames t))))) with false by lia. exact Ll. }
    split; [|split; [exact K|cbn [t_frames]; lia]]. exists pl. split; [|split; [apply kept_refl|apply gone_refl]].
    exists ah, head. destruct t as [th fs pad fresh]; cbn [t_frames t_header t_padding t_fresh] in *.
    split; [|auto 6]. unfold tag_blocks. cbn [t_frames t_header t_padding t_fresh app]. fold T1 T2.
    eapply heap_perm; [exact H1|]. unfold M. perm.
Qed.

(** ** All calls *)

Lemma get_is h a ah head t pl rest id : rep h a ah head t pl rest ->
  agrees (points pl) (FrameList_get_frame_by_id (t_frames t) id) (FrameList_get_frame_by_id_h (Some head) id h).
Proof.
  intros (H & Et & Fh & _). unfold FrameList_get_frame_by_id_h. rewrite <- Fh, Et. unfold tag_blocks in H. cbn [app] in H.
  eapply (get_frame_is h _ head id H).
  - intros x Ix. do 2 right. apply in_or_app. left. apply in_or_app. now left.
  - intros x Ix. do 2 right. apply in_or_app. left. apply in_or_app. now right.
  - eapply (enough_for h head pl ((a, BTag (Some ah) (Some head) (t_padding t)) :: (ah, BTagHeader (t_header t)) :: all_frame_blocks pl ++ rest)).
    eapply heap_perm; [exact H|perm].
Qed.

(** The common part of the three set functions. *)
Lemma set_is h a t pl rest id c r (new : outcome frame) (new_h : heap -> outcome (nat * heap)) :
  tag_laid h a t pl rest -> kinds_ok (t_frames t) -> id = Some (Some c :: r) -> (c = "T" \/ c = "C" \/ c = "A")%byte ->
  (forall m, heap_is h m -> agrees (made m) new (new_h h)) -> (forall f, new = Ok f -> kind_ok f /\ frame_leak f = 0%nat) ->
  agrees (done a pl rest 0 (list_leak (t_frames t)))
    (let* f := new in let* e := FrameList_get_frame_by_id (t_frames t) id in install_frame t e f)
    (let* (nf, h) := new_h h in let* fr := frames_of (Some a) h in
     let* e := FrameList_get_frame_by_id_h fr id h in install_frame_h (Some a) e (Some nf) h).
Proof.
  intros (ah & head & H & Et & Fh & Nk & Ad & Af) K -> Lt N Kn. specialize (N _ H).
  destruct new as [f| | |]; cbn [agrees bind] in *; try (rewrite N; reflexivity).
  destruct N as ((nf & h1) & -> & l & El & H1). cbn [fst snd bind] in *. subst nf.
  assert (R : rep h1 a ah head t pl (frame_blocks l f ++ rest)).
  { split; [eapply heap_perm; [exact H1|perm]|auto 7]. }
  rewrite (frames_of_is _ _ a ah head (t_padding t) H1) by (apply in_or_app; right; now left). cbn [bind].
  assert (G := get_is _ _ _ _ _ _ _ (Some (Some c :: r)) R).
  destruct (FrameList_get_frame_by_id (t_frames t) (Some (Some c :: r))) as [e| | |] eqn:Eg; cbn [agrees bind] in *;
    try (rewrite G; reflexivity).
  destruct G as (ep & -> & P). cbn [bind]. eapply install_is; [exact R|exact K|now apply Kn|now apply Kn|exact P|].
  destruct e as [e|]; [|exact I]. destruct (match_first _ _ _ (get_match _ _ _ Eg)) as (r' & Ei).
  eapply no_leak; [|exact Ei|exact Lt]. cbn [points] in P. destruct P as (s1 & q & s2 & -> & Fq & _).
  eapply Forall_forall with (x := p_node q) in K; [now rewrite Fq in K|]. rewrite Et, map_app. apply in_elt.
Qed.

Lemma add_is h a t pl rest (new : outcome frame) (new_h : heap -> outcome (nat * heap)) :
  tag_laid h a t pl rest -> kinds_ok (t_frames t) ->
  (forall m, heap_is h m -> agrees (made m) new (new_h h)) -> (forall f, new = Ok f -> kind_ok f /\ frame_leak f = 0%nat) ->
  agrees (done a pl rest 0 (list_leak (t_frames t))) (let* f := new in append_frame t f)
    (let* (nf, h) := new_h h in install_frame_h (Some a) None (Some nf) h).
Proof.
  intros (ah & head & H & Et & Fh & Nk & Ad & Af) K N Kn. specialize (N _ H).
  destruct new as [f| | |]; cbn [agrees bind] in *; try (rewrite N; reflexivity).
  destruct N as ((nf & h1) & -> & l & El & H1). cbn [fst snd bind] in *. subst nf. unfold append_frame.
  eapply install_is; [|exact K|now apply Kn|now apply Kn|reflexivity|exact I].
  split; [eapply heap_perm; [exact H1|perm]|auto 7].
Qed.

Lemma header_new_id c r fl n hd : FrameHeader_new (Some (Some c :: r)) fl n = Ok hd -> exists r', fh_id hd = Some c :: r'.
Proof.
  unfold FrameHeader_new. intros E. do 2 binv E. injection E as <-. cbn [fh_id].
  unfold memcpy_from in E0. cbn [deref bind] in E0. repeat (match type of E0 with context [if ?b then _ else _] => destruct b end; try discriminate).
  injection E0 as <-. eexists. reflexivity.
Qed.

Lemma text_kind r fl t f : TextFrame_new (Some (Some "T"%byte :: r)) fl t = Ok f -> kind_ok f /\ frame_leak f = 0%nat.
Proof.
  unfold TextFrame_new. intros E. do 3 binv E. injection E as <-. destruct (header_new_id _ _ _ _ _ E2) as (r' & Ei).
  split; [|reflexivity]. exists "T"%byte, r'. split; [exact Ei|reflexivity].
Qed.

Lemma comment_kind fl l sd c f : CommentFrame_new fl l sd c = Ok f -> kind_ok f /\ frame_leak f = 0%nat.
Proof.
  unfold CommentFrame_new. intros E. do 6 binv E. injection E as <-.
  destruct (header_new_id _ _ _ _ _ E5) as (r' & Ei). split; [|reflexivity]. exists "C"%byte, r'. split; [exact Ei|reflexivity].
Qed.

Lemma apic_kind fl d ty mi s b f : ApicFrame_new fl d ty mi s b = Ok f -> kind_ok f /\ frame_leak f = 0%nat.
Proof.
  unfold ApicFrame_new. intros E. do 8 binv E. injection E as <-.
  destruct (header_new_id _ _ _ _ _ E7) as (r' & Ei). split; [|reflexivity]. exists "A"%byte, r'. split; [exact Ei|reflexivity].
Qed.

Lemma done_no_leak a pl rest x k o o' : agrees (done a pl rest x k) o o' -> agrees (done_leak a pl rest 0 x k) o o'.
Proof. intros H. eapply agrees_weaken; [exact H|]. intros t h D. exists []. split; [reflexivity|exact D]. Qed.

Lemma set_text_is h a t pl rest r fl s : tag_laid h a t pl rest -> kinds_ok (t_frames t) ->
  agrees (done_leak a pl rest 0 0 (list_leak (t_frames t))) (ID3v2_Tag_set_text_frame t (mkTextInput (Some (Some "T"%byte :: r)) fl s))
    (ID3v2_Tag_set_text_frame_h (Some a) (mkTextInput (Some (Some "T"%byte :: r)) fl s) h).
Proof.
  intros T K. apply done_no_leak. unfold ID3v2_Tag_set_text_frame, ID3v2_Tag_set_text_frame_h. cbn [ti_id ti_flags ti_text].
  apply (set_is h a t pl rest _ "T"%byte r (TextFrame_new _ fl s) (TextFrame_new_h _ fl s)); auto.
  - intros m. apply text_frame_new.
  - intros f. apply text_kind.
Qed.

Lemma set_comment_is h a t pl rest i : tag_laid h a t pl rest -> kinds_ok (t_frames t) ->
  agrees (done_leak a pl rest 0 0 (list_leak (t_frames t))) (ID3v2_Tag_set_comment_frame t i) (ID3v2_Tag_set_comment_frame_h (Some a) i h).
Proof.
  intros T K. apply done_no_leak. unfold ID3v2_Tag_set_comment_frame, ID3v2_Tag_set_comment_frame_h.
  eapply (set_is h a t pl rest ID3v2_COMMENT_FRAME_ID "C"%byte _ (CommentFrame_new _ _ _ _) (CommentFrame_new_h _ _ _ _)); auto.
  - reflexivity.
  - intros m. apply comment_frame_new.
  - intros f. apply comment_kind.
Qed.

Lemma add_comment_is h a t pl rest i : tag_laid h a t pl rest -> kinds_ok (t_frames t) ->
  agrees (done_leak a pl rest 0 0 (list_leak (t_frames t))) (ID3v2_Tag_add_comment_frame t i) (ID3v2_Tag_add_comment_frame_h (Some a) i h).
Proof.
  intros T K. apply done_no_leak. unfold ID3v2_Tag_add_comment_frame, ID3v2_Tag_add_comment_frame_h.
  apply (add_is h a t pl rest (CommentFrame_new _ _ _ _) (CommentFrame_new_h _ _ _ _)); auto.
  - intros m. apply comment_frame_new.
  - intros f. apply comment_kind.
Qed.

Lemma set_apic_is h a t pl rest i : tag_laid h a t pl rest -> kinds_ok (t_frames t) ->
  agrees (done_leak a pl rest 0 0 (list_leak (t_frames t))) (ID3v2_Tag_set_apic_frame t i) (ID3v2_Tag_set_apic_frame_h (Some a) i h).
Proof.
  intros T K. apply done_no_leak. unfold ID3v2_Tag_set_apic_frame, ID3v2_Tag_set_apic_frame_h.
  eapply (set_is h a t pl rest ID3v2_ALBUM_COVER_FRAME_ID "A"%byte _ (ApicFrame_new _ _ _ _ _ _) (ApicFrame_new_h _ _ _ _ _ _)); auto.
  - reflexivity.
  - intros m. apply apic_frame_new.
  - intros f. apply apic_kind.
Qed.

Lemma add_apic_is h a t pl rest i : tag_laid h a t pl rest -> kinds_ok (t_frames t) ->
  agrees (done_leak a pl rest 0 0 (list_leak (t_frames t))) (ID3v2_Tag_add_apic_frame t i) (ID3v2_Tag_add_apic_frame_h (Some a) i h).
Proof.
  intros T K. apply done_no_leak. unfold ID3v2_Tag_add_apic_frame, ID3v2_Tag_add_apic_frame_h.
  apply (add_is h a t pl rest (ApicFrame_new _ _ _ _ _ _) (ApicFrame_new_h _ _ _ _ _ _)); auto.
  - intros m. apply apic_frame_new.
  - intros f. apply apic_kind.
Qed.

Lemma delete_odd_is h a t pl rest id : tag_laid h a t pl rest -> kinds_ok (t_frames t) ->
  match id with Some (Some _ :: _) => False | _ => True end ->
  agrees (done_leak a pl rest 0 0 (list_leak (t_frames t))) (ID3v2_Tag_delete_frame t id) (ID3v2_Tag_delete_frame_h (Some a) id h).
Proof.
  intros (ah & head & H & Et & Fh & Nk & Ad & Af) K Od.
  unfold ID3v2_Tag_delete_frame, ID3v2_Tag_delete_frame_h, tag_blocks in *. cbn [app] in H.
  rewrite (frames_of_is _ _ a ah head (t_padding t) H) by is_in. cbn [bind]. unfold FrameList_remove_frame_by_id_h.
  set (T1 := (a, BTag (Some ah) (Some head) (t_padding t))) in *. set (T2 := (ah, BTagHeader (t_header t))) in *.
  assert (Hn : heap_is h (node_blocks head pl ++ T1 :: T2 :: all_frame_blocks pl ++ rest)) by (eapply heap_perm; [exact H|perm]).
  assert (Fo := remove_by_id_is h _ head id Hn pl (enough h)
                  ltac:(intros x Ix; apply in_or_app; now left)
                  ltac:(intros x Ix; apply in_or_app; right; do 2 right; apply in_or_app; now left)
                  ltac:(eapply enough_for; exact Hn)).
  rewrite Fh in Fo. rewrite <- Et in Fo.
  destruct (FrameList_remove_frame_by_id (t_frames t) id) as [[e v]| | |] eqn:Er; cbn [follows fst snd bind] in *;
    try (rewrite Fo; reflexivity).
  destruct e as [e|]; cbn [found_at] in Fo.
  - apply remove_match in Er. exfalso. unfold id_matches in Er. destruct id as [[|[x|] r]|]; cbn [deref bind strncmp_eq] in Er.
    + destruct (fh_id (f_hdr (fp_frame e))) as [|[|]]; discriminate.
    + contradiction.
    + destruct (fh_id (f_hdr (fp_frame e))) as [|[|]]; discriminate.
    + discriminate.
  - destruct Fo as (-> & ->). cbn [bind deref]. unfold header_of, load_frame, load. reflexivity.
Qed.

Lemma call_is h a t pl rest c : tag_laid h a t pl rest -> kinds_ok (t_frames t) -> call_kind c ->
  agrees (done_leak a pl rest (node_leak c (t_frames t) + struct_leak c) (struct_leak c) (list_leak (t_frames t))) (run_call t c) (run_call_h (Some a) c h).
Proof.
  intros T K C. destruct c; cbn [run_call run_call_h node_leak struct_leak];
    try (apply (set_text_is h a t pl rest); assumption);
    try (apply set_comment_is; assumption);
    try (apply add_comment_is; assumption);
    try (apply set_apic_is; assumption);
    try (apply add_apic_is; assumption);
    try (apply (delete_is h a t pl rest "T"%byte); assumption).
  - destruct input as [id fl s]. cbn [call_kind ti_id] in C. destruct C as (r & ->). now apply set_text_is.
  - destruct id as [[|[x|] r]|]; try (apply delete_odd_is; auto; fail). apply delete_is; assumption.
  - apply (delete_is h a t pl rest "C"%byte); assumption.
  - apply (delete_is h a t pl rest "A"%byte); assumption.
  - unfold ID3v2_Tag_delete_comment_frame, ID3v2_Tag_get_comment_frames, ID3v2_Tag_get_frames.
    rewrite Nat.add_0_r. eapply (delete_nth_is h a t pl rest "COMM"); [exact T|exact K|reflexivity|reflexivity| |auto].
    repeat constructor; discriminate.
  - unfold ID3v2_Tag_delete_apic_frame, ID3v2_Tag_get_apic_frames, ID3v2_Tag_get_frames.
    rewrite Nat.add_0_r. eapply (delete_nth_is h a t pl rest "APIC"); [exact T|exact K|reflexivity|reflexivity| |auto].
    repeat constructor; discriminate.
Qed.

(** ** Whole lives *)

Lemma call_at h a t rest c : tag_at h a t rest -> kinds_ok (t_frames t) -> call_kind c ->
  agrees (fun t' h' => exists lost,
            length lost = (node_leak c (t_frames t) + struct_leak c)%nat
            /\ tag_at h' a t' (lost ++ rest) /\ kinds_ok (t_frames t')
            /\ (list_leak (t_frames t') + struct_leak c = list_leak (t_frames t))%nat) (run_call t c) (run_call_h (Some a) c h).
Proof.
  intros (pl & T) K C. eapply agrees_weaken; [apply (call_is h a t pl rest c T K C)|].
  intros t' h' (lost & L & (pl' & T' & _) & K' & L'). exists lost. split; [exact L|]. split; [exists pl'; exact T'|auto].
Qed.

Lemma calls_are cs : forall h a t rest, tag_at h a t rest -> kinds_ok (t_frames t) -> Forall call_kind cs ->
  agrees (fun t' h' => exists lost,
            length lost = (node_leaks t cs + struct_leaks cs)%nat
            /\ tag_at h' a t' (lost ++ rest) /\ kinds_ok (t_frames t')
            /\ (list_leak (t_frames t') + struct_leaks cs = list_leak (t_frames t))%nat)
    (run_calls t cs) (run_calls_h (Some a) cs h).
Proof.
  induction cs as [|c cs IH]; intros h a t rest T K C; cbn [run_calls run_calls_h node_leaks struct_leaks].
  - apply agrees_ok. exists []. split; [reflexivity|]. split; [exact T|]. split; [exact K|lia].
  - inversion C; subst. assert (S := call_at h a t rest c T K H1).
    destruct (run_call t c) as [t1| | |]; cbn [agrees bind] in *; try (rewrite S; reflexivity).
    destruct S as (h1 & -> & lost & L & T1 & K1 & L1). cbn [bind].
    eapply agrees_weaken; [apply (IH h1 a t1 _ T1 K1 H2)|]. intros t2 h2 (lost2 & L2 & T2 & K2 & L3).
    exists (lost2 ++ lost). split; [rewrite app_length; lia|]. rewrite <- app_assoc.
    split; [exact T2|]. split; [exact K2|lia].
Qed.

Lemma new_is h m : heap_is h m -> exists a h', ID3v2_Tag_new_empty_h h = (a, h') /\ tag_at h' a ID3v2_Tag_new_empty m
  /\ kinds_ok (t_frames ID3v2_Tag_new_empty).
Proof.
  intros H. unfold ID3v2_Tag_new_empty_h, ID3v2_Tag_new_h, FrameList_new_h. mal H. mal H.
  destruct (malloc_is h1 _ (BTag (Some (next h)) (Some (next h0)) 0) H) as (h2 & -> & H2 & _).
  eexists _, h2. split; [reflexivity|]. split; [|repeat constructor].
  exists [mkP (next h0) (mkLay 0 0 0 0 0 0) empty_node], (next h), (next h0).
  split; [|repeat split; repeat constructor]. eapply heap_perm; [exact H2|].
  unfold tag_blocks, all_frame_blocks, p_frame_blocks, p_frame. cbn. constructor. constructor.
Qed.

Lemma free_is_all h a t rest : tag_at h a t rest -> kinds_ok (t_frames t) ->
  exists h' lost, ID3v2_Tag_free (Some a) h = Ok h' /\ heap_is h' (lost ++ rest) /\ length lost = list_leak (t_frames t)
    /\ ~ In a (map fst (lost ++ rest)).
Proof.
  intros (pl & ah & head & H & Et & Fh & _) K. unfold ID3v2_Tag_free, tag_blocks in *. cbn [app] in H. ld H.
  set (T1 := (a, BTag (Some ah) (Some head) (t_padding t))) in *.
  destruct (free_at _ _ ah (BTagHeader (t_header t)) (T1 :: (node_blocks head pl ++ all_frame_blocks pl) ++ rest) H ltac:(perm))
    as (h1 & -> & H1 & _). cbn [bind]. unfold T1 in H1. ld H1. fold T1 in H1.
  assert (H2 : heap_is h1 (node_blocks head pl ++ all_frame_blocks pl ++ T1 :: rest)) by (eapply heap_perm; [exact H1|perm]).
  destruct (free_list_is head pl (enough h1) h1 (T1 :: rest) H2) as (h2 & E2 & H3).
  { now rewrite <- Et. } { eapply enough_for. exact H2. }
  unfold ID3v2_FrameList_free. rewrite Fh in E2. rewrite E2. cbn [bind].
  destruct (free_at _ _ a (BTag (Some ah) (Some head) (t_padding t)) (flat_map p_leak pl ++ rest) H3) as (h3 & -> & H4 & _).
  { unfold T1. perm. }
  exists h3, (flat_map p_leak pl). split; [reflexivity|]. split; [exact H4|].
  split; [|eapply heap_disjoint; eapply heap_perm; [exact H3|unfold T1; instantiate (1 := BTag (Some ah) (Some head) (t_padding t)); perm]].
  rewrite Et. unfold list_leak. clear. induction pl as [|p pl IH]; [reflexivity|].
  cbn [flat_map map list_sum]. rewrite app_length, IH. unfold p_leak. cbn [fold_right].
  destruct (n_frame (p_node p)); [rewrite leaked_length|]; reflexivity.
Qed.
