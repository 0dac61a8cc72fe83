(** Frames whose id does not stand for the kind of their data, on the heap. *)
From Verif Require Import BaseFacts WriteFacts Heap SpecHeap SpecMisuse HeapFacts HeapFrameFacts HeapListFacts HeapTagFacts.
From Coq Require Import Lia.

(** ** Freeing a frame *)

Definition left_blocks (l : lay) (f : frame) : list (nat * block) :=
  match fh_id (f_hdr f) with
  | Some c :: _ =>
      if known c then []
      else (l_self l, BFrame (Some (l_header l)) (Some (l_data l))) ::
           match f_data f with
           | DText d => [ (l_x l, BBytes (td_text d)) ]
           | DComment d => [ (l_x l, BBytes (cd_short d)); (l_y l, BBytes (cd_comment d)) ]
           | DApic d => [ (l_x l, BBytes (ad_mime d)); (l_y l, BBytes (ad_desc d)); (l_z l, BBytes (ad_data d)) ]
           | DRaw _ => []
           end
  | _ => []
  end.

Definition released (l : lay) (f : frame) (m : list (nat * block)) (n : nat) (h : heap) : Prop :=
  heap_is h (left_blocks l f ++ m) /\ length (left_blocks l f) = n.

Ltac confused H :=
  cbn [bind]; unfold load_text, load_comment, load_apic; erewrite (load_is _ _ _ _ H) by (cbn [app]; is_in); reflexivity.

Lemma release_is h l f m : heap_is h (frame_blocks l f ++ m) ->
  agrees (released l f m) (release f) (ID3v2_Frame_free (Some (l_self l)) h).
Proof.
  intros H. unfold ID3v2_Frame_free, release, released, left_blocks.
  rewrite (header_of_is _ _ _ _ H (incl_appl _ (incl_refl _))). cbn [bind].
  unfold FrameHeader_isTextFrame, FrameHeader_isCommentFrame, FrameHeader_isApicFrame.
  destruct (fh_id (f_hdr f)) as [|[c|] r] eqn:Ei; try (unfold id0_is; rewrite Ei; reflexivity).
  rewrite !(id0 _ _ _ _ Ei). cbn [bind]. unfold known.
  destruct l as [self hd da x y z], f as [hdr d]. unfold frame_blocks in *.
  cbn [f_data f_hdr l_self l_header l_data l_x l_y l_z app] in *.
  destruct (beq c "T") eqn:Bt.
  { cbn [orb]. unfold TextFrame_free. ld H. fr H (BFrameHeader hdr) hd. ld H.
    apply beq_true in Bt. subst c.
    destruct d as [d|d|d|raw]; cbn [stands_for]; [|confused H..].
    change (beq "T" "T") with true. cbv iota.
    ld H. fr H (BBytes (td_text d)) x.
    ld H. fr H (BText (td_size d) (td_encoding d) (Some x)) da.
    fr H (BFrame (Some hd) (Some da)) self. eexists. split; [reflexivity|split; [exact H|reflexivity]]. }
  destruct (beq c "C") eqn:Bc.
  { cbn [orb]. unfold CommentFrame_free. ld H. fr H (BFrameHeader hdr) hd. ld H.
    apply beq_true in Bc. subst c.
    destruct d as [d|d|d|raw]; cbn [stands_for]; [confused H| |confused H..].
    change (beq "C" "C") with true. cbv iota.
    ld H. fr H (BBytes (cd_comment d)) y.
    ld H. ld H. fr H (BBytes (cd_short d)) x.
    ld H. fr H (BComment (cd_size d) (cd_encoding d) (cd_language d) (Some x) (Some y)) da.
    fr H (BFrame (Some hd) (Some da)) self. eexists. split; [reflexivity|split; [exact H|reflexivity]]. }
  destruct (beq c "A") eqn:Ba.
  { cbn [orb]. unfold ApicFrame_free. ld H. fr H (BFrameHeader hdr) hd. ld H.
    apply beq_true in Ba. subst c.
    destruct d as [d|d|d|raw]; cbn [stands_for]; [confused H|confused H| |confused H].
    change (beq "A" "A") with true. cbv iota.
    ld H. fr H (BBytes (ad_data d)) z.
    ld H. ld H. fr H (BBytes (ad_desc d)) y.
    ld H. ld H. fr H (BBytes (ad_mime d)) x.
    ld H. fr H (BApic (ad_encoding d) (Some x) (ad_type d) (Some y) (Some z) (ad_picture_size d)) da.
    fr H (BFrame (Some hd) (Some da)) self. eexists. split; [reflexivity|split; [exact H|reflexivity]]. }
  cbn [orb agrees]. ld H. fr H (BFrameHeader hdr) hd. ld H.
  destruct d as [d|d|d|raw].
  - fr H (BText (td_size d) (td_encoding d) (Some x)) da. eexists. split; [reflexivity|split; [exact H|reflexivity]].
  - fr H (BComment (cd_size d) (cd_encoding d) (cd_language d) (Some x) (Some y)) da.
    eexists. split; [reflexivity|split; [exact H|reflexivity]].
  - fr H (BApic (ad_encoding d) (Some x) (ad_type d) (Some y) (Some z) (ad_picture_size d)) da.
    eexists. split; [reflexivity|split; [exact H|reflexivity]].
  - fr H (BBytes raw) da. eexists. split; [reflexivity|split; [exact H|reflexivity]].
Qed.

Definition p_left (p : pnode) : list (nat * block) :=
  match n_frame (p_node p) with Some f => left_blocks (p_lay p) (fp_frame f) | None => [] end.

Lemma releases_is head : forall pl fuel h m, heap_is h (node_blocks head pl ++ all_frame_blocks pl ++ m) ->
  (length pl < fuel)%nat ->
  agrees (fun n h' => heap_is h' (flat_map p_left pl ++ m) /\ length (flat_map p_left pl) = n)
    (releases (map p_node pl)) (free_list fuel (first_addr pl) h).
Proof.
  induction pl as [|p pl IH]; intros fuel h m H L; (destruct fuel; [cbn [length] in L; lia|]).
  - cbn [map releases first_addr free_list]. apply agrees_ok. split; [exact H|reflexivity].
  - cbn [first_addr free_list map releases]. rewrite frames_cons in H. cbn [node_blocks app] in H. ld H.
    assert (F : agrees (fun n h' => heap_is h' ((p_addr p, BNode (p_frame p) (if n_start (p_node p) then Some head else None) (first_addr pl))
                  :: node_blocks head pl ++ all_frame_blocks pl ++ p_left p ++ m) /\ length (p_left p) = n)
        (match n_frame (p_node p) with Some p => release (fp_frame p) | None => Ok 0%nat end) (ID3v2_Frame_free (p_frame p) h)).
    { unfold p_left, p_frame_blocks, p_frame in *. destruct (n_frame (p_node p)) as [e|].
      - eapply agrees_weaken; [apply (release_is h (p_lay p) (fp_frame e)
            ((p_addr p, BNode (Some (l_self (p_lay p))) (if n_start (p_node p) then Some head else None) (first_addr pl))
                  :: node_blocks head pl ++ all_frame_blocks pl ++ m)); eapply heap_perm; [exact H|perm]|].
        intros n h' (H' & Ln). split; [eapply heap_perm; [exact H'|perm]|exact Ln].
      - apply agrees_ok. split; [exact H|reflexivity]. }
    eapply agrees_bind; [exact F|]. intros n h1 (H1 & L1). ld H1.
    destruct (free_is _ _ _ _ H1) as (h2 & E2 & H2 & _). rewrite E2. cbn [bind].
    assert (G := IH fuel h2 (p_left p ++ m) H2 ltac:(cbn [length] in L; lia)).
    destruct (releases (map p_node pl)) as [j| | |]; cbn [agrees bind] in *; try exact G.
    destruct G as (h3 & -> & H3 & L3). exists h3. split; [reflexivity|]. cbn [flat_map].
    split; [eapply heap_perm; [exact H3|perm]|]. rewrite app_length. lia.
Qed.

Lemma free_any h a t rest : tag_at h a t rest ->
  agrees (fun n h' => exists lost, heap_is h' (lost ++ rest) /\ length lost = n)
    (releases (t_frames t)) (ID3v2_Tag_free (Some a) h).
Proof.
  intros (pl & ah & head & H & Et & Fh & _). unfold ID3v2_Tag_free, tag_blocks in *. cbn [app] in H. ld H.
  set (T1 := (a, BTag (Some ah) (Some head) (t_padding t))) in *.
  destruct (free_at _ _ ah (BTagHeader (t_header t)) (T1 :: (node_blocks head pl ++ all_frame_blocks pl) ++ rest) H ltac:(perm))
    as (h1 & -> & H1 & _). cbn [bind]. unfold T1 in H1. ld H1. fold T1 in H1.
  assert (H2 : heap_is h1 (node_blocks head pl ++ all_frame_blocks pl ++ T1 :: rest)) by (eapply heap_perm; [exact H1|perm]).
  assert (G := releases_is head pl (enough h1) h1 (T1 :: rest) H2 ltac:(eapply enough_for; exact H2)).
  unfold ID3v2_FrameList_free. rewrite Fh, <- Et in G.
  destruct (releases (t_frames t)) as [n| | |]; cbn [agrees] in *; try (rewrite G; reflexivity).
  destruct G as (h2 & -> & H3 & Ln). cbn [bind].
  destruct (free_at _ _ a (BTag (Some ah) (Some head) (t_padding t)) (flat_map p_left pl ++ rest) H3) as (h3 & -> & H4 & _).
  { unfold T1. perm. }
  exists h3. split; [reflexivity|]. exists (flat_map p_left pl). auto.
Qed.

(** ** Setting *)

Lemma install_any h a ah head t pl rest l f e ep :
  rep h a ah head t pl (frame_blocks l f ++ rest) -> points pl e ep ->
  agrees (left_at a rest)
    (let* t' := install_frame t e f in
     let* k := match e with Some e => release (fp_frame e) | None => Ok 0%nat end in Ok (t', k))
    (install_frame_h (Some a) ep (Some (l_self l)) h).
Proof.
  intros (H & Et & Fh & Nk & Ad & Af) P. unfold install_frame, install_frame_h, tag_blocks in *. cbn [app] in H.
  rewrite (frames_of_is _ _ a ah head (t_padding t) H) by is_in. cbn [bind].
  destruct t as [th fs pad fresh]. cbn [t_header t_frames t_padding t_fresh] in *. subst fs.
  destruct e as [e|]; cbn [points] in P.
  - (* replace *)
    destruct P as (s1 & q & s2 & -> & Fq & ->). unfold FrameList_replace_frame_h.
    set (T1 := (a, BTag (Some ah) (Some head) pad)) in *. set (T2 := (ah, BTagHeader th)) in *.
    set (FB := frame_blocks l f) in *.
    assert (Hn : heap_is h (node_blocks head (s1 ++ q :: s2) ++ T1 :: T2 :: all_frame_blocks (s1 ++ q :: s2) ++ FB ++ rest))
      by (eapply heap_perm; [exact H|perm]).
    assert (Hf : heap_is h (all_frame_blocks (s1 ++ q :: s2) ++ T1 :: T2 :: node_blocks head (s1 ++ q :: s2) ++ FB ++ rest))
      by (eapply heap_perm; [exact H|perm]).
    assert (V : same_view (s1 ++ q :: s2) (Some e) (Some (l_self (p_lay q)))).
    { eapply view_some; [exact Hf|exact Ad| |exact Fq]. apply in_elt. }
    assert (Iq : incl (frame_blocks (p_lay q) (fp_frame e)) (all_frame_blocks (s1 ++ q :: s2))).
    { intros x Ix. apply in_flat_map. exists q. split; [apply in_elt|]. unfold p_frame_blocks. now rewrite Fq. }
    assert (Uq : usable (Some (l_self (p_lay q))) h = Ok tt).
    { unfold usable. erewrite load_is; [reflexivity|exact Hf|]. apply in_or_app. left. apply Iq. now left. }
    assert (N1 : forall r, In r s1 -> same_ptr (n_frame (p_node r)) (Some e) = false).
    { intros r Ir. destruct (n_frame (p_node r)) as [e'|] eqn:Fr; [|reflexivity].
      unfold same_ptr, addr_of. cbn [option_map]. apply Nat.eqb_neq. intros E.
      rewrite map_app, addresses_app in Ad. cbn [map addresses flat_map] in Ad. rewrite Fq in Ad. cbn [app] in Ad.
      apply NoDup_remove_2 in Ad. apply Ad, in_or_app. left. rewrite addresses_map. apply in_flat_map.
      exists r. split; [exact Ir|]. rewrite Fr. left. exact E. }
    assert (Tq : same_ptr (n_frame (p_node q)) (Some e) = true).
    { rewrite Fq. unfold same_ptr, addr_of. cbn [option_map]. apply Nat.eqb_refl. }
    destruct (replace_frame_is h _ head (Some e) (Some (l_self (p_lay q))) (Some (l_self l)) (fresh, f) Hf Uq
                s1 q s2 (enough h)) as (-> & Er); [ | | exact V | | exact N1 | exact Tq |].
    { intros x Ix. apply in_or_app. right. do 2 right. apply in_or_app. now left. }
    { intros x Ix. apply in_or_app. now left. }
    { eapply enough_for. exact Hn. }
    rewrite Fh in Er. rewrite Er. clear Er.
    destruct (store_node h head s1 q s2 _ l (fresh, f) Hn) as (h1 & E1 & H1). rewrite E1. cbn [bind].
    rewrite (header_of_is _ _ l f H1) by (intros x Ix; apply in_or_app; right; do 2 right; apply in_or_app; right; apply in_or_app; now left).
    cbn [bind].
    rewrite (header_of_is _ _ (p_lay q) (fp_frame e) H1)
      by (intros x Ix; apply in_or_app; right; do 2 right; apply in_or_app; left; apply Iq, Ix).
    cbn [bind]. rewrite bind_assoc. apply agrees_same. intros d _. cbn [bind].
    set (q' := mkP (p_addr q) l (mkNode (Some (fresh, f)) (n_start (p_node q)))) in *.
    destruct (grow_is h1 a ah head pad th (node_blocks head (s1 ++ q' :: s2) ++ all_frame_blocks (s1 ++ q :: s2) ++ FB ++ rest) d)
      as (h2 & E2 & H2). { eapply heap_perm; [exact H1|]. unfold T1, T2. perm. }
    rewrite E2. cbn [bind].
    rewrite frames_app, frames_cons in H2. unfold p_frame_blocks at 1 in H2. rewrite Fq in H2.
    set (T2' := (ah, BTagHeader (with_tag_size th (th_tag_size th + d)))) in *.
    assert (G := release_is h2 (p_lay q) (fp_frame e)
      (T1 :: T2' :: node_blocks head (s1 ++ q' :: s2) ++ all_frame_blocks s1 ++ all_frame_blocks s2 ++ FB ++ rest)
      ltac:(eapply heap_perm; [exact H2|]; unfold T1; perm)).
    destruct (release (fp_frame e)) as [k| | |]; cbn [agrees bind] in *; try exact G.
    destruct G as (h3 & E3 & H3 & Lk). rewrite E3. eexists. split; [reflexivity|].
    exists (left_blocks (p_lay q) (fp_frame e)). split; [exact Lk|]. cbn [fst].
    rewrite map_app in Nk, Ad, Af. cbn [map] in Nk, Ad, Af.
    rewrite addresses_app in Ad, Af. cbn [addresses flat_map] in Ad, Af. rewrite Fq in Ad, Af. cbn [app] in Ad, Af.
    apply Forall_app in Nk as (Nk1 & Nk2). inversion Nk2 as [|? ? Nq Nk3]; subst.
    apply Forall_app in Af as (Af1 & Af2). inversion Af2 as [|? ? Aq Af3]; subst.
    unfold with_frames. cbn [t_frames t_header t_padding t_fresh].
    exists (s1 ++ q' :: s2), ah, head; cbn [t_frames t_fresh]; split; [|split; [|split; [|split; [|split]]]].
    + unfold tag_blocks. cbn [t_header t_padding]. fold T1 T2'. rewrite frames_app, frames_cons.
      change (p_frame_blocks q') with FB. eapply heap_perm; [exact H3|perm].
    + now rewrite map_app.
    + rewrite <- Fh. destruct s1; reflexivity.
    + apply Forall_app. split; [exact Nk1|]. constructor; [|exact Nk3].
      unfold node_ok in Nq |- *. rewrite Fq in Nq. exact Nq.
    + rewrite addresses_app. cbn [addresses flat_map n_frame app fp_addr fst].
      apply (Permutation_NoDup (l := fresh :: addresses (map p_node s1) ++ addresses (map p_node s2))); [perm|].
      constructor; [|eapply NoDup_remove_1; exact Ad].
      apply not_fresh, Forall_app. auto.
    + rewrite addresses_app. cbn [addresses flat_map n_frame app fp_addr fst].
      apply Forall_app. split; [now apply Forall_lt_S|]. constructor; [lia|now apply Forall_lt_S].
  - (* add *)
    subst ep.
    set (T1 := (a, BTag (Some ah) (Some head) pad)) in *. set (T2 := (ah, BTagHeader th)) in *.
    set (FB := frame_blocks l f) in *.
    assert (Hn : heap_is h (node_blocks head pl ++ T1 :: T2 :: all_frame_blocks pl ++ FB ++ rest))
      by (eapply heap_perm; [exact H|perm]).
    rewrite bind_assoc. eapply agrees_bind; [apply (add_frame_is h head pl l (fresh, f)); [exact Hn|exact Fh]|].
    intros v h1 (pl' & -> & H1 & Fh' & C). cbn [bind].
    rewrite (header_of_is _ _ l f H1) by (intros x Ix; apply in_or_app; right; do 2 right; apply in_or_app; right; apply in_or_app; now left).
    cbn [bind].
    destruct (grow_is h1 a ah head pad th (node_blocks head pl' ++ all_frame_blocks pl ++ FB ++ rest) (fh_size (f_hdr f)))
      as (h2 & E2 & H2). { eapply heap_perm; [exact H1|]. unfold T1, T2. perm. }
    rewrite E2. eexists. split; [reflexivity|]. fold T1 in H2. exists []. split; [reflexivity|]. cbn [fst app].
    set (T2' := (ah, BTagHeader (with_tag_size th (th_tag_size th + fh_size (f_hdr f))))) in *.
    unfold with_frames. cbn [t_frames t_header t_padding t_fresh].
    assert (X : Permutation (all_frame_blocks pl') (all_frame_blocks pl ++ FB) /\ Forall node_ok (map p_node pl')
              /\ Permutation (addresses (map p_node pl')) (fresh :: addresses (map p_node pl))).
    { destruct C as [(p & r & -> & St & ->)|(c & ->)].
      - cbn [map] in Nk. inversion Nk as [|? ? Np Nr]; subst.
        unfold node_ok in Np. rewrite St in Np. destruct (n_frame (p_node p)) eqn:Fp; [discriminate Np|].
        rewrite !frames_cons. unfold p_frame_blocks. rewrite Fp. cbn [p_node n_frame p_lay app fp_frame snd].
        fold FB. split; [perm|]. split; [constructor; [reflexivity|exact Nr]|].
        cbn [map addresses flat_map p_node n_frame]. rewrite Fp. reflexivity.
      - rewrite frames_app, map_app, addresses_app. split; [|split].
        + apply Permutation_app_head. cbn [all_frame_blocks flat_map]. rewrite app_nil_r. reflexivity.
        + apply Forall_app. split; [exact Nk|]. repeat constructor.
        + cbn [map addresses flat_map p_node n_frame app fp_addr fst]. symmetry. apply Permutation_cons_append. }
    destruct X as (X1 & X2 & X3).
    exists pl', ah, head; cbn [t_frames t_fresh];
      split; [|split; [reflexivity|split; [exact Fh'|split; [exact X2|split]]]].
    + unfold tag_blocks. cbn [t_header t_padding]. fold T1 T2'. eapply heap_perm; [exact H2|].
      etransitivity; [|symmetry; apply Permutation_app_tail, Permutation_app_head, Permutation_app_head; exact X1].
      perm.
    + eapply Permutation_NoDup; [symmetry; exact X3|]. constructor; [|exact Ad]. now apply not_fresh.
    + eapply Permutation_Forall; [symmetry; exact X3|]. constructor; [lia|now apply Forall_lt_S].
Qed.

(** ** Which frame that is *)

Lemma matches_called f id b : id_matches f id = Ok b -> called id f = b.
Proof.
  unfold id_matches, called. destruct id as [id|]; [|discriminate]. cbn [deref bind]. generalize 4%nat (fh_id (f_hdr f)). intros n.
  revert id. induction n as [|n IH]; intros id m; cbn [strncmp_eq alike]; [congruence|].
  destruct m as [|[x|] m], id as [|[y|] id]; try discriminate.
  destruct (beq x y) eqn:E; cbn [andb]; [|congruence]. apply beq_true in E as ->.
  destruct (beq y x00); cbn [orb]; [congruence|]. apply IH.
Qed.

Lemma get_called l id e : FrameList_get_frame_by_id l id = Ok e -> find (called id) (visible l) = option_map fp_frame e.
Proof.
  induction l as [|n l IH]; cbn [FrameList_get_frame_by_id visible]; [now intros [= <-]|].
  destruct (n_frame n) as [p|]; [|now intros [= <-]]. intros E. binv E. cbn [find]. rewrite (matches_called _ _ _ E0).
  destruct v; [now injection E as <-|auto].
Qed.

Lemma remove_called id : forall l e v, FrameList_remove_frame_by_id l id = Ok (Some e, v) ->
  find (called id) (visible l) = Some (fp_frame e).
Proof.
  induction l as [|n l IH]; intros e v; [discriminate|]. cbn [FrameList_remove_frame_by_id visible].
  destruct (n_frame n) as [p|]; [|discriminate]. cbn [deref bind]. intros E. binv E. cbn [find]. rewrite (matches_called _ _ _ E0).
  destruct v0.
  - now injection E as <- <-.
  - binv E. destruct v0 as (r & rest'). injection E as -> _. eapply IH. exact E1.
Qed.

(** ** The set and add functions *)

Definition victim_release (id : cptr) (l : flist) : outcome nat :=
  match find (called id) (visible l) with Some f => release f | None => Ok 0%nat end.

Lemma set_any h a t rest id (new : outcome frame) (new_h : heap -> outcome (nat * heap)) : tag_at h a t rest ->
  (forall m, heap_is h m -> agrees (made m) new (new_h h)) ->
  agrees (left_at a rest)
    (let* t' := (let* f := new in let* e := FrameList_get_frame_by_id (t_frames t) id in install_frame t e f) in
     let* k := victim_release id (t_frames t) in Ok (t', k))
    (let* (nf, h) := new_h h in let* fr := frames_of (Some a) h in
     let* e := FrameList_get_frame_by_id_h fr id h in install_frame_h (Some a) e (Some nf) h).
Proof.
  intros (pl & ah & head & H & Et & Fh & Nk & Ad & Af) N. specialize (N _ H).
  destruct new as [f| | |]; cbn [agrees bind] in *; try (rewrite N; reflexivity).
  destruct N as ((nf & h1) & -> & l & El & H1). cbn [fst snd bind] in *. subst nf.
  assert (R : rep h1 a ah head t pl (frame_blocks l f ++ rest)).
  { split; [eapply heap_perm; [exact H1|perm]|auto 7]. }
  rewrite (frames_of_is _ _ a ah head (t_padding t) H1) by (apply in_or_app; right; now left). cbn [bind].
  assert (G := get_is _ _ _ _ _ _ _ id R).
  destruct (FrameList_get_frame_by_id (t_frames t) id) as [e| | |] eqn:Eg; cbn [agrees bind] in *;
    try (rewrite G; reflexivity).
  destruct G as (ep & -> & P). cbn [bind]. unfold victim_release. rewrite (get_called _ _ _ Eg).
  assert (I := install_any h1 a ah head t pl rest l f e ep R P). destruct e; exact I.
Qed.

Lemma add_any h a t rest (new : outcome frame) (new_h : heap -> outcome (nat * heap)) : tag_at h a t rest ->
  (forall m, heap_is h m -> agrees (made m) new (new_h h)) ->
  agrees (left_at a rest) (let* t' := (let* f := new in append_frame t f) in let* k := Ok 0%nat in Ok (t', k))
    (let* (nf, h) := new_h h in install_frame_h (Some a) None (Some nf) h).
Proof.
  intros (pl & ah & head & H & Et & Fh & Nk & Ad & Af) N. specialize (N _ H).
  destruct new as [f| | |]; cbn [agrees bind] in *; try (rewrite N; reflexivity).
  destruct N as ((nf & h1) & -> & l & El & H1). cbn [fst snd bind] in *. subst nf. unfold append_frame.
  apply (install_any h1 a ah head t pl rest l f None None); [|reflexivity].
  split; [eapply heap_perm; [exact H1|perm]|auto 7].
Qed.

(** ** Deleting *)

Lemma deleted_any h a ah head t s1 q s2 s2' m : t_frames t = map p_node (s1 ++ q :: s2) ->
  first_addr (s1 ++ q :: s2) = Some head -> first_addr s2' = Some (p_addr q) ->
  map p_node s2' = unlink_node (map p_node s2) -> all_frame_blocks s2' = all_frame_blocks s2 ->
  Forall node_ok (t_frames t) -> NoDup (addresses (t_frames t)) -> Forall (fun x => (x < t_fresh t)%nat) (addresses (t_frames t)) ->
  forall th,
  heap_is h ((a, BTag (Some ah) (Some head) (t_padding t)) :: (ah, BTagHeader th) :: node_blocks head (s1 ++ s2')
     ++ all_frame_blocks s1 ++ all_frame_blocks s2 ++ m) ->
  tag_at h a (mkTag th (map p_node s1 ++ unlink_node (map p_node s2)) (t_padding t) (t_fresh t)) m.
Proof.
  intros Et Fh Fs Em Ef Nk Ad Af th H. rewrite Et in *. rewrite map_app in Nk, Ad, Af. cbn [map] in *.
  rewrite addresses_app in Ad, Af.
  rewrite (addresses_app [p_node q] (map p_node s2) : addresses (p_node q :: map p_node s2) = _) in Ad, Af.
  assert (Ad' : NoDup (addresses (map p_node s1) ++ addresses (map p_node s2))).
  { cbn [addresses flat_map app] in Ad. rewrite app_nil_r in Ad. destruct (n_frame (p_node q)); [|exact Ad].
    eapply NoDup_remove_1. exact Ad. }
  apply Forall_app in Nk as (Nk1 & Nk2). inversion Nk2; subst.
  apply Forall_app in Af as (Af1 & Af2). apply Forall_app in Af2 as (_ & Af2).
  exists (s1 ++ s2'), ah, head; cbn [t_frames t_fresh]; split; [|split; [|split; [|split; [|split]]]].
  - unfold tag_blocks. cbn [t_header t_padding]. rewrite frames_app, Ef. eapply heap_perm; [exact H|perm].
  - now rewrite map_app, Em.
  - rewrite <- Fh. destruct s1; [exact Fs|reflexivity].
  - apply Forall_app. split; [exact Nk1|]. now apply node_ok_unlink.
  - rewrite addresses_app, addresses_unlink. exact Ad'.
  - rewrite addresses_app, addresses_unlink. apply Forall_app. auto.
Qed.

Lemma delete_any h a t rest id : tag_at h a t rest ->
  agrees (left_at a rest)
    (let* t' := ID3v2_Tag_delete_frame t id in let* k := victim_release id (t_frames t) in Ok (t', k))
    (ID3v2_Tag_delete_frame_h (Some a) id h).
Proof.
  intros (pl & ah & head & H & Et & Fh & Nk & Ad & Af).
  unfold ID3v2_Tag_delete_frame, ID3v2_Tag_delete_frame_h, tag_blocks in *. cbn [app] in H.
  rewrite (frames_of_is _ _ a ah head (t_padding t) H) by is_in. cbn [bind]. unfold FrameList_remove_frame_by_id_h.
  set (T1 := (a, BTag (Some ah) (Some head) (t_padding t))) in *. set (T2 := (ah, BTagHeader (t_header t))) in *.
  assert (Hn : heap_is h (node_blocks head pl ++ T1 :: T2 :: all_frame_blocks pl ++ rest)) by (eapply heap_perm; [exact H|perm]).
  assert (Fo := remove_by_id_is h _ head id Hn pl (enough h)
                  ltac:(intros x Ix; apply in_or_app; now left)
                  ltac:(intros x Ix; apply in_or_app; right; do 2 right; apply in_or_app; now left)
                  ltac:(eapply enough_for; exact Hn)).
  rewrite Fh in Fo. rewrite <- Et in Fo.
  destruct (FrameList_remove_frame_by_id (t_frames t) id) as [[e v]| | |] eqn:Er; cbn [follows fst snd bind] in *;
    try (rewrite Fo; reflexivity).
  destruct e as [e|]; cbn [found_at] in Fo.
  2:{ destruct Fo as (-> & ->). cbn [bind deref]. unfold header_of, load_frame, load. reflexivity. }
  unfold victim_release. rewrite (remove_called _ _ _ _ Er).
  destruct Fo as (s1 & q & s2 & -> & Fq & -> & ->). cbn [deref bind].
  destruct (cut_is h head s1 q s2 _ Hn) as (h1 & s2' & -> & H1 & Fs & Em & Ef & Fr). cbn [bind].
  rewrite frames_app, frames_cons in H1. unfold p_frame_blocks in H1. rewrite Fq in H1.
  rewrite (header_of_is _ _ (p_lay q) (fp_frame e) H1)
    by (intros x Ix; apply in_or_app; right; do 2 right; apply in_or_app; left; apply in_or_app; right; apply in_or_app; now left).
  cbn [bind]. rewrite bind_assoc. apply agrees_same. intros n _. cbn [bind].
  destruct (grow_is h1 a ah head (t_padding t) (t_header t) (node_blocks head (s1 ++ s2')
    ++ all_frame_blocks s1 ++ frame_blocks (p_lay q) (fp_frame e) ++ all_frame_blocks s2 ++ rest) (- n)) as (h2 & -> & H2).
  { eapply heap_perm; [exact H1|]. unfold T1, T2. perm. }
  cbn [bind]. fold T1 in H2.
  assert (G := release_is h2 (p_lay q) (fp_frame e) (T1 :: (ah, BTagHeader (with_tag_size (t_header t) (th_tag_size (t_header t) + - n)))
     :: node_blocks head (s1 ++ s2') ++ all_frame_blocks s1 ++ all_frame_blocks s2 ++ rest)
     ltac:(eapply heap_perm; [exact H2|perm])).
  destruct (release (fp_frame e)) as [k| | |]; cbn [agrees bind] in *; try exact G.
  destruct G as (h3 & -> & H3 & Lk). eexists. split; [reflexivity|]. exists (left_blocks (p_lay q) (fp_frame e)).
  split; [exact Lk|]. cbn [fst].
  apply (deleted_any h3 a ah head t s1 q s2 s2' _ Et Fh Fs Em Ef Nk Ad Af).
  eapply heap_perm; [exact H3|]. unfold T1. perm.
Qed.

(** ** The n-th comment or picture *)

Definition fr (n : node) : option frame := option_map fp_frame (n_frame n).

Lemma frames_called id : forall l sub v, get_frames_loop l id sub = Ok v ->
  (sub = [empty_node] -> (v = [empty_node] /\ filter (called id) (visible l) = []) \/ map fr v = map Some (filter (called id) (visible l)))
  /\ ((exists n rest, sub = n :: rest /\ n_start n = true) -> map fr v = map fr sub ++ map Some (filter (called id) (visible l))).
Proof.
  induction l as [|n l IH]; intros sub v; cbn [get_frames_loop visible].
  - intros [= <-]. split; [auto|]. intros _. cbn [filter map]. now rewrite app_nil_r.
  - destruct (n_frame n) as [p|]; [|intros [= <-]; split; [auto|]; intros _; cbn [filter map]; now rewrite app_nil_r].
    intros E. binv E. cbn [filter]. rewrite (matches_called _ _ _ E0). destruct v0; [|now apply IH].
    binv E. apply IH in E. destruct E as (_ & E). unfold FrameList_add_frame in E1. destruct sub as [|x sub]; [discriminate|].
    split.
    + intros [= -> ->]. right. cbn [negb empty_node n_start] in E1. injection E1 as <-. rewrite E by eauto. reflexivity.
    + intros (x' & rest & [= <- <-] & St). rewrite St in E1. cbn [negb] in E1. injection E1 as <-.
      rewrite E by eauto. cbn [map app]. rewrite map_app, <- app_assoc. reflexivity.
Qed.

Lemma nth_called id l v : get_frames_loop l id [empty_node] = Ok v ->
  forall u q w, v = u ++ q :: w -> nth_error (filter (called id) (visible l)) (length u) = fr q.
Proof.
  intros E u q w ->. destruct (frames_called _ _ _ _ E) as (C & _). destruct (C eq_refl) as [(Ev & ->)|Em].
  - destruct u as [|x u]; [|destruct u; discriminate Ev]. now injection Ev as -> ->.
  - rewrite map_app in Em. cbn [map] in Em.
    assert (N := f_equal (fun m => nth_error m (length u)) Em). cbv beta in N.
    rewrite nth_error_app2, map_length, Nat.sub_diag in N by (rewrite map_length; lia). cbn [nth_error] in N.
    rewrite nth_error_map in N. destruct (nth_error (filter (called id) (visible l)) (length u)); cbn [option_map] in N; congruence.
Qed.

Lemma nth_called_none id l v i : get_frames_loop l id [empty_node] = Ok v ->
  (length v <= i)%nat -> nth_error (filter (called id) (visible l)) i = None.
Proof.
  intros E L. destruct (frames_called _ _ _ _ E) as (C & _). apply nth_error_None. destruct (C eq_refl) as [(Ev & ->)|Em]; [cbn; lia|].
  apply (f_equal (@length _)) in Em. rewrite !map_length in Em. lia.
Qed.

Definition nth_release (id : cptr) (i : Z) (l : flist) : outcome nat :=
  match (if 0 <=? i then nth_error (filter (called id) (visible l)) (Z.to_nat i) else None) with
  | Some f => release f
  | None => Ok 0%nat
  end.

Lemma delete_nth_any h a t rest id c s index : tag_at h a t rest ->
  c :: s = lit id -> length s = 3%nat -> Forall (fun x => x <> x00) (c :: s) ->
  agrees (left_at a rest)
    (let* t' := (let* head := FrameList_get_frames_by_id (t_frames t) (clit id) in
     Ok (mkTag (t_header t) (delete_nth_loop head 0 index (t_frames t)) (t_padding t) (t_fresh t))) in
     let* k := nth_release (clit id) index (t_frames t) in
     Ok (t', (sublist_leak index (count_named id (t_frames t)) + k)%nat))
    (delete_nth_frame_h (Some a) (clit id) index h).
Proof.
  intros (pl & ah & head & H & Et & Fh & Nk & Ad & Af) Ei Ls Nz.
  unfold delete_nth_frame_h, FrameList_get_frames_by_id_h, FrameList_get_frames_by_id, tag_blocks, FrameList_new_h in *.
  cbn [app] in H. rewrite (frames_of_is _ _ a ah head (t_padding t) H) by is_in. cbn [bind].
  set (T1 := (a, BTag (Some ah) (Some head) (t_padding t))) in *. set (T2 := (ah, BTagHeader (t_header t))) in *.
  set (M := node_blocks head pl ++ T1 :: T2 :: all_frame_blocks pl ++ rest).
  assert (Hn : heap_is h M) by (eapply heap_perm; [exact H|unfold M; perm]).
  clear H. pose proof (enough_for _ _ _ _ Hn) as En. mal Hn. set (hs := next h) in *.
  set (n0 := mkP hs (mkLay 0 0 0 0 0 0) empty_node).
  assert (En' : (length pl < enough h0)%nat).
  { apply heap_size in Hn. unfold M in Hn. cbn [length] in Hn. rewrite app_length, nodes_length in Hn. unfold enough. lia. }
  assert (G := get_frames_is head hs (clit id) M pl pl (enough h0) h0 [n0] [] Hn eq_refl
     ltac:(intros x Ix; apply in_or_app; now left)
     ltac:(intros x Ix; apply in_or_app; right; do 2 right; apply in_or_app; now left)
     (incl_refl _) ltac:(constructor; [now left|constructor]) En' ltac:(repeat constructor)
     (perm_end (all_frame_blocks pl))).
  rewrite Fh, <- Et in G. change (map p_node [n0]) with FrameList_new in G.
  destruct (get_frames_loop (t_frames t) (clit id) FrameList_new) as [v| | |] eqn:Eg; cbn [agrees bind] in *;
    try (rewrite G; reflexivity).
  destruct G as (h1 & -> & sl & -> & H1 & Fsl & Sh & _). cbn [bind].
  destruct (get_frames_length id c s _ _ _ Ei Ls Nz Eg) as (Ll & _). specialize (Ll eq_refl). rewrite map_length in Ll.
  destruct (delete_nth_walk h1 _ hs (Some a) index (t_frames t) H1 sl (enough h1) 0
              ltac:(intros x Ix; apply in_or_app; now left) (enough_for _ _ _ _ H1))
    as [(u & q & w & Es & Lu & -> & Eh)|(Ou & -> & Eh)].
  - (* the n-th one exists *)
    assert (Rq : nth_release (clit id) index (t_frames t) = match fr (p_node q) with Some f => release f | None => Ok 0%nat end).
    { unfold nth_release. replace (0 <=? index) with true by lia. replace (Z.to_nat index) with (length (map p_node u)) by (rewrite map_length; lia).
      rewrite (nth_called _ _ _ Eg (map p_node u) (p_node q) (map p_node w)); [reflexivity|]. rewrite Es, map_app. reflexivity. }
    rewrite Rq. clear Rq.
    rewrite Fsl in Eh. rewrite Eh. clear Eh.
    assert (Hf : heap_is h1 (all_frame_blocks pl ++ T1 :: T2 :: node_blocks head pl ++ rest ++ node_blocks hs sl))
      by (eapply heap_perm; [exact H1|unfold M; perm]).
    rewrite (frames_of_is _ _ a ah head (t_padding t) H1) by (unfold M; is_in). cbn [bind].
    rewrite Forall_forall in Sh. assert (Sq : shows pl q) by (apply Sh; rewrite Es; apply in_elt).
    assert (V : same_view pl (n_frame (p_node q)) (p_frame q) /\ usable (p_frame q) h1 = Ok tt).
    { unfold p_frame. destruct Sq as [Fq|(r & Ir & Fr & Lr)].
      - rewrite Fq. split; [apply view_none|reflexivity].
      - destruct (n_frame (p_node q)) as [e|] eqn:Fq; [|split; [apply view_none|reflexivity]].
        rewrite <- Lr. split.
        + eapply view_some; [exact Hf|now rewrite <- Et|exact Ir|exact Fr].
        + unfold usable. erewrite load_is; [reflexivity|exact Hf|]. apply in_or_app. left. apply in_flat_map.
          exists r. split; [exact Ir|]. unfold p_frame_blocks. rewrite Fr. now left. }
    destruct V as (V & U).
    assert (Rm := remove_frame_is h1 _ head _ _ Hf U pl (enough h1)
      ltac:(intros x Ix; apply in_or_app; right; do 2 right; apply in_or_app; now left)
      ltac:(intros x Ix; apply in_or_app; now left) V
      ltac:(eapply (enough_for h1 head pl (T1 :: T2 :: all_frame_blocks pl ++ rest ++ node_blocks hs sl)); eapply heap_perm; [exact H1|unfold M; perm])).
    unfold FrameList_remove_frame_h. rewrite Fh, <- Et in Rm.
    assert (Lk : length u = sublist_leak index (count_named id (t_frames t))).
    { unfold sublist_leak. rewrite Es, app_length in Ll. cbn [length] in Ll.
      replace ((0 <=? index) && (index <? Z.of_nat (Nat.max 1 (count_named id (t_frames t))))) with true by lia. lia. }
    rewrite Es, nodes_app in H1. cbn [first_addr] in H1. unfold M in H1.
    set (lost := seg hs u (Some (p_addr q))) in *.
    assert (Lo : length lost = sublist_leak index (count_named id (t_frames t))) by (unfold lost; now rewrite seg_length).
    assert (Ul : forall h2 m2, heap_is h2 (node_blocks hs (q :: w) ++ m2) ->
       exists h3, ID3v2_FrameList_unlink (Some (p_addr q)) h2 = Ok h3 /\ heap_is h3 m2).
    { intros h2 m2 H2. unfold ID3v2_FrameList_unlink. change (Some (p_addr q)) with (first_addr (q :: w)).
      eapply unlink_is; [exact H2|]. eapply enough_for. exact H2. }
    destruct Rm as [(-> & -> & Nf)|(s1 & r' & s2 & Epl & Sr & -> & ->)].
    + (* nothing to remove *)
      cbn [bind snd].
      assert (Fq : n_frame (p_node q) = None).
      { destruct Sq as [Fq|(r & Ir & Fr & Lr)]; [exact Fq|]. specialize (Nf r Ir). rewrite Fr in Nf.
        destruct (n_frame (p_node q)) as [e|]; [|reflexivity]. unfold same_ptr, addr_of in Nf. cbn [option_map] in Nf.
        rewrite Nat.eqb_refl in Nf. discriminate Nf. }
      unfold p_frame, fr. rewrite Fq. cbn [ID3v2_Frame_free bind option_map agrees].
      destruct (Ul h1 (T1 :: T2 :: node_blocks head pl ++ all_frame_blocks pl ++ lost ++ rest)) as (h3 & -> & H3).
      { eapply heap_perm; [exact H1|perm]. }
      eexists. split; [reflexivity|]. exists lost. cbn [fst snd]. split; [lia|].
      rewrite <- Et. exists pl, ah, head. destruct t as [th fs pad fresh]; cbn [t_frames t_header t_padding t_fresh] in *.
      split; [|auto 6]. unfold tag_blocks. cbn [t_frames t_header t_padding t_fresh app]. fold T1 T2.
      eapply heap_perm; [exact H3|perm].
    + (* the node is cut out and the frame freed *)
      cbn [snd].
      destruct (cut_is h1 head s1 r' s2 (T1 :: T2 :: all_frame_blocks pl ++ rest ++ node_blocks hs (q :: w) ++ lost))
        as (h2 & s2' & E2 & H2 & Fs & Em & Ef & Frs). { rewrite <- Epl. eapply heap_perm; [exact H1|perm]. }
      rewrite E2. cbn [bind].
      assert (Ff : agrees (fun k h3 => exists more, length more = k /\
        heap_is h3 (node_blocks hs (q :: w) ++ T1 :: T2 :: node_blocks head (s1 ++ s2') ++ all_frame_blocks s1 ++ all_frame_blocks s2
                    ++ more ++ lost ++ rest))
          (match fr (p_node q) with Some f => release f | None => Ok 0%nat end) (ID3v2_Frame_free (p_frame q) h2)).
      { rewrite (V r') in Sr by (rewrite Epl; apply in_elt). apply ptr_eqb_true in Sr.
        rewrite Epl, frames_app, frames_cons in H2. rewrite Epl in Hf, Sq. unfold p_frame, fr in *.
        destruct (n_frame (p_node q)) as [e|] eqn:Fq; cbn [option_map].
        - destruct Sq as [Sq|(r & Ir & Fr & Lr)]; [congruence|]. rewrite Fq in Fr.
          assert (Er : r' = r).
          { eapply same_frame; [exact Hf|exact Ir|apply in_elt|exact Fr|]. unfold p_frame. now rewrite Lr. }
          subst r'. unfold p_frame_blocks in H2. rewrite Fr, Lr in H2.
          eapply agrees_weaken; [apply (release_is h2 (p_lay q) (fp_frame e) (node_blocks hs (q :: w) ++ T1 :: T2 :: node_blocks head (s1 ++ s2')
             ++ all_frame_blocks s1 ++ all_frame_blocks s2 ++ lost ++ rest)); eapply heap_perm; [exact H2|perm]|].
          intros k h3 (H3 & L3). exists (left_blocks (p_lay q) (fp_frame e)). split; [exact L3|].
          eapply heap_perm; [exact H3|perm].
        - unfold p_frame_blocks in H2. destruct (n_frame (p_node r')); [discriminate Sr|]. apply agrees_ok. exists []. split; [reflexivity|].
          eapply heap_perm; [exact H2|perm]. }
      destruct (match fr (p_node q) with Some f => release f | None => Ok 0%nat end) as [k| | |]; cbn [agrees bind] in *;
        try (rewrite Ff; reflexivity).
      destruct Ff as (h3 & -> & more & Lm & H3). cbn [bind]. destruct (Ul h3 _ H3) as (h4 & -> & H4).
      eexists. split; [reflexivity|]. exists (more ++ lost). cbn [fst snd]. split; [rewrite app_length; lia|].
      rewrite Epl in Et, Fh. rewrite <- app_assoc. exact (deleted_any h4 a ah head t s1 r' s2 s2' _ Et Fh Fs Em Ef Nk Ad Af (t_header t) H4).
  - (* there is no n-th one *)
    assert (Rq : nth_release (clit id) index (t_frames t) = Ok 0%nat).
    { unfold nth_release. destruct (Z.leb_spec 0 index); [|reflexivity].
      rewrite (nth_called_none _ _ _ _ Eg); [reflexivity|]. rewrite map_length. lia. }
    rewrite Rq. cbn [bind agrees].
    rewrite Fsl in Eh. rewrite Eh. cbn [bind]. unfold ID3v2_FrameList_unlink. cbn [unlink enough].
    eexists. split; [reflexivity|]. exists (node_blocks hs sl). cbn [fst snd]. split.
    { rewrite nodes_length. unfold sublist_leak.
      replace ((0 <=? index) && (index <? Z.of_nat (Nat.max 1 (count_named id (t_frames t))))) with false by lia. lia. }
    exists pl, ah, head. destruct t as [th fs pad fresh]; cbn [t_frames t_header t_padding t_fresh] in *.
    split; [|auto 6]. unfold tag_blocks. cbn [t_frames t_header t_padding t_fresh app]. fold T1 T2.
    eapply heap_perm; [exact H1|]. unfold M. perm.
Qed.

(** ** All calls *)

Lemma call_any h a t rest c : tag_at h a t rest -> agrees (left_at a rest) (call_result t c) (run_call_h (Some a) c h).
Proof.
  intros T. unfold call_result, release_freed.
  assert (Tx : forall i, agrees (left_at a rest)
     (let* t' := ID3v2_Tag_set_text_frame t i in let* k := victim_release (ti_id i) (t_frames t) in Ok (t', k))
     (ID3v2_Tag_set_text_frame_h (Some a) i h)).
  { intros i. apply (set_any h a t rest (ti_id i) (TextFrame_new _ _ _) (TextFrame_new_h _ _ _) T). intros m. apply text_frame_new. }
  assert (Cm : forall i, agrees (left_at a rest)
     (let* t' := ID3v2_Tag_set_comment_frame t i in let* k := victim_release (clit "COMM") (t_frames t) in Ok (t', k))
     (ID3v2_Tag_set_comment_frame_h (Some a) i h)).
  { intros i. apply (set_any h a t rest ID3v2_COMMENT_FRAME_ID (CommentFrame_new _ _ _ _) (CommentFrame_new_h _ _ _ _) T).
    intros m. apply comment_frame_new. }
  assert (Ap : forall i, agrees (left_at a rest)
     (let* t' := ID3v2_Tag_set_apic_frame t i in let* k := victim_release (clit "APIC") (t_frames t) in Ok (t', k))
     (ID3v2_Tag_set_apic_frame_h (Some a) i h)).
  { intros i. apply (set_any h a t rest ID3v2_ALBUM_COVER_FRAME_ID (ApicFrame_new _ _ _ _ _ _) (ApicFrame_new_h _ _ _ _ _ _) T).
    intros m. apply apic_frame_new. }
  assert (De := fun id => delete_any h a t rest id T).
  destruct c; cbn [run_call run_call_h node_leak freed Nat.add];
    try exact (Tx _); try exact (Cm _); try exact (Ap _); try exact (De _).
  - apply (add_any h a t rest (CommentFrame_new _ _ _ _) (CommentFrame_new_h _ _ _ _) T). intros m. apply comment_frame_new.
  - apply (add_any h a t rest (ApicFrame_new _ _ _ _ _ _) (ApicFrame_new_h _ _ _ _ _ _) T). intros m. apply apic_frame_new.
  - eapply (delete_nth_any h a t rest "COMM"); [exact T|reflexivity|reflexivity|repeat constructor; discriminate].
  - eapply (delete_nth_any h a t rest "APIC"); [exact T|reflexivity|reflexivity|repeat constructor; discriminate].
Qed.

Lemma calls_any cs : forall h a t rest, tag_at h a t rest ->
  agrees (left_at a rest) (calls_result t cs) (run_calls_h (Some a) cs h).
Proof.
  induction cs as [|c cs IH]; intros h a t rest T; cbn [calls_result run_calls_h].
  - apply agrees_ok. exists []. auto.
  - eapply agrees_bind; [exact (call_any h a t rest c T)|]. intros (t1 & k) h1 (lost & L & T1). cbn [fst snd] in *.
    assert (G := IH h1 a t1 (lost ++ rest) T1).
    destruct (calls_result t1 cs) as [(t2 & j)| | |]; cbn [agrees bind] in *; try exact G.
    destruct G as (h2 & -> & lost2 & L2 & T2). cbn [fst snd] in *. exists h2. split; [reflexivity|].
    exists (lost2 ++ lost). cbn [fst snd]. split; [rewrite app_length; lia|]. now rewrite <- app_assoc.
Qed.
