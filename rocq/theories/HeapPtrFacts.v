(** What becomes of pointers to frames of a tag. *)
From Verif Require Import File Calls Spec SpecEdit HistFacts KindFacts Heap SpecHeap HeapFacts HeapFrameFacts HeapListFacts HeapTagFacts HeapEditFacts.
From Coq Require Import Lia.

(** ** Addresses are not given out twice *)

Definition evolves (h h' : heap) : Prop :=
  (next h <= next h')%nat /\
  forall x, In x (map fst (live h')) -> In x (map fst (live h)) \/ (next h <= x)%nat.

Lemma evolves_refl h : evolves h h.
Proof. split; [lia|auto]. Qed.

Lemma evolves_trans h h1 h2 : evolves h h1 -> evolves h1 h2 -> evolves h h2.
Proof.
  intros (N & L) (N' & L'). split; [lia|]. intros x I. destruct (L' x I) as [J|J]; [auto|]. right. lia.
Qed.

Lemma update_dom a y l : map fst (update a y l) = map fst l.
Proof. induction l as [|(b, x) l IH]; [reflexivity|]. cbn [update]. destruct (Nat.eqb b a); cbn [map fst]; [reflexivity|now rewrite IH]. Qed.
Lemma discard_dom a x l : In x (map fst (discard a l)) -> In x (map fst l).
Proof.
  induction l as [|(b, y) l IH]; [auto|]. cbn [discard]. destruct (Nat.eqb b a); cbn [map fst In]; [now right|].
  intros [->|I]; auto.
Qed.

Lemma malloc_ev x h : evolves h (snd (malloc x h)).
Proof. cbn. split; [cbn; lia|]. cbn. intros y [<-|I]; [right; lia|now left]. Qed.
Lemma malloc_ev' x h a h' : malloc x h = (a, h') -> evolves h h'.
Proof. intros E. change h' with (snd (a, h')). rewrite <- E. apply malloc_ev. Qed.
Lemma new_ev h a h' : FrameList_new_h h = (a, h') -> evolves h h'.
Proof. apply malloc_ev'. Qed.
Lemma store_ev p x h h' : store p x h = Ok h' -> evolves h h'.
Proof. unfold store. intros E. do 2 binv E. injection E as <-. split; [cbn; lia|]. cbn. rewrite update_dom. auto. Qed.
Lemma free_ev p h h' : free p h = Ok h' -> evolves h h'.
Proof.
  destruct p as [a|]; cbn [free]; [|intros [= <-]; apply evolves_refl].
  destruct (lookup a (live h)); [|discriminate]. intros [= <-]. split; [cbn; lia|]. cbn. intros x I. left. eapply discard_dom, I.
Qed.

Lemma ok_inj {A} (x y : A) : Ok x = Ok y -> x = y.
Proof. now intros [= ->]. Qed.

Ltac chain := first [ apply evolves_refl | assumption |
  match goal with H : evolves ?x ?b |- evolves ?a ?b => refine (evolves_trans _ _ _ _ H); clear H; chain end ].
Ltac prods := repeat match goal with v : prod _ _ |- _ => destruct v end.
Ltac step E :=
  match type of E with
  | bind _ _ = Ok _ => binv E; prods
  | (let (_, _) := ?x in _) = Ok _ => let q := fresh "Q" in destruct x as [? ?] eqn:q
  | (match ?x with _ => _ end) = Ok _ => let q := fresh "Q" in destruct x eqn:q; try discriminate E
  | Ok (malloc _ _) = Ok _ => apply ok_inj in E; apply malloc_ev' in E
  | Ok _ = Ok _ => injection E; clear E; intros; subst
  end.
Ltac known :=
  repeat match goal with
  | H : malloc _ _ = (_, _) |- _ => apply malloc_ev' in H
  | H : FrameList_new_h _ = (_, _) |- _ => apply malloc_ev' in H
  | H : store _ _ _ = Ok _ |- _ => apply store_ev in H
  | H : free _ _ = Ok _ |- _ => apply free_ev in H
  end.

Lemma header_new_ev id fl n h a h' : FrameHeader_new_h id fl n h = Ok (a, h') -> evolves h h'.
Proof. unfold FrameHeader_new_h. intros E. repeat step E; known; chain. Qed.
Lemma text_data_ev t h a s h' : TextFrameData_new_h t h = Ok (a, s, h') -> evolves h h'.
Proof. unfold TextFrameData_new_h. intros E. repeat step E; known; chain. Qed.
Lemma comment_data_ev l s c h a n h' : CommentFrameData_new_h l s c h = Ok (a, n, h') -> evolves h h'.
Proof. unfold CommentFrameData_new_h. intros E. repeat step E; known; chain. Qed.
Lemma apic_data_ev d ty m s b h a n h' : ApicFrameData_new_h d ty m s b h = Ok (a, n, h') -> evolves h h'.
Proof. unfold ApicFrameData_new_h. intros E. repeat step E; known; chain. Qed.
Lemma text_new_ev id fl t h a h' : TextFrame_new_h id fl t h = Ok (a, h') -> evolves h h'.
Proof. unfold TextFrame_new_h. intros E. repeat step E; known. apply text_data_ev in E0. apply header_new_ev in E2. chain. Qed.
Lemma comment_new_ev fl l s c h a h' : CommentFrame_new_h fl l s c h = Ok (a, h') -> evolves h h'.
Proof. unfold CommentFrame_new_h. intros E. repeat step E; known. apply comment_data_ev in E0. apply header_new_ev in E5. chain. Qed.
Lemma apic_new_ev fl d ty m s b h a h' : ApicFrame_new_h fl d ty m s b h = Ok (a, h') -> evolves h h'.
Proof. unfold ApicFrame_new_h. intros E. repeat step E; known. apply apic_data_ev in E0. apply header_new_ev in E7. chain. Qed.

Lemma text_free_ev p h h' : TextFrame_free p h = Ok h' -> evolves h h'.
Proof. unfold TextFrame_free. intros E. repeat step E; known; chain. Qed.
Lemma comment_free_ev p h h' : CommentFrame_free p h = Ok h' -> evolves h h'.
Proof. unfold CommentFrame_free. intros E. repeat step E; known; chain. Qed.
Lemma apic_free_ev p h h' : ApicFrame_free p h = Ok h' -> evolves h h'.
Proof. unfold ApicFrame_free. intros E. repeat step E; known; chain. Qed.
Lemma frame_free_ev p h h' : ID3v2_Frame_free p h = Ok h' -> evolves h h'.
Proof.
  unfold ID3v2_Frame_free. intros E. destruct p; [|injection E as <-; chain]. do 4 binv E.
  destruct v0; [eapply text_free_ev; exact E|]. destruct v1; [eapply comment_free_ev; exact E|].
  destruct v2; [eapply apic_free_ev; exact E|]. repeat step E; known; chain.
Qed.

Lemma add_ev l f h h' : FrameList_add_frame_h l f h = Ok h' -> evolves h h'.
Proof. unfold FrameList_add_frame_h. intros E. binv E. prods. destruct p1; repeat step E; known; chain. Qed.
Lemma get_frames_ev id sub : forall fuel l h h', get_frames_loop_h fuel l id sub h = Ok h' -> evolves h h'.
Proof.
  induction fuel as [|fuel IH]; intros l h h' E; [discriminate|]. cbn [get_frames_loop_h] in E.
  destruct l; [|injection E as <-; chain]. binv E. prods. destruct p; [|injection E as <-; chain].
  do 3 (binv E; prods). apply IH in E. destruct v; [apply add_ev in E2|injection E2 as ->]; chain.
Qed.
Lemma unlink_ev : forall fuel l h h', unlink fuel l h = Ok h' -> evolves h h'.
Proof.
  induction fuel as [|fuel IH]; intros l h h' E; [discriminate|]. cbn [unlink] in E.
  destruct l; [|injection E as <-; chain]. do 2 (binv E; prods). apply IH in E. known. chain.
Qed.
Lemma cut_ev l h h' : cut_node l h = Ok h' -> evolves h h'.
Proof.
  unfold cut_node. intros E. binv E. prods. destruct p0.
  - repeat step E; known; chain.
  - step E. repeat step E; known; chain.
Qed.
Lemma remove_by_id_ev id : forall fuel l h p h', remove_by_id fuel l id h = Ok (p, h') -> evolves h h'.
Proof.
  induction fuel as [|fuel IH]; intros l h p h' E; [discriminate|]. cbn [remove_by_id] in E.
  destruct l; [|injection E as <- <-; chain]. do 2 (binv E; prods). destruct v; [|eapply IH; exact E].
  binv E. injection E as <- <-. eapply cut_ev; eassumption.
Qed.
Lemma remove_frame_ev r : forall fuel l h p h', remove_frame fuel l r h = Ok (p, h') -> evolves h h'.
Proof.
  induction fuel as [|fuel IH]; intros l h p h' E; [discriminate|]. cbn [remove_frame] in E.
  destruct l; [|injection E as <- <-; chain]. do 2 (binv E; prods). destruct v; [|eapply IH; exact E].
  binv E. injection E as <- <-. eapply cut_ev; eassumption.
Qed.
Lemma replace_ev o n : forall fuel l h h', replace_frame fuel l o n h = Ok h' -> evolves h h'.
Proof.
  induction fuel as [|fuel IH]; intros l h h' E; [discriminate|]. cbn [replace_frame] in E.
  destruct l; [|injection E as <-; chain]. do 2 (binv E; prods). destruct v; [|eapply IH; exact E]. known. chain.
Qed.
Lemma grow_ev t d h h' : grow t d h = Ok h' -> evolves h h'.
Proof. unfold grow. intros E. repeat step E; known; chain. Qed.
Lemma install_ev t e n h h' : install_frame_h t e n h = Ok h' -> evolves h h'.
Proof.
  unfold install_frame_h. intros E. binv E. destruct e.
  - do 5 binv E. apply replace_ev in E1. apply grow_ev in E5. apply frame_free_ev in E. chain.
  - do 2 binv E. apply add_ev in E1. apply grow_ev in E. chain.
Qed.
Lemma delete_nth_ev t i : forall fuel l n h p h', delete_nth_loop_h fuel t l n i h = Ok (p, h') -> evolves h h'.
Proof.
  induction fuel as [|fuel IH]; intros l n h p h' E; [discriminate|]. cbn [delete_nth_loop_h] in E.
  destruct l; [|injection E as <- <-; chain]. binv E. prods. destruct (n =? i); [|eapply IH; exact E].
  do 3 (binv E; prods). injection E as <- <-. apply remove_frame_ev in E2. apply frame_free_ev in E3. chain.
Qed.

Lemma set_ev tag id new h h' :
  (forall a h1, new = Ok (a, h1) -> evolves h h1) ->
  (let* (nf, h1) := new in let* fr := frames_of tag h1 in
   let* e := FrameList_get_frame_by_id_h fr id h1 in install_frame_h tag e (Some nf) h1) = Ok h' -> evolves h h'.
Proof. intros N E. do 3 (binv E; prods). apply N in E0. apply install_ev in E. chain. Qed.
Lemma append_ev tag (new : outcome (nat * heap)) h h' :
  (forall a h1, new = Ok (a, h1) -> evolves h h1) ->
  (let* (nf, h1) := new in install_frame_h tag None (Some nf) h1) = Ok h' -> evolves h h'.
Proof. intros N E. do 1 (binv E; prods). apply N in E0. apply install_ev in E. chain. Qed.
Lemma delete_ev tag id h h' : ID3v2_Tag_delete_frame_h tag id h = Ok h' -> evolves h h'.
Proof.
  unfold ID3v2_Tag_delete_frame_h. intros E. do 5 (binv E; prods).
  apply remove_by_id_ev in E1. apply grow_ev in E4. apply frame_free_ev in E. chain.
Qed.
Lemma delete_nth_frame_ev tag id i h h' : delete_nth_frame_h tag id i h = Ok h' -> evolves h h'.
Proof.
  unfold delete_nth_frame_h, FrameList_get_frames_by_id_h. intros E. do 3 (binv E; prods).
  step E1. binv E1. injection E1 as <- <-. known. apply get_frames_ev in E3. apply delete_nth_ev in E2. apply unlink_ev in E. chain.
Qed.

Lemma call_ev tag c h h' : run_call_h tag c h = Ok h' -> evolves h h'.
Proof.
  destruct c; cbn [run_call_h]; intros E;
    try (eapply delete_ev; exact E); try (eapply delete_nth_frame_ev; exact E);
    try (eapply set_ev; [|exact E]; intros a0 h1 N; first [eapply text_new_ev; exact N|eapply comment_new_ev; exact N|eapply apic_new_ev; exact N]);
    try (eapply append_ev; [|exact E]; intros a0 h1 N; first [eapply comment_new_ev; exact N|eapply apic_new_ev; exact N]).
Qed.
Lemma calls_ev tag cs : forall h h', run_calls_h tag cs h = Ok h' -> evolves h h'.
Proof.
  induction cs as [|c cs IH]; intros h h' E; cbn [run_calls_h] in E; [injection E as <-; chain|].
  binv E. apply call_ev in E0. apply IH in E. chain.
Qed.

(** ** Identities of frames in the value are not given out twice either *)

Lemma add_addresses l f l' x : FrameList_add_frame l f = Ok l' -> In x (addresses l') -> In x (addresses l) \/ x = fp_addr f.
Proof.
  destruct l as [|n l]; [discriminate|]. cbn [FrameList_add_frame]. destruct (negb (n_start n)); intros [= <-].
  - cbn [addresses flat_map n_frame]. intros [<-|I]; [now right|]. left. apply in_or_app. now right.
  - change (n :: l ++ [mkNode (Some f) true]) with ((n :: l) ++ [mkNode (Some f) true]).
    rewrite addresses_app. intros I. apply in_app_iff in I as [I|[<-|[]]]; auto.
Qed.
Lemma replace_addresses o f x : forall l, In x (addresses (FrameList_replace_frame l o f)) -> In x (addresses l) \/ x = fp_addr f.
Proof.
  induction l as [|n l IH]; [now left|]. cbn [FrameList_replace_frame].
  destruct (same_ptr (n_frame n) o); cbn [addresses flat_map n_frame]; rewrite !in_app_iff; cbn [In];
    change (flat_map _ ?l) with (addresses l).
  - intros [[<-|[]]|I]; auto.
  - intros [I|I]; [auto|]. apply IH in I as [I|I]; auto.
Qed.
Lemma remove_id_addresses id x : forall l e l', FrameList_remove_frame_by_id l id = Ok (e, l') -> In x (addresses l') -> In x (addresses l).
Proof.
  induction l as [|n l IH]; intros e l' E; cbn [FrameList_remove_frame_by_id] in E; [now injection E as <- <-|].
  do 2 binv E. cbn [addresses flat_map]. change (flat_map _ l) with (addresses l). destruct v0.
  - injection E as <- <-. rewrite addresses_unlink. intros I. apply in_or_app. now right.
  - binv E. destruct v0. injection E as <- <-. cbn [addresses flat_map]. rewrite !in_app_iff. intros [I|I]; [auto|]. right. eapply IH; eauto.
Qed.
Lemma remove_addresses e x : forall l, In x (addresses (snd (FrameList_remove_frame l e))) -> In x (addresses l).
Proof.
  induction l as [|n l IH]; [auto|]. cbn [FrameList_remove_frame]. destruct (same_ptr (n_frame n) e); cbn [snd].
  - rewrite addresses_unlink. intros I. apply in_or_app. now right.
  - destruct (FrameList_remove_frame l e) as [r l'] eqn:Q. cbn [snd] in *. cbn [addresses flat_map]. rewrite !in_app_iff. intros [I|I]; auto.
Qed.
Lemma delete_nth_addresses x i fs : forall hd n, In x (addresses (delete_nth_loop hd n i fs)) -> In x (addresses fs).
Proof.
  induction hd as [|n hd IH]; intros k; cbn [delete_nth_loop]; [auto|]. destruct (k =? i); [apply remove_addresses|apply IH].
Qed.

Definition newer (t t' : Tag) : Prop :=
  (t_fresh t <= t_fresh t')%nat /\
  forall x, In x (addresses (t_frames t')) -> In x (addresses (t_frames t)) \/ (t_fresh t <= x)%nat.

Lemma newer_trans t t1 t2 : newer t t1 -> newer t1 t2 -> newer t t2.
Proof. intros (N & L) (N' & L'). split; [lia|]. intros x I. destruct (L' x I) as [J|J]; [auto|]. right. lia. Qed.

Lemma install_newer t e f t' : install_frame t e f = Ok t' -> newer t t'.
Proof.
  unfold install_frame. destruct e as [e|]; intros E; binv E; injection E as <-; (split; [cbn; lia|]); cbn [with_frames t_frames]; intros x I.
  - apply replace_addresses in I as [I|I]; [auto|]. right. rewrite I. cbn. lia.
  - eapply add_addresses in I; [|exact E0]. destruct I as [I|I]; [auto|]. right. rewrite I. cbn. lia.
Qed.
Lemma delete_newer t id t' : ID3v2_Tag_delete_frame t id = Ok t' -> newer t t'.
Proof.
  unfold ID3v2_Tag_delete_frame. intros E. do 3 (binv E; prods). injection E as <-. split; [cbn; lia|]. cbn [t_frames].
  intros x I. left. eapply remove_id_addresses; eauto.
Qed.
Lemma call_newer t c t' : run_call t c = Ok t' -> newer t t'.
Proof.
  destruct c; cbn [run_call]; intros E; try (eapply delete_newer; exact E).
  all: try (unfold ID3v2_Tag_delete_comment_frame, ID3v2_Tag_delete_apic_frame in E; binv E; injection E as <-;
    split; [cbn; lia|]; cbn [t_frames]; intros x I; left; eapply delete_nth_addresses; exact I).
  all: repeat match type of E with ?f _ = Ok _ => unfold f in E | ?f _ _ = Ok _ => unfold f in E | ?f _ _ _ = Ok _ => unfold f in E | ?f _ _ _ _ = Ok _ => unfold f in E end.
  all: repeat (first [eapply install_newer; exact E | binv E]).
Qed.

Lemma calls_newer cs : forall t t', run_calls t cs = Ok t' -> newer t t'.
Proof.
  induction cs as [|c cs IH]; intros t t' E; cbn [run_calls] in E; [injection E as <-; split; [lia|auto]|].
  binv E. eapply newer_trans; [eapply call_newer; exact E0|eauto].
Qed.

(** ** One pointer over any calls *)

Lemma laid_frame h a t pl rest q e : tag_laid h a t pl rest -> In q pl -> n_frame (p_node q) = Some e ->
  incl (frame_blocks (p_lay q) (fp_frame e)) (map (fun x => x) (all_frame_blocks pl)) /\ (l_self (p_lay q) < next h)%nat /\ (l_header (p_lay q) < next h)%nat.
Proof.
  intros (ah & head & H & _) I E. assert (J : incl (frame_blocks (p_lay q) (fp_frame e)) (all_frame_blocks pl)).
  { intros x Ix. apply in_flat_map. exists q. split; [exact I|]. unfold p_frame_blocks. now rewrite E. }
  split; [now rewrite map_id|]. destruct H as (_ & _ & B). rewrite Forall_forall in B.
  split; apply B.
  - apply (in_map fst _ (l_self (p_lay q), BFrame (Some (l_header (p_lay q))) (Some (l_data (p_lay q))))).
    unfold tag_blocks. rewrite !in_app_iff. left. right. right. apply J. now left.
  - apply (in_map fst _ (l_header (p_lay q), BFrameHeader (f_hdr (fp_frame e)))).
    unfold tag_blocks. rewrite !in_app_iff. left. right. right. apply J. right. now left.
Qed.

Lemma laid_unique h a t pl rest q q' e e' : tag_laid h a t pl rest -> In q pl -> In q' pl ->
  n_frame (p_node q) = Some e -> n_frame (p_node q') = Some e' -> fp_addr e = fp_addr e' -> q = q'.
Proof.
  intros (ah & head & _ & Et & _ & _ & D & _) I I' E E' X. rewrite Et, addresses_map in D.
  eapply (flat_map_unique _ _ _ _ (fp_addr e) D I I'); [rewrite E; now left|rewrite E', X; now left].
Qed.

Lemma dangling_on h h' rest rest' l : dangling h rest l -> evolves h h' -> incl rest rest' ->
  (l_self l < next h)%nat -> (l_header l < next h)%nat -> dangling h' rest' l.
Proof.
  intros S (_ & V) I L1 L2.
  assert (G : forall x, (x < next h)%nat -> ~ In x (map fst (live h)) -> ~ In x (map fst (live h'))).
  { intros x Lx N J. apply V in J as [J|J]; [auto|lia]. }
  destruct S as [N|(J & N)]; [left|right]; auto.
Qed.

Lemma calls_pointers cs : forall h a t pl rest t' h', tag_laid h a t pl rest -> kinds_ok (t_frames t) -> Forall call_kind cs ->
  run_calls t cs = Ok t' -> run_calls_h (Some a) cs h = Ok h' ->
  exists pl' lost, tag_laid h' a t' pl' (lost ++ rest) /\ kinds_ok (t_frames t')
    /\ (forall q' e, In q' pl' -> n_frame (p_node q') = Some e ->
          (exists q, In q pl /\ n_frame (p_node q) = Some e /\ p_lay q = p_lay q') \/ (t_fresh t <= fp_addr e)%nat)
    /\ gone pl pl' (lost ++ rest) h'.
Proof.
  induction cs as [|c cs IH]; intros h a t pl rest t' h' T K C E Eh; cbn [run_calls run_calls_h] in E, Eh.
  - injection E as <-. injection Eh as <-. exists pl, []. split; [exact T|]. split; [exact K|].
    split; [intros q' e I F; left; eauto|apply gone_refl].
  - binv E. inversion C as [|? ? C1 C2]; subst. assert (S := call_is h a t pl rest c T K C1). rewrite E0 in S. cbn [agrees] in S.
    destruct S as (h1 & E1 & lost1 & _ & (pl1 & T1 & K1 & G1) & Kk & _). rewrite E1 in Eh. cbn [bind] in Eh.
    destruct (IH h1 a v pl1 (lost1 ++ rest) t' h' T1 Kk C2 E Eh) as (pl2 & lost2 & T2 & Kk2 & K2 & G2).
    exists pl2, (lost2 ++ lost1). rewrite <- app_assoc. split; [exact T2|]. split; [exact Kk2|].
    destruct (call_newer _ _ _ E0) as (Nf & Nx). split.
    + intros q' e I F. destruct (K2 q' e I F) as [(q1 & I1 & F1 & L1)|J]; [|right; lia].
      destruct (K1 q1 e I1 F1) as [(q & Iq & Fq & Lq)|J]; [left; exists q; split; [exact Iq|split; [exact Fq|congruence]]|].
      right. destruct T as (_ & _ & _ & Et & _). destruct T1 as (_ & _ & _ & Et1 & _).
      assert (Ia := in_addresses pl1 q1 e I1 F1). rewrite <- Et1 in Ia. rewrite <- Et in J. destruct (Nx _ Ia); [contradiction|assumption].
    + intros q e I F. destruct (laid_frame _ _ _ _ _ _ _ T I F) as (_ & B1 & B2).
      destruct (call_ev _ _ _ _ E1) as (Nn & _).
      destruct (G1 q e I F) as [J|J].
      * rewrite addresses_map in J. apply in_flat_map in J as (q1 & I1 & J).
        destruct (n_frame (p_node q1)) as [e1|] eqn:F1; [|destruct J]. destruct J as [J|[]].
        destruct (K1 q1 e1 I1 F1) as [(q0 & I0 & F0 & L0)|N]; [|exfalso; apply N; rewrite J; eapply in_addresses; eauto].
        assert (q0 = q) by exact (laid_unique _ _ _ _ _ _ _ _ _ T I0 I F0 F J). subst q0. assert (e1 = e) by congruence. subst e1.
        destruct (G2 q1 e I1 F1) as [Y|Y]; [now left|right]. rewrite L0. exact Y.
      * right. eapply dangling_on; [exact J|eapply calls_ev; exact Eh| |lia|lia]. intros y Iy. apply in_or_app. now right.
Qed.

Lemma dangling_header h a t pl rest l : tag_laid h a t pl rest -> dangling h rest l -> header_of (Some (l_self l)) h = Ub UseAfterFree.
Proof.
  intros (ah & head & H & _) D. assert (P : Permutation (map fst (live h)) (map fst (tag_blocks a ah head t pl ++ rest))) by (apply Permutation_map, H).
  unfold header_of. destruct D as [N|(I & N)].
  - unfold load_frame. rewrite (load_gone _ _ _ H); [reflexivity|]. intros J. apply N. eapply Permutation_in; [symmetry; exact P|exact J].
  - rewrite (load_frame_is _ _ _ _ _ H (in_or_app _ _ _ (or_intror I))). cbn [bind]. unfold load_frame_header.
    rewrite (load_gone _ _ _ H); [reflexivity|]. intros J. apply N. eapply Permutation_in; [symmetry; exact P|exact J].
Qed.

Lemma pointer_after cs h a t x p f t' h' : frame_in h a t x p f -> kinds_ok (t_frames t) -> Forall call_kind cs ->
  run_calls t cs = Ok t' -> run_calls_h (Some a) cs h = Ok h' ->
  if in_dec Nat.eq_dec x (addresses (t_frames t')) then frame_in h' a t' x p f else header_of (Some p) h' = Ub UseAfterFree.
Proof.
  intros (pl & rest & q & T & I & F & <-) K C E Eh.
  destruct (calls_pointers cs h a t pl rest t' h' T K C E Eh) as (pl' & lost & T' & _ & Kp & G).
  assert (Et' := T'). destruct Et' as (_ & _ & _ & Et' & _).
  destruct (in_dec _ _ _) as [J|J]; rewrite Et' in J.
  - rewrite addresses_map in J. apply in_flat_map in J as (q' & I' & J).
    destruct (n_frame (p_node q')) as [e|] eqn:F'; [|destruct J]. destruct J as [J|[]].
    destruct (Kp q' e I' F') as [(q0 & I0 & F0 & L0)|N].
    + assert (q0 = q) by exact (laid_unique _ _ _ _ _ _ _ _ _ T I0 I F0 F J). subst q0. assert (e = (x, f)) by congruence. subst e.
      exists pl', (lost ++ rest), q'. rewrite L0. auto.
    + exfalso. destruct T as (_ & _ & _ & Et & _ & _ & _ & B). rewrite Forall_forall in B.
      assert (Ix := in_addresses pl q _ I F). rewrite <- Et in Ix. apply B in Ix. cbn [fp_addr fst] in Ix. lia.
  - destruct (G q (x, f) I F) as [Y|Y]; [contradiction|]. eapply dangling_header; eauto.
Qed.

(** ** Getters *)

Lemma get_pointer h a t pl rest id : tag_laid h a t pl rest ->
  agrees (points pl) (ID3v2_Tag_get_frame (Some t) id) (ID3v2_Tag_get_frame_h (Some a) id h).
Proof.
  intros (ah & head & R). unfold ID3v2_Tag_get_frame, ID3v2_Tag_get_frame_h.
  assert (R0 : rep h a ah head t pl rest) by exact R. destruct R as (H & _). unfold tag_blocks in H. cbn [app] in H.
  rewrite (frames_of_is _ _ a ah head (t_padding t) H) by is_in. cbn [bind]. eapply get_is; exact R0.
Qed.

Lemma get_frame_in h a t rest id : tag_at h a t rest ->
  agrees (fun e p => match e with None => p = None | Some (x, f) => exists p', p = Some p' /\ frame_in h a t x p' f end)
    (ID3v2_Tag_get_frame (Some t) id) (ID3v2_Tag_get_frame_h (Some a) id h).
Proof.
  intros (pl & T). eapply agrees_weaken; [eapply get_pointer; exact T|]. intros e p. destruct e as [(x, f)|]; [|auto].
  intros (s1 & q & s2 & -> & F & ->). eexists. split; [reflexivity|]. exists (s1 ++ q :: s2), rest, q.
  split; [exact T|]. split; [apply in_elt|auto].
Qed.

(** ** Lists of pointers *)

Definition shown (pl : list pnode) : list (nat * frame) :=
  flat_map (fun q => match n_frame (p_node q) with Some e => [(l_self (p_lay q), fp_frame e)] | None => [] end) pl.
Definition held (pl : list pnode) : list fptr :=
  flat_map (fun q => match n_frame (p_node q) with Some e => [e] | None => [] end) pl.

Lemma held_list_of pl ps : map p_node pl = list_of ps -> held pl = ps.
Proof.
  destruct ps as [|p ps].
  - destruct pl as [|q [|? ?]]; try discriminate. cbn [map list_of]. intros [= E]. cbn [held flat_map]. now rewrite E.
  - rewrite list_of_nodes by discriminate. generalize (p :: ps). clear. intros ps. revert pl.
    induction ps as [|p ps IH]; intros [|q pl] E; try discriminate; [reflexivity|]. cbn [map nodes] in E. injection E as E E'.
    cbn [held flat_map]. rewrite E. cbn [fnode n_frame app]. f_equal. now apply IH.
Qed.

Definition is_for (e : fptr) (q : pnode) : bool :=
  match n_frame (p_node q) with Some e' => Nat.eqb (fp_addr e') (fp_addr e) | None => false end.
Definition place (pl : list pnode) (e : fptr) : nat * frame :=
  (match find (is_for e) pl with Some q => l_self (p_lay q) | None => 0%nat end, fp_frame e).

Lemma find_app {A} (P : A -> bool) l r : find P (l ++ r) = match find P l with Some x => Some x | None => find P r end.
Proof. induction l as [|x l IH]; [reflexivity|]. cbn [app find]. now destruct (P x). Qed.

Lemma place_in pl q e : NoDup (addresses (map p_node pl)) -> In q pl -> n_frame (p_node q) = Some e -> find (is_for e) pl = Some q.
Proof.
  intros D I E. destruct (find (is_for e) pl) as [q'|] eqn:F.
  - apply find_some in F as (I' & F). unfold is_for in F. destruct (n_frame (p_node q')) as [e'|] eqn:E'; [|discriminate].
    apply Nat.eqb_eq in F. f_equal. rewrite addresses_map in D.
    eapply (flat_map_unique _ _ _ _ (fp_addr e) D I' I); [rewrite E', F; now left|rewrite E; now left].
  - apply (find_none _ _ F) in I. unfold is_for in I. rewrite E, Nat.eqb_refl in I. discriminate.
Qed.

Lemma place_out pl e : ~ In (fp_addr e) (addresses (map p_node pl)) -> find (is_for e) pl = None.
Proof.
  intros N. destruct (find (is_for e) pl) as [q|] eqn:F; [|reflexivity]. apply find_some in F as (I & F).
  unfold is_for in F. destruct (n_frame (p_node q)) as [e'|] eqn:E; [|discriminate]. apply Nat.eqb_eq in F.
  destruct N. rewrite <- F. eapply in_addresses; eauto.
Qed.

Lemma shown_places g pl : (forall q e, In q pl -> n_frame (p_node q) = Some e -> g e = (l_self (p_lay q), fp_frame e)) ->
  shown pl = map g (held pl).
Proof.
  induction pl as [|q pl IH]; intros H; [reflexivity|]. cbn [shown held flat_map]. rewrite map_app.
  fold (shown pl) (held pl). rewrite <- IH by (intros; apply H; [now right|assumption]). f_equal.
  destruct (n_frame (p_node q)) as [e|] eqn:E; [|reflexivity]. cbn [map]. rewrite (H q e); [reflexivity|now left|exact E].
Qed.

Lemma shown_left pl r : NoDup (addresses (map p_node pl)) -> shown pl = map (place (pl ++ r)) (held pl).
Proof.
  intros D. apply shown_places. intros q e I E. unfold place. rewrite find_app, (place_in pl q e D I E). reflexivity.
Qed.

Lemma shown_right pl pl' : NoDup (addresses (map p_node pl)) -> NoDup (addresses (map p_node pl')) -> kept pl pl' ->
  shown pl' = map (place (pl ++ pl')) (held pl').
Proof.
  intros D D' K. apply shown_places. intros q' e I E. unfold place. rewrite find_app.
  destruct (K q' e I E) as [(q & Iq & Eq & L)|N].
  - rewrite (place_in pl q e D Iq Eq). now rewrite L.
  - rewrite (place_out pl e N), (place_in pl' q' e D' I E). reflexivity.
Qed.

Lemma shown_frames pl : map snd (shown pl) = map fp_frame (held pl).
Proof.
  induction pl as [|q pl IH]; [reflexivity|]. cbn [shown held flat_map]. rewrite !map_app. fold (shown pl) (held pl). rewrite IH.
  f_equal. now destruct (n_frame (p_node q)).
Qed.

Lemma edit_place e g n ps : (forall p : fptr, snd (g p) = snd p) ->
  map g (edit_pointers e n ps) =
  match e with
  | Put f => edit_pointers e (fst (g (n, frame_of f))) (map g ps)
  | Append f => edit_pointers e (fst (g (n, frame_of f))) (map g ps)
  | _ => edit_pointers e n (map g ps)
  end.
Proof.
  intros S. assert (G : forall f, (fst (g (n, f)), f) = g (n, f)).
  { intros f. rewrite (surjective_pairing (g (n, f))) at 2. f_equal. now rewrite S. }
  destruct e as [f|f|id|id i]; cbn [edit_pointers].
  - rewrite G. induction ps as [|p ps IH]; [reflexivity|]. cbn [put map]. rewrite S. destruct (named _ (snd p)); cbn [map]; [reflexivity|now rewrite IH].
  - rewrite map_app. cbn [map]. now rewrite G.
  - induction ps as [|p ps IH]; [reflexivity|]. cbn [remove_first map]. rewrite S. destruct (named _ (snd p)); cbn [map]; [reflexivity|now rewrite IH].
  - revert i. induction ps as [|p ps IH]; intros i; [reflexivity|]. cbn [remove_nth map]. rewrite S.
    destruct (named _ (snd p)); [destruct (i =? 0); [reflexivity|]|]; cbn [map]; now rewrite IH.
Qed.

(** The step of EditFacts, with the identities. *)
Lemma edit_ids t ps c e : owns t ps -> all_sane ps -> 0 <= th_tag_size (t_header t) < 2 ^ 32 ->
  means c e -> edit_ok e = true -> allowed e (map fp_frame ps) = true ->
  exists t', run_call t c = Ok t' /\ owns t' (edit_pointers e (t_fresh t) ps).
Proof.
  intros O S R M K A. destruct e as [f|f|id|id i]; cbn [edit_ok edit_pointers] in *.
  - eexists. split; [rewrite (run_put t ps c f) by auto; now apply install_put|].
    exact (put_owns t f ps _ _ O).
  - eexists. split; [rewrite (run_append t c f) by auto; now apply (append_put t ps)|]. now apply append_owns.
  - destruct (run_remove t c id M) as (arg & P & L & ->).
    rewrite (delete_frame_at t ps arg id) by (auto; apply O).
    change (remove_first _ ps) with (remove_first (pnamed id) ps).
    cbn [allowed victim_pos] in *. rewrite remove_first_pos. rewrite (map_first_pos fp_frame (named id)) in *.
    change (fun a => named id (fp_frame a)) with (pnamed id) in *.
    destruct (first_pos (pnamed id) ps) as [n|] eqn:E; [|discriminate A].
    apply first_pos_lt in E. destruct E as (q & Eq & _).
    assert (n < length ps)%nat by (apply nth_error_Some; congruence).
    eexists. split; [reflexivity|]. rewrite unlinked_list_of by auto. exact (delete_owns t ps n _ _ O).
  - destruct (run_remove_nth t c id i M) as (L & arg & P & ->).
    rewrite (delete_nth_at t ps arg id) by auto.
    change (remove_nth _ i ps) with (remove_nth (pnamed id) i ps).
    cbn [allowed victim_pos] in *. rewrite remove_nth_pos. rewrite (map_nth_pos fp_frame (named id)) in *.
    change (fun a => named id (fp_frame a)) with (pnamed id) in *.
    eexists. split; [reflexivity|].
    destruct (nth_pos (pnamed id) i ps) as [n|] eqn:E.
    + apply nth_pos_lt in E. destruct E as (q & Eq & _).
      assert (n < length ps)%nat by (apply nth_error_Some; congruence).
      rewrite unlinked_list_of by auto. exact (delete_owns t ps n _ _ O).
    + destruct O as (O1 & O2). split; [exact O1|exact O2].
Qed.

Lemma in_shown pl p : In p (map fst (shown pl)) <-> exists q e, In q pl /\ n_frame (p_node q) = Some e /\ l_self (p_lay q) = p.
Proof.
  unfold shown. rewrite in_map_iff. split.
  - intros ((p', f) & <- & I). apply in_flat_map in I as (q & I & J). exists q. destruct (n_frame (p_node q)) as [e|]; [|destruct J].
    destruct J as [J|[]]. exists e. injection J as J _. auto.
  - intros (q & e & I & F & <-). exists (l_self (p_lay q), fp_frame e). split; [reflexivity|]. apply in_flat_map.
    exists q. split; [exact I|]. rewrite F. now left.
Qed.

(** A dangling pointer points to no frame of the tag. *)
Lemma dangling_apart h a t pl rest l q e : tag_laid h a t pl rest -> dangling h rest l -> In q pl -> n_frame (p_node q) = Some e ->
  l_self (p_lay q) <> l_self l.
Proof.
  intros T D I F X. destruct (laid_frame _ _ _ _ _ _ _ T I F) as (J & _). rewrite map_id in J.
  destruct T as (ah & head & (P & N & _) & _).
  assert (J1 : In (l_self (p_lay q)) (map fst (all_frame_blocks pl))).
  { apply (in_map fst _ (l_self (p_lay q), BFrame (Some (l_header (p_lay q))) (Some (l_data (p_lay q))))). apply J. now left. }
  rewrite X in J1. destruct D as [D|(D & _)].
  - apply D. eapply Permutation_in; [symmetry; apply Permutation_map; exact P|]. unfold tag_blocks.
    rewrite !map_app, !in_app_iff. tauto.
  - apply (in_map fst) in D. cbn [fst] in D. unfold tag_blocks in N. rewrite !map_app, <- !app_assoc in N.
    apply NoDup_app_r, NoDup_app_r in N.
    revert N D J1. generalize (map fst (all_frame_blocks pl)) (map fst rest). clear. intros u v N Iv Iu.
    induction u as [|x u IH]; [destruct Iu|]. cbn [app] in N. inversion N as [|? ? Nx Nu]; subst.
    destruct Iu as [->|Iu]; [|auto]. apply Nx, in_or_app. now right.
Qed.

Lemma edit_on_pointers h a t ps c e : pointers h a t ps -> Forall sane (map snd ps) -> Forall kind_ok (map snd ps) ->
  0 <= th_tag_size (t_header t) < 2 ^ 32 -> means c e -> edit_ok e = true -> allowed e (map snd ps) = true ->
  exists h' t' new, run_call t c = Ok t' /\ run_call_h (Some a) c h = Ok h' /\ pointers h' a t' (edit_pointers e new ps)
    /\ ~ In new (map fst ps)
    /\ (forall p, In p (map fst ps) -> ~ In p (map fst (edit_pointers e new ps)) -> header_of (Some p) h' = Ub UseAfterFree).
Proof.
  intros (Th & pl & rest & T & Ep) S K R M Ok Al. fold (shown pl) in Ep. subst ps.
  assert (Kt := kinds_has t _ Th K). apply tag_has_owns in Th as (ps & O & Fs).
  assert (Et := T). destruct Et as (_ & _ & _ & Et & _ & _ & Dp & _).
  assert (Hp : held pl = ps) by (apply held_list_of; rewrite <- Et; apply O). subst ps.
  rewrite <- Fs in *. apply all_sane_map in S.
  destruct (edit_ids t (held pl) c e O S R M Ok Al) as (t' & E & O').
  assert (C := call_is h a t pl rest c T Kt (means_kind c e M Ok)). rewrite E in C. cbn [agrees] in C.
  destruct C as (h' & Eh & lost & _ & (pl' & T' & Kp & G) & _).
  assert (Et' := T'). destruct Et' as (_ & _ & _ & Et' & _ & _ & Dp' & _).
  assert (Hp' : held pl' = edit_pointers e (t_fresh t) (held pl)) by (apply held_list_of; rewrite <- Et'; apply O').
  rewrite Et in Dp. rewrite Et' in Dp'.
  set (g := place (pl ++ pl')).
  assert (Sh' : shown pl' = match e with
      | Put f => edit_pointers e (fst (g (t_fresh t, frame_of f))) (shown pl)
      | Append f => edit_pointers e (fst (g (t_fresh t, frame_of f))) (shown pl)
      | _ => edit_pointers e (t_fresh t) (shown pl) end).
  { rewrite (shown_right pl pl' Dp Dp' Kp), (shown_left pl pl' Dp). fold g. rewrite Hp'. apply edit_place. reflexivity. }
  assert (Th' : tag_has t' (map snd (shown pl'))).
  { apply tag_has_owns. exists (held pl'). split; [now rewrite Hp'|]. symmetry. apply shown_frames. }
  assert (Dn : forall p, In p (map fst (shown pl)) -> ~ In p (map fst (shown pl')) -> header_of (Some p) h' = Ub UseAfterFree).
  { intros p I N. apply in_shown in I as (q & x & I & F & <-). destruct (G q x I F) as [J|J]; [|eapply dangling_header; eauto].
    exfalso. apply N, in_shown. rewrite addresses_map in J. apply in_flat_map in J as (q' & I' & J).
    destruct (n_frame (p_node q')) as [x'|] eqn:F'; [|destruct J]. destruct J as [J|[]].
    exists q', x'. split; [exact I'|]. split; [exact F'|].
    destruct (Kp q' x' I' F') as [(q0 & I0 & F0 & L0)|N']; [|exfalso; apply N'; rewrite J; eapply in_addresses; eauto].
    assert (q0 = q) by exact (laid_unique _ _ _ _ _ _ _ _ _ T I0 I F0 F J). subst q0. now rewrite <- L0. }
  assert (Nw : forall q' x', In q' pl' -> n_frame (p_node q') = Some x' -> fp_addr x' = t_fresh t -> ~ In (l_self (p_lay q')) (map fst (shown pl))).
  { intros q' x' I' F' X J. apply in_shown in J as (q & x & I & F & Eq).
    assert (Bx : (fp_addr x < t_fresh t)%nat).
    { destruct O as (O1 & O2 & O3). rewrite Forall_forall in O3. apply O3. apply in_map. apply in_flat_map. exists q. split; [exact I|]. rewrite F. now left. }
    destruct (G q x I F) as [J|J].
    - rewrite addresses_map in J. apply in_flat_map in J as (q1 & I1 & J).
      destruct (n_frame (p_node q1)) as [x1|] eqn:F1; [|destruct J]. destruct J as [J|[]].
      destruct (Kp q1 x1 I1 F1) as [(q0 & I0 & F0 & L0)|N']; [|exfalso; apply N'; rewrite J; eapply in_addresses; eauto].
      assert (q0 = q) by exact (laid_unique _ _ _ _ _ _ _ _ _ T I0 I F0 F J). subst q0.
      assert (Q : q' = q1).
      { destruct T' as (ah & head & (_ & N & _) & _). unfold tag_blocks in N. rewrite !map_app in N.
        apply NoDup_app_l, NoDup_app_r, NoDup_app_r in N. unfold all_frame_blocks in N. rewrite map_fst_flat_map in N.
        eapply (flat_map_unique _ _ _ _ (l_self (p_lay q')) N I' I1); unfold p_frame_blocks; rewrite ?F', ?F1; cbn [frame_blocks map fst]; left; congruence. }
      subst q1. assert (x1 = x') by congruence. subst x1. lia.
    - exact (dangling_apart _ _ _ _ _ _ _ _ T' J I' F' (eq_sym Eq)). }
  assert (Fin : forall new, shown pl' = edit_pointers e new (shown pl) -> ~ In new (map fst (shown pl)) ->
    exists h' t' new, run_call t c = Base.Ok t' /\ run_call_h (Some a) c h = Base.Ok h' /\ pointers h' a t' (edit_pointers e new (shown pl))
    /\ ~ In new (map fst (shown pl))
    /\ (forall p, In p (map fst (shown pl)) -> ~ In p (map fst (edit_pointers e new (shown pl))) -> header_of (Some p) h' = Ub UseAfterFree)).
  { intros new Es Nn. exists h', t', new. split; [exact E|]. split; [exact Eh|]. rewrite <- Es. split; [|split; [exact Nn|exact Dn]].
    split; [exact Th'|]. exists pl', (lost ++ rest). split; [exact T'|reflexivity]. }
  assert (Ng : forall f, In (t_fresh t, frame_of f) (held pl') -> ~ In (fst (g (t_fresh t, frame_of f))) (map fst (shown pl))).
  { intros f I. unfold held in I. apply in_flat_map in I as (q' & I' & J). destruct (n_frame (p_node q')) as [x'|] eqn:F'; [|destruct J].
    destruct J as [->|[]]. unfold g, place. cbn [fst].
    rewrite find_app, place_out, (place_in pl' q' _ Dp' I' F'); [eapply Nw; eauto|]. cbn [fp_addr fst].
    destruct T as (_ & _ & _ & _ & _ & _ & _ & B). rewrite Et in B. now apply not_fresh. }
  destruct e as [f|f|id|id i].
  - apply (Fin _ Sh'). apply Ng. rewrite Hp'. cbn [edit_pointers]. clear. induction (held pl) as [|p l IH]; cbn [put]; [now left|].
    destruct (named _ _); [now left|now right].
  - apply (Fin _ Sh'). apply Ng. rewrite Hp'. cbn [edit_pointers]. apply in_or_app. right. now left.
  - apply (Fin (next h)); [exact Sh'|]. intros J. apply in_shown in J as (q & x & I & F & Eq).
    destruct (laid_frame _ _ _ _ _ _ _ T I F) as (_ & B & _). lia.
  - apply (Fin (next h)); [exact Sh'|]. intros J. apply in_shown in J as (q & x & I & F & Eq).
    destruct (laid_frame _ _ _ _ _ _ _ T I F) as (_ & B & _). lia.
Qed.

Lemma bytes_eqb_eq a b : bytes_eqb a b = true <-> a = b.
Proof.
  revert b. induction a as [|x a IH]; intros [|y b]; cbn [bytes_eqb]; try (split; [discriminate|discriminate]); [tauto|].
  rewrite andb_true_iff, IH. split; [intros (E & ->); f_equal; now apply Byte.byte_dec_bl|].
  intros [= -> ->]. split; [now apply Byte.byte_dec_lb|reflexivity].
Qed.

Lemma named_apart id id' f : same_id id' id = false -> named id' f = true -> named id f = false.
Proof.
  unfold named, same_id. intros N E. destruct (bytes_eqb (id_key (id_bytes f)) (id_key id)) eqn:Q; [|reflexivity].
  apply bytes_eqb_eq in E, Q. rewrite <- E, Q in N. assert (X : bytes_eqb (id_key id) (id_key id) = true) by now apply bytes_eqb_eq. congruence.
Qed.

Lemma filter_edit e id new ps : edit_ok e = true -> same_id (edit_id e) id = false ->
  filter (fun p => named id (snd p)) (edit_pointers e new ps) = filter (fun p => named id (snd p)) ps.
Proof.
  intros K N. destruct e as [f|f|i|i k]; cbn [edit_id edit_pointers edit_ok] in *.
  - assert (Nf : named id (frame_of f) = false) by (eapply named_apart; [exact N|now apply named_frame_of]).
    induction ps as [|p ps IH]; cbn [put filter snd]; [now rewrite Nf|]. destruct (named (frame_id f) (snd p)) eqn:E; cbn [filter snd].
    + rewrite Nf. now rewrite (named_apart _ _ _ N E).
    + now rewrite IH.
  - assert (Nf : named id (frame_of f) = false) by (eapply named_apart; [exact N|now apply named_frame_of]).
    rewrite filter_app. cbn [filter snd]. now rewrite Nf, app_nil_r.
  - induction ps as [|p ps IH]; [reflexivity|]. cbn [remove_first filter]. destruct (named i (snd p)) eqn:E; cbn [filter].
    + now rewrite (named_apart _ _ _ N E).
    + now rewrite IH.
  - revert k. induction ps as [|p ps IH]; intros k; [reflexivity|]. cbn [remove_nth filter]. destruct (named i (snd p)) eqn:E.
    + destruct (k =? 0); cbn [filter]; rewrite (named_apart _ _ _ N E); [reflexivity|apply IH].
    + cbn [filter]. now rewrite IH.
Qed.

Lemma edit_pointers_frames e new ps : map snd (edit_pointers e new ps) = apply_edit e (map snd ps).
Proof.
  destruct e as [f|f|id|id i]; cbn [edit_pointers apply_edit].
  - exact (map_put snd (named (frame_id f)) (new, frame_of f) ps).
  - now rewrite map_app.
  - induction ps as [|p ps IH]; [reflexivity|]. cbn [remove_first map]. destruct (named _ _); cbn [map]; [reflexivity|now rewrite IH].
  - revert i. induction ps as [|p ps IH]; intros i; [reflexivity|]. cbn [remove_nth map].
    destruct (named _ _); [destruct (i =? 0); [reflexivity|]|]; cbn [map]; now rewrite IH.
Qed.

Lemma edit_kinds e fs : edit_ok e = true -> Forall kind_ok fs -> Forall kind_ok (apply_edit e fs).
Proof.
  intros K H. destruct e as [f|f|id|id i]; cbn [apply_edit edit_ok] in *.
  - apply Forall_put; auto. apply well_formed_kind. now exists f.
  - apply Forall_app. split; auto. constructor; auto. apply well_formed_kind. now exists f.
  - rewrite remove_first_pos. destruct (first_pos _ fs); auto. now apply Forall_delete_at.
  - rewrite remove_nth_pos. destruct (nth_pos _ _ fs); auto. now apply Forall_delete_at.
Qed.

Lemma untouched cs : forall h a t ps es, pointers h a t ps -> Forall sane (map snd ps) -> Forall kind_ok (map snd ps) ->
  0 <= th_tag_size (t_header t) < 2 ^ 32 -> Forall2 means cs es -> all_allowed es (map snd ps) = true ->
  exists h' t' ps', run_calls_h (Some a) cs h = Ok h' /\ pointers h' a t' ps'
    /\ map snd ps' = apply_edits es (map snd ps) /\ Forall sane (map snd ps')
    /\ forall id, (forall e, In e es -> same_id (edit_id e) id = false) ->
       filter (fun p => named id (snd p)) ps' = filter (fun p => named id (snd p)) ps.
Proof.
  induction cs as [|c cs IH]; intros h a t ps es P S K R M A; inversion M as [|? e ? es' Me Ms]; subst.
  - exists h, t, ps. split; [reflexivity|]. split; [exact P|]. split; [reflexivity|]. split; [exact S|reflexivity].
  - cbn [all_allowed] in A. rewrite !andb_true_iff in A. destruct A as ((Ok & A) & A'). cbn [run_calls_h].
    destruct (edit_on_pointers h a t ps c e P S K R Me Ok A) as (h1 & t1 & new & E1 & Eh1 & P1 & _).
    destruct (edit_step t (map snd ps) c e (proj1 P) S R Me Ok A) as (t1' & E1' & _ & S1 & H1 & _).
    rewrite E1 in E1'. injection E1' as <-. rewrite <- (edit_pointers_frames e new ps) in S1, A'.
    assert (K1 := edit_kinds e _ Ok K). rewrite <- (edit_pointers_frames e new ps) in K1.
    assert (R1 : 0 <= th_tag_size (t_header t1) < 2 ^ 32) by (rewrite H1; cbn [sized th_tag_size]; apply Z.mod_pos_bound; lia).
    destruct (IH h1 a t1 _ es' P1 S1 K1 R1 Ms A') as (h2 & t2 & ps2 & E2 & P2 & M2 & S2 & F2).
    exists h2, t2, ps2. rewrite Eh1. split; [exact E2|]. split; [exact P2|].
    split; [rewrite M2, edit_pointers_frames; reflexivity|]. split; [exact S2|]. intros id N.
    rewrite F2 by (intros; apply N; now right). apply filter_edit; [exact Ok|]. apply N. now left.
Qed.

Lemma find_filter {A} (P : A -> bool) l : find P l = hd_error (filter P l).
Proof. induction l as [|x l IH]; [reflexivity|]. cbn [find filter]. destruct (P x); [reflexivity|exact IH]. Qed.

Lemma get_in_pointers h a t ps arg id : pointers h a t ps -> Forall sane (map snd ps) -> points_to arg id -> length id = 4%nat ->
  ID3v2_Tag_get_frame_h (Some a) arg h = Ok (option_map fst (find (fun p => named id (snd p)) ps)).
Proof.
  intros (Th & pl & rest & T & Ep) S Pt L. fold (shown pl) in Ep. subst ps.
  apply tag_has_owns in Th as (ps & O & Fs). assert (Et := T). destruct Et as (_ & _ & _ & Et & _ & _ & D & _).
  assert (Hp : held pl = ps) by (apply held_list_of; rewrite <- Et; apply O). subst ps. rewrite <- Fs in S. apply all_sane_map in S.
  assert (G := get_pointer h a t pl rest arg T).
  assert (Gv : ID3v2_Tag_get_frame (Some t) arg = Ok (find (pnamed id) (held pl))).
  { unfold ID3v2_Tag_get_frame. destruct O as (-> & _). destruct (held pl) as [|p l]; [reflexivity|].
    rewrite list_of_nodes by discriminate. rewrite <- (app_nil_r (nodes (p :: l))).
    assert (X := get_hole arg id (p :: l) [] S Pt L). clear -X S Pt L. revert X.
    induction S as [|q ps Hq H IH]; [reflexivity|]. cbn [nodes map app FrameList_get_frame_by_id fnode n_frame find].
    rewrite (id_matches_ok _ _ id) by auto. cbn [bind]. unfold pnamed at 1 3. destruct (named id (fp_frame q)); [auto|exact IH]. }
  rewrite Gv in G. cbn [agrees] in G. destruct G as (p & -> & Q). f_equal.
  rewrite Et in D. assert (Sh := shown_left pl [] D). rewrite app_nil_r in Sh.
  assert (Mf : find (fun p => named id (snd p)) (shown pl) = option_map (place pl) (find (pnamed id) (held pl))).
  { rewrite Sh, map_find. reflexivity. }
  rewrite Mf. destruct (find (pnamed id) (held pl)) as [e|]; cbn [points option_map] in *; [|exact Q].
  destruct Q as (s1 & q & s2 & Epl & F & ->). unfold place. cbn [fst]. rewrite (place_in pl q e); [reflexivity|exact D| |exact F].
  rewrite Epl. apply in_elt.
Qed.

Lemma pointers_exist h a t rest fs : tag_at h a t rest -> tag_has t fs -> exists ps, map snd ps = fs /\ pointers h a t ps.
Proof.
  intros (pl & T) Th. exists (shown pl). assert (Et := T). destruct Et as (_ & _ & _ & Et & _).
  assert (E : map snd (shown pl) = fs).
  { rewrite shown_frames. apply tag_has_owns in Th as (ps & O & <-). f_equal. apply held_list_of. rewrite <- Et. apply O. }
  split; [exact E|]. split; [now rewrite E|]. exists pl, rest. split; [exact T|reflexivity].
Qed.

Lemma untouched_get cs h a t ps es arg id : pointers h a t ps -> Forall sane (map snd ps) -> Forall kind_ok (map snd ps) ->
  0 <= th_tag_size (t_header t) < 2 ^ 32 -> Forall2 means cs es -> all_allowed es (map snd ps) = true ->
  points_to arg id -> length id = 4%nat -> (forall e, In e es -> same_id (edit_id e) id = false) ->
  exists h' t' ps', run_calls_h (Some a) cs h = Ok h' /\ pointers h' a t' ps' /\ map snd ps' = apply_edits es (map snd ps)
    /\ filter (fun p => named id (snd p)) ps' = filter (fun p => named id (snd p)) ps
    /\ ID3v2_Tag_get_frame_h (Some a) arg h' = ID3v2_Tag_get_frame_h (Some a) arg h.
Proof.
  intros P S K R M A Pt L N. destruct (untouched cs h a t ps es P S K R M A) as (h' & t' & ps' & E & P' & M' & S' & F).
  exists h', t', ps'. split; [exact E|]. split; [exact P'|]. split; [exact M'|]. specialize (F id N). split; [exact F|].
  rewrite (get_in_pointers h a t ps arg id), (get_in_pointers h' a t' ps' arg id) by auto. now rewrite !find_filter, F.
Qed.
