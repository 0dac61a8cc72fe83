(** The same for the functions with loops, given enough rounds. *)
From Verif Require Import BaseFacts HeapFacts SpecShared SharedFacts SharedRunFacts SharedSameFacts.
From Coq Require Import Lia.

Definition like {A} (P : nat -> prog A) (F : heap -> outcome (A * heap)) : Prop :=
  forall h, F h <> NoFuel -> exists n0, forall n, (n0 <= n)%nat -> run (P n) h = F h.

Lemma like_eq {A} (p : prog A) F : (forall h, run p h = F h) -> like (fun _ => p) F.
Proof. intros E h _. exists O. auto. Qed.

Lemma like_bind {A B} (P : nat -> prog A) (F : heap -> outcome (A * heap)) (Q : nat -> A -> prog B) (G : A -> heap -> outcome (B * heap)) :
  like P F -> (forall a, like (fun n => Q n a) (G a)) ->
  like (fun n => bindp (P n) (Q n)) (fun h => let* (a, h) := F h in G a h).
Proof.
  intros HP HQ h N. destruct (HP h) as (n1 & E1).
  { intros E. rewrite E in N. now apply N. }
  destruct (F h) as [[a h1]| | |] eqn:EF.
  - destruct (HQ a h1 N) as (n2 & E2). exists (Nat.max n1 n2). intros n L. rewrite run_bind, E1 by lia. cbn [bind]. apply E2. lia.
  - exists n1. intros m L. now rewrite run_bind, E1.
  - exists n1. intros m L. now rewrite run_bind, E1.
  - exists n1. intros m L. now rewrite run_bind, E1.
Qed.

Lemma like_ext {A} (P : nat -> prog A) F G : (forall h, F h = G h) -> like P F -> like P G.
Proof. intros E H h N. rewrite <- E in N. destruct (H h N) as (n0 & H0). exists n0. intros n L. rewrite <- E. auto. Qed.

(** Unless the function runs out of fuel. *)
Lemma bind_nofuel {A B} (o : outcome A) (f : A -> outcome B) : (let* a := o in f a) <> NoFuel -> o <> NoFuel.
Proof. intros N E. rewrite E in N. now apply N. Qed.

Lemma s_set_next p f s n q h : load_node p h = Ok (f, s, n) -> run (set_ptr p NodeNext q) h = only (store p (BNode f s q) h).
Proof. intros E. apply load_node_block in E. unfold set_ptr. now rewrite (s_set p NodeNext (VPtr q) _ (BNode f s q) _ E eq_refl). Qed.
Lemma s_set_frame p f s n q h : load_node p h = Ok (f, s, n) -> run (set_ptr p NodeFrame q) h = only (store p (BNode q s n) h).
Proof. intros E. apply load_node_block in E. unfold set_ptr. now rewrite (s_set p NodeFrame (VPtr q) _ (BNode q s n) _ E eq_refl). Qed.
Lemma s_set_start p f s n q h : load_node p h = Ok (f, s, n) -> run (set_ptr p NodeStart q) h = only (store p (BNode f q n) h).
Proof. intros E. apply load_node_block in E. unfold set_ptr. now rewrite (s_set p NodeStart (VPtr q) _ (BNode f q n) _ E eq_refl). Qed.

Lemma last_node_is_node : forall fuel p h q, last_node fuel p h = Ok q -> exists f s, load_node q h = Ok (f, s, None).
Proof.
  induction fuel as [|fuel IH]; intros p h q E; [discriminate E|]. cbn [last_node] in E.
  destruct (load_node p h) as [[[f s] nx]| | |] eqn:Ep; try discriminate E. cbn [bind] in E.
  destruct nx; [eauto|]. injection E as <-. eauto.
Qed.

Lemma l_add_frame list frame : like (fun n => FrameList_add_frame_p n list frame) (fun h => only (FrameList_add_frame_h list frame h)).
Proof.
  intros h N. unfold only in N. apply bind_nofuel in N. unfold FrameList_add_frame_h in *.
  destruct (load_node list h) as [[[f0 st] nx]| | |] eqn:E0.
  2-4: exists O; intros m _; unfold FrameList_add_frame_p; rewrite run_bind; reads1; rewrite E0; reflexivity.
  cbn [bind] in *. destruct st as [b|].
  - unfold FrameList_new_h in *. cbn [malloc] in *. set (h1 := mkHeap _ _) in *. set (c := Some (next h)) in *.
    assert (E1 : load_node c h1 = Ok (None, None, None)) by (apply load_node_block; unfold load; cbn; now rewrite Nat.eqb_refl).
    destruct (load_node list h1) as [[[f1 st1] nx1]| | |] eqn:EL.
    2-4: exfalso; apply load_node_block in E0; destruct list as [a|]; [|discriminate E0]; unfold load_node, load in EL; cbn in EL;
         unfold load in E0; cbn in E0; destruct (Nat.eqb (next h) a); [discriminate EL|]; destruct (lookup a (live h)) as [x|]; [|discriminate E0];
         injection E0 as ->; discriminate EL.
    cbn [bind] in *. pose proof (proj1 (load_node_block _ _ _ _ _) E1) as B1.
    destruct (store_ok c _ (BNode frame st1 None) h1 B1) as (h2 & E2). rewrite E2 in *. cbn [bind] in *.
    destruct (store_ok c _ (BNode frame None None) h1 B1) as (h1' & E1').
    assert (EL' : exists f n, load_node list h1' = Ok (f, st1, n)).
    { assert (D : list = c \/ list <> c) by (unfold c; destruct list as [a|]; [destruct (Nat.eq_dec a (next h)); [left|right]|right]; congruence).
      destruct D as [D|D].
      - rewrite D in *. rewrite E1 in EL. injection EL as <- <- <-. exists frame, None. apply load_node_block. exact (load_after _ _ _ _ _ B1 E1').
      - exists f1, nx1. apply load_node_block. rewrite (load_store_other _ _ _ _ _ E1' D). now apply load_node_block. }
    destruct EL' as (f' & n' & EL').
    pose proof (proj2 (load_node_block _ _ _ _ _) (load_after _ _ _ _ _ B1 E1')) as B1'.
    assert (E2' : store c (BNode frame st1 None) h1' = Ok h2) by (rewrite (store_twice _ _ _ _ _ _ B1 E1'); exact E2).
    pose proof (bind_nofuel _ _ N) as Nl. exists (enough h2). intros n L. unfold FrameList_add_frame_p.
    rewrite run_bind. reads1. rewrite E0. unfold keeping. cbn [bind]. rewrite run_bind. unfold FrameList_new_p. reads1. cbn [bind malloc].
    fold h1. fold c. rewrite run_bind, (s_set_frame _ _ _ _ _ _ E1), E1'. unfold only at 1. cbn [bind].
    rewrite run_bind. reads1. rewrite EL'. unfold keeping. cbn [bind].
    rewrite run_bind, (s_set_start _ _ _ _ _ _ B1'), E2'. unfold only at 1. cbn [bind].
    rewrite run_bind, (s_last_node _ _ _ Nl _ L). unfold keeping. destruct (last_node (enough h2) list h2) as [q| | |] eqn:Q; try reflexivity.
    cbn [bind]. destruct (last_node_is_node _ _ _ _ Q) as (f & s & Eq). rewrite (s_set_next _ _ _ _ _ _ Eq), Eq. reflexivity.
  - exists O. intros n _. unfold FrameList_add_frame_p. rewrite run_bind. reads1. rewrite E0. unfold keeping. cbn [bind].
    rewrite run_bind, (s_set_start _ _ _ _ _ _ E0). pose proof (proj1 (load_node_block _ _ _ _ _) E0) as B0.
    destruct (store_ok list _ (BNode f0 list nx) h B0) as (h1 & E1). rewrite E1. unfold only at 1. cbn [bind].
    pose proof (load_after _ _ _ _ _ B0 E1) as B1. rewrite (s_set_frame list f0 list nx frame h1 (proj2 (load_node_block _ _ _ _ _) B1)).
    now rewrite (store_twice _ _ _ _ _ _ B0 E1).
Qed.

Lemma s_get_frames_loop id sub : forall fuel p h, get_frames_loop_h fuel p id sub h <> NoFuel ->
  exists n0, forall n, (n0 <= n)%nat -> forall m, (fuel <= m)%nat ->
    run (get_frames_loop_p n m p id sub) h = only (get_frames_loop_h fuel p id sub h).
Proof.
  induction fuel as [|fuel IH]; intros p h N; [now destruct N|].
  cbn [get_frames_loop_h] in *. destruct p as [a|].
  2: { exists O. intros n _ [|m] L; [lia|]. reflexivity. }
  destruct (load_node (Some a) h) as [[[f s] nx]| | |] eqn:E.
  2-4: exists O; intros k _ [|m] L; [lia|]; cbn [get_frames_loop_p]; rewrite run_bind; reads1; rewrite E; reflexivity.
  cbn [bind] in *. destruct f as [b|].
  2: { exists O. intros n _ [|m] L; [lia|]. cbn [get_frames_loop_p]. rewrite run_bind. reads1. rewrite E. reflexivity. }
  assert (M' : forall n m, run (get_frames_loop_p n (S m) (Some a) id sub) h
     = let* x := id_matches_h (Some b) id h in
       run (do! _ := if x then do! f := look_ptr (Some a) NodeFrame in FrameList_add_frame_p n sub f else retp tt in
            do! nx := look_ptr (Some a) NodeNext in get_frames_loop_p n m nx id sub) h).
  { intros n m. cbn [get_frames_loop_p]. rewrite run_bind. reads1. rewrite E. unfold keeping. cbn [bind]. rewrite run_bind, (s_id_matches _ (Some b)) by eauto.
    unfold keeping. now destruct (id_matches_h (Some b) id h). }
  destruct (id_matches_h (Some b) id h) as [x| | |].
  2-4: exists O; intros k _ [|m] L; [lia|]; rewrite M'; reflexivity.
  cbn [bind] in *. destruct x.
  - pose proof (bind_nofuel _ _ N) as N1. destruct (l_add_frame sub (Some b) h) as (n1 & A1).
    { unfold only. destruct (FrameList_add_frame_h sub (Some b) h); try discriminate. now destruct N1. }
    assert (A2 : forall n, (n1 <= n)%nat -> run (do! f := look_ptr (Some a) NodeFrame in FrameList_add_frame_p n sub f) h = only (FrameList_add_frame_h sub (Some b) h)).
    { intros n L. rewrite run_bind. reads1. rewrite E. unfold keeping. cbn [bind]. auto. }
    destruct (FrameList_add_frame_h sub (Some b) h) as [h1| | |].
    2-4: exists n1; intros k Lk [|m] L; [lia|]; rewrite M', run_bind, A2 by lia; reflexivity.
    cbn [bind] in *. destruct (load_node (Some a) h1) as [[[f' s'] nx']| | |] eqn:E1.
    2-4: exists n1; intros k Lk [|m] L; [lia|]; rewrite M', run_bind, A2 by lia; unfold only; cbn [bind]; rewrite run_bind; reads1; rewrite E1; reflexivity.
    cbn [bind] in *. destruct (IH nx' h1 N) as (n2 & A3). exists (Nat.max n1 n2). intros n Ln [|m] L; [lia|].
    rewrite M', run_bind, A2 by lia. unfold only at 1. cbn [bind]. rewrite run_bind. reads1. rewrite E1. unfold keeping. cbn [bind]. apply A3; lia.
  - cbn [bind] in *. rewrite E in N |- *. cbn [bind] in *. destruct (IH nx h N) as (n2 & A3). exists n2. intros n Ln [|m] L; [lia|].
    rewrite M', run_bind, s_ret. cbn [bind]. rewrite run_bind. reads1. rewrite E. unfold keeping. cbn [bind]. apply A3; lia.
Qed.

Lemma only_nofuel o : only o <> NoFuel -> o <> NoFuel.
Proof. apply bind_nofuel. Qed.
Lemma keeping_nofuel {A} h (o : outcome A) : keeping h o <> NoFuel -> o <> NoFuel.
Proof. apply bind_nofuel. Qed.

Lemma l_get_frames list id : like (fun n => FrameList_get_frames_by_id_p n list id) (FrameList_get_frames_by_id_h list id).
Proof.
  intros h N. unfold FrameList_get_frames_by_id_h, FrameList_get_frames_by_id_p in *.
  destruct (FrameList_new_h h) as [sub h1] eqn:E1. destruct (s_get_frames_loop id (Some sub) _ _ _ (bind_nofuel _ _ N)) as (n0 & A).
  exists (Nat.max n0 (enough h1)). intros n L. rewrite run_bind. unfold FrameList_new_p. reads1.
  unfold FrameList_new_h in E1. rewrite E1. cbn [bind]. rewrite run_bind, A by lia. unfold only.
  destruct (get_frames_loop_h (enough h1) list id (Some sub) h1); reflexivity.
Qed.

Lemma l_get_frame_list list id : like (fun n => get_frame_by_id_p n list id) (fun h => keeping h (FrameList_get_frame_by_id_h list id h)).
Proof. intros h N. exists (enough h). intros n L. apply s_get_frame; [apply (keeping_nofuel _ _ N)|exact L]. Qed.
Lemma l_remove_by_id list id : like (fun n => remove_by_id_p n list id) (FrameList_remove_frame_by_id_h list id).
Proof. intros h N. exists (enough h). intros n L. now apply s_remove_by_id. Qed.
Lemma l_remove_frame list q : like (fun n => remove_frame_p n list q) (FrameList_remove_frame_h list q).
Proof. intros h N. exists (enough h). intros n L. now apply s_remove_frame. Qed.
Lemma l_replace_frame list q r : like (fun n => replace_frame_p n list q r) (fun h => only (FrameList_replace_frame_h list q r h)).
Proof. intros h N. exists (enough h). intros n L. apply s_replace_frame; [now apply only_nofuel|exact L]. Qed.
Lemma l_unlink list : like (fun n => unlink_p n list) (fun h => only (ID3v2_FrameList_unlink list h)).
Proof. intros h N. exists (enough h). intros n L. apply s_unlink; [now apply only_nofuel|exact L]. Qed.
Lemma l_free_list list : like (fun n => free_list_p n list) (fun h => only (ID3v2_FrameList_free list h)).
Proof. intros h N. exists (enough h). intros n L. apply s_free_list; [now apply only_nofuel|exact L]. Qed.

(** ** Tags *)

Lemma l_frames tag : like (fun _ => look_ptr tag TagFrames) (fun h => keeping h (frames_of tag h)).
Proof. apply like_eq. intros h. apply s_tag_frames. Qed.
Lemma l_ret {A} (a : A) : like (fun _ => retp a) (fun h => Ok (a, h)).
Proof. now apply like_eq. Qed.
Lemma l_stop {A} (o : outcome A) : like (fun _ => Stop o) (fun h => keeping h o).
Proof. now apply like_eq. Qed.
Lemma l_size_of p : like (fun _ => size_of p) (fun h => keeping h (let* hd := header_of p h in Ok (fh_size hd))).
Proof. apply like_eq. intros h. apply s_size_of. Qed.
Lemma l_grow tag d : like (fun _ => grow_p tag d) (fun h => only (grow tag d h)).
Proof. apply like_eq. intros h. apply s_grow. Qed.
Lemma l_Frame_free p : like (fun _ => ID3v2_Frame_free_p p) (fun h => only (ID3v2_Frame_free p h)).
Proof. apply like_eq. intros h. apply s_Frame_free. Qed.
Lemma l_drop p : like (fun _ => drop p) (fun h => only (free p h)).
Proof. apply like_eq. intros h. apply s_drop. Qed.
Lemma l_TextFrame_new id flags text : like (fun _ => TextFrame_new_p id flags text) (TextFrame_new_h id flags text).
Proof. apply like_eq. intros h. apply s_TextFrame_new. Qed.
Lemma l_CommentFrame_new a b c d : like (fun _ => CommentFrame_new_p a b c d) (CommentFrame_new_h a b c d).
Proof. apply like_eq. intros h. apply s_CommentFrame_new. Qed.
Lemma l_ApicFrame_new a b c d e f : like (fun _ => ApicFrame_new_p a b c d e f) (ApicFrame_new_h a b c d e f).
Proof. apply like_eq. intros h. apply s_ApicFrame_new. Qed.

Ltac likes := repeat first
  [ eapply l_frames | eapply l_ret | eapply l_stop | eapply l_size_of | eapply l_grow | eapply l_Frame_free | eapply l_drop
  | eapply l_TextFrame_new | eapply l_CommentFrame_new | eapply l_ApicFrame_new
  | eapply l_add_frame | eapply l_get_frames | eapply l_get_frame_list | eapply l_remove_by_id | eapply l_remove_frame
  | eapply l_replace_frame | eapply l_unlink | eapply l_free_list
  | eapply like_bind; [|intros ?] ].
(** Both sides are the same functions, bound together in the same order. *)
Ltac thesame := repeat (rewrite ?bind_assoc; cbn [bind]; match goal with
  | |- bind ?o _ = bind ?o _ => apply bind_ext; intros ?; pairs
  | |- ?x = ?x => reflexivity
  | _ => unfold keeping, only end).

Lemma l_get tag id : like (fun n => ID3v2_Tag_get_frame_p n tag id) (fun h => keeping h (ID3v2_Tag_get_frame_h tag id h)).
Proof.
  destruct tag as [a|]; [|apply l_ret]. eapply like_ext; [|unfold ID3v2_Tag_get_frame_p; likes].
  intros h. cbn beta. unfold ID3v2_Tag_get_frame_h. thesame.
Qed.

Lemma l_get_all tag id : like (fun n => ID3v2_Tag_get_frames_p n tag id) (ID3v2_Tag_get_frames_h tag id).
Proof.
  destruct tag as [a|]; [|apply l_ret]. eapply like_ext; [|unfold ID3v2_Tag_get_frames_p; likes].
  intros h. cbn beta. unfold ID3v2_Tag_get_frames_h. thesame.
Qed.

Lemma l_install tag old new : like (fun n => install_frame_p n tag old new) (fun h => only (install_frame_h tag old new h)).
Proof.
  unfold install_frame_p, install_frame_h. destruct old as [a|].
  - eapply like_ext; [|likes]. intros h. cbn beta. thesame.
  - eapply like_ext; [|likes]. intros h. cbn beta. thesame.
Qed.

Ltac withinstall := eapply like_ext; [|repeat first
  [ eapply l_install | eapply l_frames | eapply l_TextFrame_new | eapply l_CommentFrame_new | eapply l_ApicFrame_new | eapply l_get_frame_list
  | eapply like_bind; [|intros ?] ] ]; intros h; cbn beta; thesame.

Lemma l_set_text tag i : like (fun n => ID3v2_Tag_set_text_frame_p n tag i) (fun h => only (ID3v2_Tag_set_text_frame_h tag i h)).
Proof. unfold ID3v2_Tag_set_text_frame_p, ID3v2_Tag_set_text_frame_h. withinstall. Qed.
Lemma l_set_comment tag i : like (fun n => ID3v2_Tag_set_comment_frame_p n tag i) (fun h => only (ID3v2_Tag_set_comment_frame_h tag i h)).
Proof. unfold ID3v2_Tag_set_comment_frame_p, ID3v2_Tag_set_comment_frame_h. withinstall. Qed.
Lemma l_add_comment tag i : like (fun n => ID3v2_Tag_add_comment_frame_p n tag i) (fun h => only (ID3v2_Tag_add_comment_frame_h tag i h)).
Proof. unfold ID3v2_Tag_add_comment_frame_p, ID3v2_Tag_add_comment_frame_h. withinstall. Qed.
Lemma l_set_apic tag i : like (fun n => ID3v2_Tag_set_apic_frame_p n tag i) (fun h => only (ID3v2_Tag_set_apic_frame_h tag i h)).
Proof. unfold ID3v2_Tag_set_apic_frame_p, ID3v2_Tag_set_apic_frame_h. withinstall. Qed.
Lemma l_add_apic tag i : like (fun n => ID3v2_Tag_add_apic_frame_p n tag i) (fun h => only (ID3v2_Tag_add_apic_frame_h tag i h)).
Proof. unfold ID3v2_Tag_add_apic_frame_p, ID3v2_Tag_add_apic_frame_h. withinstall. Qed.

Lemma l_delete tag id : like (fun n => ID3v2_Tag_delete_frame_p n tag id) (fun h => only (ID3v2_Tag_delete_frame_h tag id h)).
Proof.
  unfold ID3v2_Tag_delete_frame_p, ID3v2_Tag_delete_frame_h. eapply like_ext; [|likes]. intros h. cbn beta. thesame.
Qed.

Lemma l_Tag_free tag : like (fun n => ID3v2_Tag_free_p n tag) (fun h => only (ID3v2_Tag_free tag h)).
Proof.
  unfold ID3v2_Tag_free_p, ID3v2_Tag_free. eapply like_ext.
  2: { eapply like_bind; [apply like_eq; intros h; apply s_tag_head|intros hd]. likes. }
  intros h. cbn beta. unfold frames_of. thesame.
Qed.

Lemma s_delete_nth_loop tag idx : forall fuel p i h, delete_nth_loop_h fuel tag p i idx h <> NoFuel ->
  exists n0, forall n, (n0 <= n)%nat -> forall m, (fuel <= m)%nat ->
    run (delete_nth_loop_p n m tag p i idx) h = delete_nth_loop_h fuel tag p i idx h.
Proof.
  induction fuel as [|fuel IH]; intros p i h N; [now destruct N|].
  cbn [delete_nth_loop_h] in *. destruct p as [a|].
  2: { exists O. intros n _ [|m] L; [lia|]. reflexivity. }
  destruct (load_node (Some a) h) as [[[f s] nx]| | |] eqn:E.
  2-4: exists O; intros k _ [|m] L; [lia|]; cbn [delete_nth_loop_p]; rewrite run_bind; reads1; rewrite E; reflexivity.
  cbn [bind] in *. destruct (i =? idx) eqn:Ei.
  - assert (K : like (fun n => do! fr := look_ptr tag TagFrames in do! _ := remove_frame_p n fr f in do! _ := ID3v2_Frame_free_p f in retp (Some a))
       (fun h => let* fr := frames_of tag h in let* (_, h) := FrameList_remove_frame_h fr f h in let* h := ID3v2_Frame_free f h in Ok (Some a, h))).
    { eapply like_ext; [|likes]. intros h0. cbn beta. thesame. }
    destruct (K h N) as (n0 & A). exists n0. intros n L [|m] Lm; [lia|]. cbn [delete_nth_loop_p]. rewrite run_bind. reads1. rewrite E.
    unfold keeping. cbn [bind]. rewrite Ei. now apply A.
  - destruct (IH nx (i + 1) h N) as (n0 & A). exists n0. intros n L [|m] Lm; [lia|]. cbn [delete_nth_loop_p]. rewrite run_bind. reads1. rewrite E.
    unfold keeping. cbn [bind]. rewrite Ei, run_bind. reads1. rewrite E. unfold keeping. cbn [bind]. apply A; lia.
Qed.

Lemma l_delete_nth_loop tag p i idx : like (fun n => delete_nth_loop_p n n tag p i idx) (fun h => delete_nth_loop_h (enough h) tag p i idx h).
Proof.
  intros h N. destruct (s_delete_nth_loop _ _ _ _ _ _ N) as (n0 & A). exists (Nat.max n0 (enough h)). intros n L. apply A; lia.
Qed.

Lemma l_delete_nth tag id idx : like (fun n => delete_nth_frame_p n tag id idx) (fun h => only (delete_nth_frame_h tag id idx h)).
Proof.
  unfold delete_nth_frame_p, delete_nth_frame_h. eapply like_ext.
  2: { eapply like_bind; [apply l_frames|intros fr]. eapply like_bind; [apply l_get_frames|intros head].
       eapply like_bind; [apply l_delete_nth_loop|intros head']. apply l_unlink. }
  intros h. cbn beta. thesame.
Qed.

Lemma l_run_call tag c : like (fun n => run_call_p n tag c) (fun h => only (run_call_h tag c h)).
Proof.
  destruct c; unfold run_call_p, run_call_h;
    first [apply l_set_text|apply l_set_comment|apply l_add_comment|apply l_set_apic|apply l_add_apic|apply l_delete|apply l_delete_nth].
Qed.
