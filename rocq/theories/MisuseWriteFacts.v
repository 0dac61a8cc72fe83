(** Writing a tag with any frames from the heap. *)
From Verif Require Import Spec TagFacts Heap HeapIO SpecHeap SpecHeapIO SpecMisuse HeapFacts HeapFrameFacts HeapListFacts HeapTagFacts HeapReadFacts HeapWriteFacts MisuseEditFacts.
From Coq Require Import Lia.

Lemma fares_agrees {A B} (R : A -> B -> Prop) o o' : agrees R o o' -> fares R o o'.
Proof. destruct o; cbn [agrees fares]; auto; intros ->; discriminate. Qed.

Lemma fares_bind {A B A' B'} (R : A -> A' -> Prop) (Q : B -> B' -> Prop) o o' k k' :
  fares R o o' -> (forall a a', R a a' -> fares Q (k a) (k' a')) -> fares Q (bind o k) (bind o' k').
Proof.
  destruct o; cbn [fares bind].
  - intros (b & -> & H) K. apply K, H.
  - intros N _ b E. destruct o'; try discriminate E. now apply (N a).
  - intros N _ b E. destruct o'; try discriminate E. now apply (N a).
  - intros N _ b E. destruct o'; try discriminate E. now apply (N a).
Qed.

Lemma fares_step {A B A' B'} (R : A -> A' -> Prop) (Q : B -> B' -> Prop) o o' k k' :
  agrees R o o' -> (forall a a', R a a' -> fares Q (k a) (k' a')) -> fares Q (bind o k) (bind o' k').
Proof. intros H. apply fares_bind. now apply fares_agrees. Qed.

Lemma fares_same {A B B'} (Q : B -> B' -> Prop) (o : outcome A) k k' :
  (forall a, o = Ok a -> fares Q (k a) (k' a)) -> fares Q (bind o k) (bind o k').
Proof. destruct o; cbn [fares bind]; auto; discriminate. Qed.

Lemma fares_weaken {A B} (R Q : A -> B -> Prop) o o' : fares R o o' -> (forall a b, R a b -> Q a b) -> fares Q o o'.
Proof. destruct o; cbn [fares]; auto. intros (b & E & H) W. exists b. auto. Qed.

Lemma fares_tail {A B C} (R : A -> B -> Prop) (Q : A -> C -> Prop) o o' k :
  fares R o o' -> (forall a b, R a b -> agrees Q (Ok a) (k b)) -> fares Q o (bind o' k).
Proof.
  intros H K. destruct o; cbn [fares] in *.
  - destruct H as (b & -> & H). apply (K _ _ H).
  - intros b E. destruct o'; try discriminate E. now apply (H a).
  - intros b E. destruct o'; try discriminate E. now apply (H a).
  - intros b E. destruct o'; try discriminate E. now apply (H a).
Qed.

(** ** A frame *)

Lemma kind_cases f : kind_ok f \/ misfiled f \/ (match fh_id (f_hdr f) with Some _ :: _ => False | _ => True end).
Proof.
  unfold kind_ok, misfiled. destruct (fh_id (f_hdr f)) as [|[c|] r]; auto.
  destruct (stands_for c (f_data f)) eqn:St; [left|right; left; eauto]. exists c, r. split; [reflexivity|].
  unfold stands_for, known in St. destruct (f_data f); try (now apply beq_true in St).
  apply negb_true_iff, orb_false_elim in St as (St & Sa). apply orb_false_elim in St as (St & Sc).
  repeat split; intros ->; discriminate.
Qed.

Ltac wrong H' I := cbn [bind fst snd]; unfold text_data, comment_data, apic_data, load_bytes;
  erewrite (load_frame_is _ _ _ _ _ H') by in_frame I; cbn [bind];
  erewrite (load_is _ _ _ _ H') by in_frame I; discriminate.

Lemma not_ok {A B} (o : outcome A) (k : A -> outcome B) : (forall a, o = Ok a -> forall b, k a <> Ok b) -> forall b, bind o k <> Ok b.
Proof. intros H b E. destruct o; try discriminate E. exact (H a eq_refl b E). Qed.

Lemma misfiled_stream_h h m l f : heap_is h m -> incl (frame_blocks l f) m -> misfiled f ->
  forall r, Frame_to_char_stream_h (Some (l_self l)) h <> Ok r.
Proof.
  intros H I (x & rr & Ei & St). unfold Frame_to_char_stream_h.
  rewrite (header_of_is _ _ _ _ H I). cbn [bind].
  unfold FrameHeader_isTextFrame, FrameHeader_isCommentFrame, FrameHeader_isApicFrame.
  rewrite !(id0 _ _ _ _ Ei). cbn [bind]. unfold stands_for, known in St.
  assert (Sm := start_stream_is _ _ _ _ H I).
  destruct f as [hd fd]. cbn [f_hdr f_data] in *.
  destruct (beq x "T") eqn:Bt; [|destruct (beq x "C") eqn:Bc; [|destruct (beq x "A") eqn:Ba]].
  - intros r E. binv E. unfold TextFrame_to_char_stream_h in E0.
    destruct (start_frame_stream hd) as [s| | |]; cbn [agrees] in Sm; [|rewrite Sm in E0; discriminate E0..].
    destruct Sm as ((c & h1) & Em & st & H1). rewrite Em in E0. cbn [bind fst snd] in *. revert E0.
    destruct fd as [d|d|d|d]; [discriminate St|wrong H1 I..].
  - intros r E. binv E. unfold CommentFrame_to_char_stream_h in E0.
    destruct (start_frame_stream hd) as [s| | |]; cbn [agrees] in Sm; [|rewrite Sm in E0; discriminate E0..].
    destruct Sm as ((c & h1) & Em & st & H1). rewrite Em in E0. cbn [bind fst snd] in *. revert E0.
    apply beq_true in Bc. subst x. destruct fd as [d|d|d|d]; [wrong H1 I|discriminate St|wrong H1 I..].
  - intros r E. binv E. unfold ApicFrame_to_char_stream_h in E0.
    destruct (start_frame_stream hd) as [s| | |]; cbn [agrees] in Sm; [|rewrite Sm in E0; discriminate E0..].
    destruct Sm as ((c & h1) & Em & st & H1). rewrite Em in E0. cbn [bind fst snd] in *. revert E0.
    apply beq_true in Ba. subst x. destruct fd as [d|d|d|d]; [wrong H1 I|wrong H1 I|discriminate St|wrong H1 I].
  - apply not_ok. intros n _. unfold CharStream_write_h.
    assert (N := new_stream_is n h m H). destruct (CharStream_new n) as [s| | |]; cbn [agrees] in N; [|rewrite N; discriminate..].
    destruct N as ((c & h1) & -> & st & H1). cbn [bind fst snd] in *.
    erewrite (load_frame_is _ _ _ _ _ H1) by in_frame I. cbn [bind].
    assert (N := header_stream_is h1 _ (l_header l) hd H1 ltac:(in_frame I)).
    destruct (FrameHeader_to_char_stream hd) as [hs| | |]; cbn [agrees] in N; [|rewrite N; discriminate..].
    destruct N as ((hc & h2) & -> & hst & H2). cbn [bind fst snd] in *.
    rewrite (load_stream_is _ _ _ _ _ H2). cbn [bind].
    assert (H3 : heap_is h2 (stream_blocks c st s ++ stream_blocks hc hst hs ++ m)) by (eapply heap_perm; [exact H2|perm]).
    match goal with |- forall b, bind (move ?p ?f h2) _ <> _ => assert (N := move_is f _ _ _ _ _ H3); destruct (f s) as [s3| | |]; cbn [agrees] in N end;
      [|rewrite N; discriminate..].
    destruct N as (h4 & -> & H4). unfold stream_is in H4. cbn [bind].
    erewrite (load_frame_is _ _ _ _ _ H4) by (apply in_or_app; right; in_frame I). cbn [bind]. unfold load_bytes.
    destruct fd as [d|d|d|d]; [| | |discriminate St];
      (erewrite (load_is _ _ _ _ H4) by (apply in_or_app; right; in_frame I); discriminate).
Qed.

Lemma frame_stream_any h m l f : heap_is h m -> incl (frame_blocks l f) m ->
  fares (framed f m) (Frame_to_char_stream (Some f)) (Frame_to_char_stream_h (Some (l_self l)) h).
Proof.
  intros H I. destruct (kind_cases f) as [K|[M|O]].
  - apply fares_agrees. now apply frame_stream_is.
  - rewrite misfiled_stream by exact M. cbn [fares]. now apply (misfiled_stream_h h m l f).
  - apply fares_agrees. unfold Frame_to_char_stream, Frame_to_char_stream_h. rewrite (header_of_is _ _ _ _ H I). cbn [bind].
    unfold FrameHeader_isTextFrame, id0_is. destruct (fh_id (f_hdr f)) as [|[c|] r]; [reflexivity|destruct O|reflexivity].
Qed.

(** ** The tag *)

Lemma write_frames_any head c st m : forall pl fuel h s,
  heap_is h (stream_blocks c st s ++ m) -> incl (node_blocks head pl) m -> incl (all_frame_blocks pl) m ->
  (length pl < fuel)%nat ->
  fares (written c st (list_leak (map p_node pl)) m) (write_frames s (map p_node pl))
    (write_frames_h fuel (Some c) (first_addr pl) h).
Proof.
  intros pl. revert m. induction pl as [|p pl IH]; intros m fuel h s H In1 In2 L; (destruct fuel as [|fuel]; [cbn [length] in L; lia|]).
  - cbn [map write_frames write_frames_h first_addr]. apply fares_agrees, agrees_ok. exists []. auto.
  - cbn [map write_frames write_frames_h first_addr].
    assert (Ip : In (p_addr p, BNode (p_frame p) (if n_start (p_node p) then Some head else None) (first_addr pl)) m)
      by (apply In1; cbn [node_blocks]; now left).
    rewrite (load_node_is _ _ _ _ _ _ H (in_or_app _ _ _ (or_intror Ip))). cbn [bind].
    rewrite leak_cons. unfold n_leak, p_frame.
    destruct (n_frame (p_node p)) as [e|] eqn:Fp; cbn [option_map].
    2:{ cbn. discriminate. }
    assert (Ie : incl (frame_blocks (p_lay p) (fp_frame e)) m).
    { intros x Ix. apply In2. rewrite frames_cons. apply in_or_app. left. unfold p_frame_blocks. now rewrite Fp. }
    eapply fares_bind; [apply (frame_stream_any _ _ _ _ H); apply incl_appr, Ie|].
    intros v [q h1] (fs & fc & fst' & lost & -> & Eq & H1 & Ll). cbn [fst snd] in *. subst q.
    rewrite (load_stream_is _ _ _ _ _ H1). cbn [bind]. unfold CharStream_write_h.
    assert (H2 : heap_is h1 (stream_blocks c st s ++ stream_blocks fc fst' fs ++ lost ++ m)) by (eapply heap_perm; [exact H1|perm]).
    eapply fares_step; [exact (move_is _ _ _ _ _ _ H2)|]. intros s0 h0 H0. unfold stream_is in H0.
    destruct (close_is h0 fc fst' fs (stream_blocks c st s0 ++ lost ++ m)) as (h3 & -> & H3).
    { eapply heap_perm; [exact H0|]. perm. }
    cbn [bind].
    rewrite (load_node_is _ _ _ _ _ _ H3 (in_or_app _ _ _ (or_intror (in_or_app _ _ _ (or_intror Ip))))). cbn [bind].
    eapply fares_weaken.
    + apply (IH (lost ++ m)); [exact H3| | |cbn [length] in L; lia].
      * apply incl_appr. intros x Ix. apply In1. cbn [node_blocks]. now right.
      * apply incl_appr. intros x Ix. apply In2. rewrite frames_cons. apply in_or_app. now right.
    + intros s' h' (lost' & H' & L'). exists (lost' ++ lost). rewrite <- app_assoc. split; [exact H'|]. rewrite app_length. lia.
Qed.

Ltac wra H :=
  let s := fresh "s" in let h := fresh "h" in let H' := fresh "H" in
  eapply fares_step; [exact (move_is _ _ _ _ _ _ H)|];
  intros s h H'; unfold stream_is in H'; clear H; rename H' into H.

Lemma tag_stream_any h a ah head t pl R : rep h a ah head t pl R ->
  fares (fun s r => exists st, written (fst r) st (match t_frames t with n :: _ => match n_frame n with Some _ => list_leak (t_frames t) | None => 0 end | [] => 0 end)
                       (tag_blocks a ah head t pl ++ R) s (snd r))
    (Tag_to_char_stream t) (Tag_to_char_stream_h (Some a) h).
Proof.
  intros Rp. set (B := tag_blocks a ah head t pl ++ R).
  assert (H : heap_is h B) by exact (proj1 Rp).
  unfold Tag_to_char_stream, Tag_to_char_stream_h, CharStream_write_h.
  rewrite (rep_header _ _ _ _ _ _ _ Rp). cbn [bind].
  eapply fares_step; [apply new_stream_is, H|]. intros s [c h1] (st & H1). cbn [fst snd] in H1.
  assert (Rp' : forall h s, heap_is h (stream_blocks c st s ++ B) -> rep h a ah head t pl (stream_blocks c st s ++ R)).
  { intros h' s' H'. eapply rep_swap; [exact Rp|]. eapply heap_perm; [exact H'|]. unfold B. perm. }
  assert (Ld : forall h s, heap_is h (stream_blocks c st s ++ B) -> tag_header_of (Some a) h = Ok (t_header t)).
  { intros h' s' H'. exact (rep_header _ _ _ _ _ _ _ (Rp' _ _ H')). }
  do 4 (rewrite (Ld _ _ H1); cbn [bind]; wra H1).
  rewrite (Ld _ _ H1). cbn [bind]. apply fares_same. intros enc _.
  eapply fares_step; [apply write_int_is, H1|]. intros s5 h6 H6. unfold stream_is in H6.
  pose proof (Rp' _ _ H6) as R6. rewrite (rep_frames _ _ _ _ _ _ _ R6). cbn [bind].
  destruct R6 as (_ & Et & Fh & _). rewrite Et. destruct pl as [|p pl]; [discriminate Fh|]. injection Fh as <-.
  assert (Ip : In (p_addr p, BNode (p_frame p) (if n_start (p_node p) then Some (p_addr p) else None) (first_addr pl)) B).
  { unfold B, tag_blocks. cbn [node_blocks app]. is_in. }
  rewrite (load_node_is _ _ _ _ _ _ H6 (in_or_app _ _ _ (or_intror Ip))). cbn [bind deref map].
  unfold p_frame. destruct (n_frame (p_node p)) as [e|] eqn:Fp.
  2:{ apply fares_agrees, agrees_ok. exists st, []. auto. }
  eapply fares_tail.
  - apply (write_frames_any (p_addr p) c st B (p :: pl)); [exact H6| | |].
    + unfold B, tag_blocks. apply incl_appl, incl_appr, incl_appl, incl_refl.
    + unfold B, tag_blocks. apply incl_appl, incl_appr, incl_appr, incl_refl.
    + apply (enough_for h6 (p_addr p) (p :: pl) (stream_blocks c st s5 ++
        [(a, BTag (Some ah) (Some (p_addr p)) (t_padding t)); (ah, BTagHeader (t_header t))] ++ all_frame_blocks (p :: pl) ++ R)).
      eapply heap_perm; [exact H6|]. unfold B, tag_blocks. perm.
  - intros s' h' W. apply agrees_ok. exists st. exact W.
Qed.

(** ** Files *)

Lemma write_tag_any h a t pl rest f : tag_laid h a t pl rest ->
  fares (stored a pl (written_leak (t_frames t)) rest) (ID3v2_write_tag_states f (Some t)) (ID3v2_write_tag_h f (Some a) h).
Proof.
  intros (ah & head & Rp). unfold ID3v2_write_tag_states, ID3v2_write_tag_h.
  eapply fares_step; [exact (read_header_is h _ f (proj1 Rp))|]. intros ho [q h1] (b & E & H1). cbn [fst snd] in *. subst q.
  assert (Hd : (match hdr_ptr ho b with
                | Some _ => let* hd := load_tag_header (hdr_ptr ho b) h1 in Ok (declared_length hd)
                | None => Ok 0 end) = Ok (match ho with Some h => declared_length h | None => 0 end)
               /\ exists h2, free (hdr_ptr ho b) h1 = Ok h2 /\ heap_is h2 (tag_blocks a ah head t pl ++ rest)).
  { destruct ho as [hd|]; cbn [hdr_ptr th_blocks app] in *.
    - ld H1. split; [reflexivity|]. destruct (free_is _ _ _ _ H1) as (h2 & E2 & H2 & _). eauto.
    - split; [reflexivity|]. exists h1. split; [reflexivity|exact H1]. }
  destruct Hd as (-> & h2 & E2 & H2). cbn [bind]. rewrite E2. cbn [bind]. cbv zeta.
  assert (Lt : load_tag_block (Some a) h2 = Ok (Some ah, Some head, t_padding t)).
  { unfold tag_blocks in H2. cbn [app] in H2. now ld H2. }
  rewrite Lt. cbn [bind]. apply fares_same. intros d _. apply fares_same. intros pad _.
  unfold set_padding. rewrite Lt. cbn [bind].
  set (t' := mkTag (t_header t) (t_frames t) pad (t_fresh t)).
  destruct (store_is h2 ((ah, BTagHeader (t_header t)) :: (node_blocks head pl ++ all_frame_blocks pl) ++ rest) a
             (BTag (Some ah) (Some head) (t_padding t)) (BTag (Some ah) (Some head) pad)) as (h3 & -> & H3 & _).
  { exact H2. }
  cbn [bind].
  assert (R3 : rep h3 a ah head t' pl rest) by (split; [exact H3|exact (proj2 Rp)]).
  pose proof (tag_stream_any h3 a ah head t' pl rest R3) as A.
  pose proof (tag_stream_visible t') as V.
  destruct (Tag_to_char_stream t') as [s| | |]; cbn [fares bind] in *; try (apply not_ok; intros r Er; destruct (A r Er)).
  destruct A as ([c h4] & -> & st & lost & H4 & L4). rewrite (V s eq_refl) in L4. cbn [fst snd bind] in *.
  rewrite (load_stream_is _ _ _ _ _ H4). cbn [bind]. apply fares_same. intros temp _.
  destruct f as [content|]; [|discriminate].
  destruct (close_is _ _ _ _ _ H4) as (h5 & -> & H5). cbn [bind]. apply fares_agrees, agrees_ok. split; [reflexivity|]. cbn [fst snd].
  exists t', lost. split; [reflexivity|]. split; [|exact L4].
  exists ah, head. split; [|exact (proj2 Rp)]. eapply heap_perm; [exact H5|]. perm.
Qed.
