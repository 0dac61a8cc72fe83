(** Writing a tag from the heap. *)
From Verif Require Import Spec TagFacts Heap HeapIO SpecHeap SpecHeapIO HeapFacts HeapFrameFacts HeapListFacts HeapTagFacts HeapReadFacts.
From Coq Require Import Lia.

Lemma agrees_tail {A B C} (R : A -> B -> Prop) (Q : A -> C -> Prop) o o' k :
  agrees R o o' -> (forall a b, R a b -> agrees Q (Ok a) (k b)) -> agrees Q o (bind o' k).
Proof.
  intros H K. destruct o; cbn [agrees] in H; try (rewrite H; reflexivity).
  destruct H as (b & -> & H). apply (K _ _ H).
Qed.

Ltac wr H :=
  let s := fresh "s" in let h := fresh "h" in let H' := fresh "H" in
  lazymatch goal with
  | |- agrees _ (bind _ _) (bind (move _ ?f _) _) => eapply agrees_bind; [exact (move_is f _ _ _ _ _ H)|]
  | |- agrees _ _ (bind (move _ ?f _) _) => eapply agrees_tail; [exact (move_is f _ _ _ _ _ H)|]
  end;
  intros s h H'; unfold stream_is in H'; clear H; rename H' into H.

Lemma write_int_is h c st s m n k : heap_is h (stream_blocks c st s ++ m) ->
  agrees (stream_is c st m) (CharStream_write s (itob n) k) (write_int (Some c) n k h).
Proof.
  intros H. unfold write_int, CharStream_write_h. mal H. set (b := next h) in *.
  rewrite (load_bytes_is _ _ b (itob n) H) by (now left). cbn [bind].
  assert (H1 : heap_is h0 (stream_blocks c st s ++ (b, BBytes (itob n)) :: m)) by (eapply heap_perm; [exact H|cbn [app]; perm]).
  wr H1.
  destruct (free_at _ _ b (BBytes (itob n)) (stream_blocks c st s0 ++ m) H1 ltac:(perm)) as (h3 & -> & H3 & _).
  now apply agrees_ok.
Qed.

Lemma header_stream_is h m a hd : heap_is h m -> In (a, BFrameHeader hd) m ->
  agrees (opened m) (FrameHeader_to_char_stream hd) (FrameHeader_to_char_stream_h (Some a) h).
Proof.
  intros H I. unfold FrameHeader_to_char_stream, FrameHeader_to_char_stream_h, CharStream_write_h.
  eapply agrees_bind; [apply new_stream_is, H|]. intros s [c h1] (st & H1). cbn [fst snd] in H1.
  assert (Ld : forall h s, heap_is h (stream_blocks c st s ++ m) -> load_frame_header (Some a) h = Ok hd).
  { intros h' s' H'. eapply load_frame_header_is; [exact H'|]. apply in_or_app. now right. }
  rewrite (Ld _ _ H1). cbn [bind]. wr H1.
  rewrite (Ld _ _ H1). cbn [bind]. eapply agrees_bind; [apply write_int_is, H1|]. intros s1 h2 H2. unfold stream_is in H2.
  rewrite (Ld _ _ H2). cbn [bind]. wr H2. apply agrees_ok. exists st. exact H2.
Qed.

Lemma start_stream_is h m l f : heap_is h m -> incl (frame_blocks l f) m ->
  agrees (opened m) (start_frame_stream (f_hdr f)) (start_frame_stream_h (Some (l_self l)) h).
Proof.
  intros H I. unfold start_frame_stream, start_frame_stream_h, CharStream_write_h.
  assert (I1 := I _ (or_introl eq_refl)). assert (I2 := I _ (or_intror (or_introl eq_refl))).
  rewrite (load_frame_is _ _ _ _ _ H I1). cbn [bind].
  eapply agrees_bind; [apply header_stream_is; [exact H|exact I2]|]. intros hs [hc h1] (hst & H1). cbn [fst snd] in H1.
  rewrite (header_of_is _ _ _ _ H1) by (apply incl_appr, I). cbn [bind]. apply agrees_same. intros n _.
  eapply agrees_bind; [apply new_stream_is, H1|]. intros s [c h2] (st & H2). cbn [fst snd] in H2.
  rewrite (load_stream_in _ _ hc hst hs H2) by (apply incl_appr, incl_appl, incl_refl). cbn [bind].
  wr H2. destruct (close_is h0 hc hst hs (stream_blocks c st s0 ++ m)) as (h3 & -> & H3).
  { eapply heap_perm; [exact H2|]. perm. }
  cbn [bind]. apply agrees_ok. exists st. exact H3.
Qed.

(** ** The frames *)

Ltac in_frame I := apply in_or_app; right; apply I; unfold frame_blocks; cbn [f_hdr f_data l_self l_header l_data l_x l_y l_z]; is_in.

Lemma text_stream_is h m l hd d : heap_is h m -> incl (frame_blocks l (mkFrame hd (DText d))) m ->
  agrees (opened m) (TextFrame_to_char_stream hd d) (TextFrame_to_char_stream_h (Some (l_self l)) h).
Proof.
  intros H I. unfold TextFrame_to_char_stream, TextFrame_to_char_stream_h, CharStream_write_h.
  eapply agrees_bind; [exact (start_stream_is _ _ _ _ H I)|]. intros s [c h1] (st & H1). cbn [fst snd] in H1.
  assert (Ld : forall h s, heap_is h (stream_blocks c st s ++ m) ->
    text_data (Some (l_self l)) h = Ok (td_size d, td_encoding d, Some (l_x l)) /\ load_bytes (Some (l_x l)) h = Ok (td_text d)).
  { intros h' s' H'. unfold text_data. erewrite (load_frame_is _ _ _ _ _ H') by in_frame I. cbn [bind].
    erewrite (load_is _ _ _ _ H') by in_frame I. cbn [bind]. split; [reflexivity|].
    erewrite (load_bytes_is _ _ _ _ H') by in_frame I. reflexivity. }
  rewrite (proj1 (Ld _ _ H1)). cbn [bind]. wr H1.
  rewrite (proj1 (Ld _ _ H1)). cbn [bind]. rewrite (proj2 (Ld _ _ H1)). cbn [bind]. wr H1.
  apply agrees_ok. exists st. exact H1.
Qed.

Lemma comment_stream_is h m l hd d : heap_is h m -> incl (frame_blocks l (mkFrame hd (DComment d))) m ->
  agrees (opened m) (CommentFrame_to_char_stream hd d) (CommentFrame_to_char_stream_h (Some (l_self l)) h).
Proof.
  intros H I. unfold CommentFrame_to_char_stream, CommentFrame_to_char_stream_h, CharStream_write_h.
  eapply agrees_bind; [exact (start_stream_is _ _ _ _ H I)|]. intros s [c h1] (st & H1). cbn [fst snd] in H1.
  assert (Ld : forall h s, heap_is h (stream_blocks c st s ++ m) ->
    comment_data (Some (l_self l)) h = Ok (cd_size d, cd_encoding d, cd_language d, Some (l_x l), Some (l_y l))
    /\ load_bytes (Some (l_x l)) h = Ok (cd_short d) /\ load_bytes (Some (l_y l)) h = Ok (cd_comment d)).
  { intros h' s' H'. unfold comment_data. erewrite (load_frame_is _ _ _ _ _ H') by in_frame I. cbn [bind].
    erewrite (load_is _ _ _ _ H') by in_frame I. cbn [bind]. split; [reflexivity|].
    split; erewrite (load_bytes_is _ _ _ _ H') by in_frame I; reflexivity. }
  destruct (Ld _ _ H1) as (L1 & _ & _). rewrite L1. cbn [bind]. wr H1.
  destruct (Ld _ _ H1) as (L2 & _ & _). rewrite L2. cbn [bind]. wr H1.
  destruct (Ld _ _ H1) as (L3 & M3 & _). rewrite L3. cbn [bind]. rewrite M3. cbn [bind].
  apply agrees_same. intros n _. wr H1.
  destruct (Ld _ _ H1) as (L4 & _ & M4). rewrite L4. cbn [bind]. rewrite M4. cbn [bind]. wr H1.
  apply agrees_ok. exists st. exact H1.
Qed.

Lemma apic_stream_is h m l hd d : heap_is h m -> incl (frame_blocks l (mkFrame hd (DApic d))) m ->
  agrees (opened m) (ApicFrame_to_char_stream hd d) (ApicFrame_to_char_stream_h (Some (l_self l)) h).
Proof.
  intros H I. unfold ApicFrame_to_char_stream, ApicFrame_to_char_stream_h, CharStream_write_h.
  eapply agrees_bind; [exact (start_stream_is _ _ _ _ H I)|]. intros s [c h1] (st & H1). cbn [fst snd] in H1.
  assert (Ld : forall h s, heap_is h (stream_blocks c st s ++ m) ->
    apic_data (Some (l_self l)) h = Ok (ad_encoding d, Some (l_x l), ad_type d, Some (l_y l), Some (l_z l), ad_picture_size d)
    /\ load_bytes (Some (l_x l)) h = Ok (ad_mime d) /\ load_bytes (Some (l_y l)) h = Ok (ad_desc d)
    /\ load_bytes (Some (l_z l)) h = Ok (ad_data d)).
  { intros h' s' H'. unfold apic_data. erewrite (load_frame_is _ _ _ _ _ H') by in_frame I. cbn [bind].
    erewrite (load_is _ _ _ _ H') by in_frame I. cbn [bind]. split; [reflexivity|].
    split; [|split]; erewrite (load_bytes_is _ _ _ _ H') by in_frame I; reflexivity. }
  destruct (Ld _ _ H1) as (L1 & _). rewrite L1. cbn [bind]. wr H1.
  destruct (Ld _ _ H1) as (L2 & M2 & _). rewrite L2. cbn [bind]. rewrite M2. cbn [bind]. apply agrees_same. intros n1 _. wr H1.
  destruct (Ld _ _ H1) as (L3 & _). rewrite L3. cbn [bind]. wr H1.
  destruct (Ld _ _ H1) as (L4 & _ & M4 & _). rewrite L4. cbn [bind]. rewrite M4. cbn [bind]. apply agrees_same. intros n2 _. wr H1.
  destruct (Ld _ _ H1) as (L5 & _ & _ & M5). rewrite L5. cbn [bind]. rewrite M5. cbn [bind]. wr H1.
  apply agrees_ok. exists st. exact H1.
Qed.

(** A stream made beside [m], and lost blocks. *)
Definition framed (f : frame) (m : list (nat * block)) (v : option CharStream) (r : ptr * heap) : Prop :=
  exists s c st lost, v = Some s /\ fst r = Some c /\ heap_is (snd r) (stream_blocks c st s ++ lost ++ m)
    /\ length lost = (2 * frame_leak f)%nat.

Lemma frame_stream_is h m l f : heap_is h m -> incl (frame_blocks l f) m -> kind_ok f ->
  agrees (framed f m) (Frame_to_char_stream (Some f)) (Frame_to_char_stream_h (Some (l_self l)) h).
Proof.
  intros H I (x & r & Ei & K). unfold Frame_to_char_stream, Frame_to_char_stream_h.
  rewrite (header_of_is _ _ _ _ H I). cbn [bind].
  unfold FrameHeader_isTextFrame, FrameHeader_isCommentFrame, FrameHeader_isApicFrame.
  rewrite !(id0 _ _ _ _ Ei). cbn [bind].
  destruct f as [hd fd]. unfold framed, frame_leak. cbn [f_hdr f_data] in *. destruct fd as [d|d|d|raw]; [subst x|subst x|subst x|].
  - change (beq "T" "T") with true. cbv iota.
    eapply agrees_bind; [exact (text_stream_is _ _ _ _ _ H I)|]. intros s [c h1] (st & H1).
    apply agrees_ok. exists s, c, st, []. auto.
  - change (beq "C" "T") with false. change (beq "C" "C") with true. cbv iota.
    eapply agrees_bind; [exact (comment_stream_is _ _ _ _ _ H I)|]. intros s [c h1] (st & H1).
    apply agrees_ok. exists s, c, st, []. auto.
  - change (beq "A" "T") with false. change (beq "A" "C") with false. change (beq "A" "A") with true. cbv iota.
    eapply agrees_bind; [exact (apic_stream_is _ _ _ _ _ H I)|]. intros s [c h1] (st & H1).
    apply agrees_ok. exists s, c, st, []. auto.
  - destruct K as (K1 & K2 & K3). rewrite !beq_neq by assumption. cbv iota. unfold CharStream_write_h.
    apply agrees_same. intros n _.
    eapply agrees_bind; [apply new_stream_is, H|]. intros s [c h1] (st & H1). cbn [fst snd] in H1.
    erewrite (load_frame_is _ _ _ _ _ H1) by in_frame I. cbn [bind].
    eapply agrees_bind; [eapply header_stream_is; [exact H1|in_frame I]|]. intros hs [hc h2] (hst & H2). cbn [fst snd] in H2.
    rewrite (load_stream_is _ _ _ _ _ H2). cbn [bind].
    assert (H3 : heap_is h2 (stream_blocks c st s ++ stream_blocks hc hst hs ++ m)) by (eapply heap_perm; [exact H2|perm]).
    wr H3.
    erewrite (load_frame_is _ _ _ _ _ H3) by (apply in_or_app; right; in_frame I). cbn [bind].
    erewrite (load_bytes_is _ _ _ raw H3) by (apply in_or_app; right; in_frame I). cbn [bind].
    rewrite (header_of_is _ _ _ _ H3) by (apply incl_appr, incl_appr, I). cbn [bind f_hdr]. wr H3.
    apply agrees_ok. exists s1, c, st, (stream_blocks hc hst hs). auto.
Qed.

(** ** The tag *)

Definition written (c st : nat) (k : nat) (m : list (nat * block)) (s : CharStream) (h : heap) : Prop :=
  exists lost, heap_is h (stream_blocks c st s ++ lost ++ m) /\ length lost = (2 * k)%nat.

Lemma write_frames_is head c st m : forall pl fuel h s,
  heap_is h (stream_blocks c st s ++ m) -> incl (node_blocks head pl) m -> incl (all_frame_blocks pl) m ->
  kinds_ok (map p_node pl) -> (length pl < fuel)%nat ->
  agrees (written c st (list_leak (map p_node pl)) m) (write_frames s (map p_node pl))
    (write_frames_h fuel (Some c) (first_addr pl) h).
Proof.
  intros pl. revert m. induction pl as [|p pl IH]; intros m fuel h s H In1 In2 K L; (destruct fuel as [|fuel]; [cbn [length] in L; lia|]).
  - cbn [map write_frames write_frames_h first_addr]. apply agrees_ok. exists []. auto.
  - cbn [map write_frames write_frames_h first_addr].
    assert (Ip : In (p_addr p, BNode (p_frame p) (if n_start (p_node p) then Some head else None) (first_addr pl)) m)
      by (apply In1; cbn [node_blocks]; now left).
    rewrite (load_node_is _ _ _ _ _ _ H (in_or_app _ _ _ (or_intror Ip))). cbn [bind].
    cbn [map] in K. inversion K as [|? ? Kp Kr]; subst. rewrite leak_cons. unfold n_leak, p_frame.
    destruct (n_frame (p_node p)) as [e|] eqn:Fp; cbn [option_map].
    2:{ reflexivity. }
    assert (Ie : incl (frame_blocks (p_lay p) (fp_frame e)) m).
    { intros x Ix. apply In2. rewrite frames_cons. apply in_or_app. left. unfold p_frame_blocks. now rewrite Fp. }
    eapply agrees_bind; [apply (frame_stream_is _ _ _ _ H); [apply incl_appr, Ie|exact Kp]|].
    intros v [q h1] (fs & fc & fst' & lost & -> & Eq & H1 & Ll). cbn [fst snd] in *. subst q.
    rewrite (load_stream_is _ _ _ _ _ H1). cbn [bind]. unfold CharStream_write_h.
    assert (H2 : heap_is h1 (stream_blocks c st s ++ stream_blocks fc fst' fs ++ lost ++ m)) by (eapply heap_perm; [exact H1|perm]).
    wr H2. destruct (close_is h0 fc fst' fs (stream_blocks c st s0 ++ lost ++ m)) as (h3 & -> & H3).
    { eapply heap_perm; [exact H2|]. perm. }
    cbn [bind].
    rewrite (load_node_is _ _ _ _ _ _ H3 (in_or_app _ _ _ (or_intror (in_or_app _ _ _ (or_intror Ip))))). cbn [bind].
    eapply agrees_weaken.
    + apply (IH (lost ++ m)); [exact H3| | |exact Kr|cbn [length] in L; lia].
      * apply incl_appr. intros x Ix. apply In1. cbn [node_blocks]. now right.
      * apply incl_appr. intros x Ix. apply In2. rewrite frames_cons. apply in_or_app. now right.
    + intros s' h' (lost' & H' & L'). exists (lost' ++ lost). rewrite <- app_assoc. split; [exact H'|]. rewrite app_length. lia.
Qed.

Lemma tag_stream_is h a ah head t pl R : rep h a ah head t pl R -> kinds_ok (t_frames t) ->
  agrees (fun s r => exists st, written (fst r) st (match t_frames t with n :: _ => match n_frame n with Some _ => list_leak (t_frames t) | None => 0 end | [] => 0 end)
                       (tag_blocks a ah head t pl ++ R) s (snd r))
    (Tag_to_char_stream t) (Tag_to_char_stream_h (Some a) h).
Proof.
  intros Rp K. set (B := tag_blocks a ah head t pl ++ R).
  assert (H : heap_is h B) by exact (proj1 Rp).
  unfold Tag_to_char_stream, Tag_to_char_stream_h, CharStream_write_h.
  rewrite (rep_header _ _ _ _ _ _ _ Rp). cbn [bind].
  eapply agrees_bind; [apply new_stream_is, H|]. intros s [c h1] (st & H1). cbn [fst snd] in H1.
  assert (Rp' : forall h s, heap_is h (stream_blocks c st s ++ B) -> rep h a ah head t pl (stream_blocks c st s ++ R)).
  { intros h' s' H'. eapply rep_swap; [exact Rp|]. eapply heap_perm; [exact H'|]. unfold B. perm. }
  assert (Ld : forall h s, heap_is h (stream_blocks c st s ++ B) -> tag_header_of (Some a) h = Ok (t_header t)).
  { intros h' s' H'. exact (rep_header _ _ _ _ _ _ _ (Rp' _ _ H')). }
  do 4 (rewrite (Ld _ _ H1); cbn [bind]; wr H1).
  rewrite (Ld _ _ H1). cbn [bind]. apply agrees_same. intros enc _.
  eapply agrees_bind; [apply write_int_is, H1|]. intros s5 h6 H6. unfold stream_is in H6.
  pose proof (Rp' _ _ H6) as R6. rewrite (rep_frames _ _ _ _ _ _ _ R6). cbn [bind].
  destruct R6 as (_ & Et & Fh & _). rewrite Et. destruct pl as [|p pl]; [discriminate Fh|]. injection Fh as <-.
  assert (Ip : In (p_addr p, BNode (p_frame p) (if n_start (p_node p) then Some (p_addr p) else None) (first_addr pl)) B).
  { unfold B, tag_blocks. cbn [node_blocks app]. is_in. }
  rewrite (load_node_is _ _ _ _ _ _ H6 (in_or_app _ _ _ (or_intror Ip))). cbn [bind deref map].
  unfold p_frame. destruct (n_frame (p_node p)) as [e|] eqn:Fp.
  2:{ apply agrees_ok. exists st, []. auto. }
  eapply agrees_tail.
  - apply (write_frames_is (p_addr p) c st B (p :: pl)); [exact H6| | |now rewrite <- Et|].
    + unfold B, tag_blocks. apply incl_appl, incl_appr, incl_appl, incl_refl.
    + unfold B, tag_blocks. apply incl_appl, incl_appr, incl_appr, incl_refl.
    + apply (enough_for h6 (p_addr p) (p :: pl) (stream_blocks c st s5 ++
        [(a, BTag (Some ah) (Some (p_addr p)) (t_padding t)); (ah, BTagHeader (t_header t))] ++ all_frame_blocks (p :: pl) ++ R)).
      eapply heap_perm; [exact H6|]. unfold B, tag_blocks. perm.
  - intros s' h' W. apply agrees_ok. exists st. exact W.
Qed.

(** ** Only frames that are visible are written *)

Lemma write_frames_visible l : forall s s', write_frames s l = Ok s' -> list_leak l = written_leak l.
Proof.
  induction l as [|n l IH]; intros s s' E; [reflexivity|]. cbn [write_frames] in E. unfold written_leak. rewrite leak_cons. unfold n_leak.
  cbn [visible]. destruct (n_frame n) as [e|]; cbn [option_map] in E.
  2:{ discriminate E. }
  binv E. destruct v as [fs|]; [|discriminate E]. binv E. cbn [map list_sum fold_right]. now rewrite (IH _ _ E).
Qed.

Lemma tag_stream_visible t s : Tag_to_char_stream t = Ok s ->
  match t_frames t with n :: _ => match n_frame n with Some _ => list_leak (t_frames t) | None => 0%nat end | [] => 0%nat end
  = written_leak (t_frames t).
Proof.
  intros E. unfold Tag_to_char_stream in E. do 7 binv E. destruct (t_frames t) as [|n l]; [discriminate E|].
  destruct (n_frame n) eqn:F.
  - eapply write_frames_visible. exact E.
  - unfold written_leak. cbn [visible]. now rewrite F.
Qed.

(** ** Files *)

Lemma write_tag_is h a t pl rest f : tag_laid h a t pl rest -> kinds_ok (t_frames t) ->
  agrees (stored a pl (written_leak (t_frames t)) rest) (ID3v2_write_tag_states f (Some t)) (ID3v2_write_tag_h f (Some a) h).
Proof.
  intros (ah & head & Rp) K. unfold ID3v2_write_tag_states, ID3v2_write_tag_h.
  eapply agrees_bind; [exact (read_header_is h _ f (proj1 Rp))|]. intros ho [q h1] (b & E & H1). cbn [fst snd] in *. subst q.
  assert (Hd : (match hdr_ptr ho b with
                | Some _ => let* hd := load_tag_header (hdr_ptr ho b) h1 in Ok (declared_length hd)
                | None => Ok 0 end) = Ok (match ho with Some h => declared_length h | None => 0 end)
               /\ exists h2, free (hdr_ptr ho b) h1 = Ok h2 /\ heap_is h2 (tag_blocks a ah head t pl ++ rest)).
  { destruct ho as [hd|]; cbn [hdr_ptr th_blocks app] in *.
    - ld H1. split; [reflexivity|]. destruct (free_is _ _ _ _ H1) as (h2 & E2 & H2 & _). eauto.
    - split; [reflexivity|]. exists h1. split; [reflexivity|exact H1]. }
  destruct Hd as (-> & h2 & E2 & H2). cbn [bind]. rewrite E2. cbn [bind]. cbv zeta.
  assert (Lt : load_tag_block (Some a) h2 = Ok (Some ah, Some head, t_padding t)).
  { unfold tag_blocks in H2. cbn [app] in H2. now ld H2. }
  rewrite Lt. cbn [bind]. apply agrees_same. intros d _. apply agrees_same. intros pad _.
  unfold set_padding. rewrite Lt. cbn [bind].
  set (t' := mkTag (t_header t) (t_frames t) pad (t_fresh t)).
  destruct (store_is h2 ((ah, BTagHeader (t_header t)) :: (node_blocks head pl ++ all_frame_blocks pl) ++ rest) a
             (BTag (Some ah) (Some head) (t_padding t)) (BTag (Some ah) (Some head) pad)) as (h3 & -> & H3 & _).
  { exact H2. }
  cbn [bind].
  assert (R3 : rep h3 a ah head t' pl rest) by (split; [exact H3|exact (proj2 Rp)]).
  pose proof (tag_stream_is h3 a ah head t' pl rest R3 K) as A.
  pose proof (tag_stream_visible t') as V.
  destruct (Tag_to_char_stream t') as [s| | |]; cbn [agrees bind] in *; try (rewrite A; reflexivity).
  destruct A as ([c h4] & -> & st & lost & H4 & L4). rewrite (V s eq_refl) in L4. cbn [fst snd bind] in *.
  rewrite (load_stream_is _ _ _ _ _ H4). cbn [bind]. apply agrees_same. intros temp _.
  destruct f as [content|]; [|reflexivity].
  destruct (close_is _ _ _ _ _ H4) as (h5 & -> & H5). cbn [bind]. apply agrees_ok. split; [reflexivity|]. cbn [fst snd].
  exists t', lost. split; [reflexivity|]. split; [|exact L4].
  exists ah, head. split; [|exact (proj2 Rp)]. eapply heap_perm; [exact H5|]. perm.
Qed.

Lemma delete_tag_is h m f : heap_is h m ->
  agrees (fun v r => v = fst r /\ heap_is (snd r) m) (ID3v2_delete_tag_states f) (ID3v2_delete_tag_h f h).
Proof.
  intros H. unfold ID3v2_delete_tag_states, ID3v2_delete_tag_h.
  eapply agrees_bind; [apply read_header_is, H|]. intros ho [q h1] (b & E & H1). cbn [fst snd] in *. subst q.
  destruct ho as [hd|]; cbn [hdr_ptr th_blocks app] in *; [|apply agrees_ok; now split].
  destruct f as [content|]; [|reflexivity]. ld H1. cbv zeta. unfold ID3v2_TagHeader_free. fr H1 (BTagHeader hd) b.
  apply agrees_ok. now split.
Qed.
