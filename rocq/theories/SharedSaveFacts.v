(** ID3v2_write_tag as a program: what it computes, and what it accesses. *)
From Verif Require Import BaseFacts Spec ListFacts FileFacts HeapFacts HeapFrameFacts HeapListFacts HeapTagFacts SpecShared SharedFacts SharedRunFacts SharedSameFacts SharedLogFacts SharedChangeFacts SharedWalkFacts SharedTagFacts SharedOpFacts.
From Coq Require Import Lia.

(** ** Programs that only read *)

Fixpoint only_reads {A} (p : prog A) : Prop :=
  match p with
  | Stop _ => True
  | Look _ _ k => forall v, only_reads (k v)
  | _ => False
  end.
Lemma o_bind {A B} (p : prog A) (f : A -> prog B) : only_reads p -> (forall a, only_reads (f a)) -> only_reads (bindp p f).
Proof.
  intros P F. induction p as [o|q g k IH|q g v k IH|x k IH|q k IH]; try destruct P.
  - destruct o; cbn [bindp]; auto; exact I.
  - cbn [bindp only_reads] in *. auto.
Qed.
Lemma o_log {A} (p : prog A) h : only_reads p -> forallb is_read (log p h) = true.
Proof.
  induction p as [o|q g k IH|q g v k IH|x k IH|q k IH]; intros P; try destruct P; [reflexivity|].
  cbn [only_reads log] in *. rewrite forallb_app. apply andb_true_iff. split; [destruct q; reflexivity|].
  destruct (let* b := load q h in as_outcome (get_field g b)) as [v| | |]; cbn [or_nil]; auto.
Qed.
Lemma o_look_ptr p f : only_reads (look_ptr p f).
Proof. intros []; exact I. Qed.
Lemma o_look_int p f : only_reads (look_int p f).
Proof. intros []; exact I. Qed.
Lemma o_look_chars p f : only_reads (look_chars p f).
Proof. intros []; exact I. Qed.
Lemma o_stop {A} (o : outcome A) : only_reads (Stop o).
Proof. exact I. Qed.
Ltac reader :=
  repeat first
    [ apply o_bind; [|intro] | apply o_look_ptr | apply o_look_int | apply o_look_chars | apply o_stop
    | match goal with |- only_reads (match ?x with _ => _ end) => destruct x end ].

Lemma o_FrameHeader_to p : only_reads (FrameHeader_to_char_stream_p p).
Proof. unfold FrameHeader_to_char_stream_p. reader. Qed.
Lemma o_Frame_to p : only_reads (Frame_to_char_stream_p p).
Proof.
  unfold Frame_to_char_stream_p, TextFrame_to_char_stream_p, CommentFrame_to_char_stream_p, ApicFrame_to_char_stream_p, write_string_p,
    start_frame_stream_p, id_of, size_of, FrameHeader_to_char_stream_p, retp. reader.
Qed.
Lemma o_write_frames : forall n p cs, only_reads (write_frames_p n p cs).
Proof.
  induction n as [|n IH]; intros p cs; [exact I|]. cbn [write_frames_p]. destruct p; [|exact I].
  apply o_bind; [apply o_look_ptr|intro f]. apply o_bind; [apply o_Frame_to|intros [fcs|]]; [|exact I]. reader. apply IH.
Qed.
Lemma o_Tag_to n p : only_reads (Tag_to_char_stream_p n p).
Proof. unfold Tag_to_char_stream_p, write_member_p, retp. reader. apply o_write_frames. Qed.

(** ** What they compute *)

Lemma r_stop {A B} (o : outcome A) (k : A -> prog B) h : run (bindp (Stop o) k) h = (let* a := o in run (k a) h).
Proof. now destruct o. Qed.
Lemma r_look_ptr {B} h m a x f q (k : ptr -> prog B) : heap_is h m -> In (a, x) m -> get_field f x = Some (VPtr q) ->
  run (bindp (look_ptr (Some a) f) k) h = run (k q) h.
Proof. intros H I G. rewrite run_bind. destruct (d_look_ptr _ _ _ _ _ _ H I G) as (-> & _). reflexivity. Qed.
Lemma r_look_int {B} h m a x f q (k : Z -> prog B) : heap_is h m -> In (a, x) m -> get_field f x = Some (VInt q) ->
  run (bindp (look_int (Some a) f) k) h = run (k q) h.
Proof. intros H I G. rewrite run_bind. destruct (d_look_int _ _ _ _ _ _ H I G) as (-> & _). reflexivity. Qed.
Lemma r_look_chars {B} h m a x f q (k : mem -> prog B) : heap_is h m -> In (a, x) m -> get_field f x = Some (VChars q) ->
  run (bindp (look_chars (Some a) f) k) h = run (k q) h.
Proof. intros H I G. rewrite run_bind. destruct (d_look_chars _ _ _ _ _ _ H I G) as (-> & _). reflexivity. Qed.
Lemma r_size_of {B} h m l f (k : Z -> prog B) : heap_is h m -> incl (frame_blocks l f) m ->
  run (bindp (size_of (Some (l_self l))) k) h = run (k (fh_size (f_hdr f))) h.
Proof. intros H I. rewrite run_bind. destruct (d_size_of _ _ _ _ H I) as (-> & _). reflexivity. Qed.
Lemma r_id_of {B} h m l f (k : mem -> prog B) : heap_is h m -> incl (frame_blocks l f) m ->
  run (bindp (id_of (Some (l_self l))) k) h = run (k (fh_id (f_hdr f))) h.
Proof. intros H I. rewrite run_bind. destruct (d_id_of _ _ _ _ H I) as (-> & _). reflexivity. Qed.
Lemma r_keeping {A B} (p : prog A) (o : outcome A) (k : A -> prog B) h : run p h = keeping h o -> run (bindp p k) h = (let* a := o in run (k a) h).
Proof. intros E. rewrite run_bind, E. now destruct o. Qed.
Lemma keeping_bind {A B} (o : outcome A) (k : A -> outcome B) h : keeping h (let* a := o in k a) = (let* a := o in keeping h (k a)).
Proof. now destruct o. Qed.

Lemma bindp_ok {A B} (x : A) (k : A -> prog B) : bindp (Stop (Ok x)) k = k x.
Proof. reflexivity. Qed.

Ltac stp H :=
  first
    [ rewrite r_stop, ?keeping_bind; apply bind_ext; intro
    | erewrite r_look_ptr; [|exact H|eassumption|reflexivity]
    | erewrite r_look_int; [|exact H|eassumption|reflexivity]
    | erewrite r_look_chars; [|exact H|eassumption|reflexivity] ].

Lemma r_FrameHeader_to h m a hd : heap_is h m -> In (a, BFrameHeader hd) m ->
  run (FrameHeader_to_char_stream_p (Some a)) h = keeping h (FrameHeader_to_char_stream hd).
Proof.
  intros H I. unfold FrameHeader_to_char_stream_p, FrameHeader_to_char_stream. repeat stp H. rewrite s_stop. now destruct (CharStream_write _ _ _).
Qed.

Section Frame.
  Variables (h : heap) (m : list (nat * block)) (l : lay) (hd : FrameHeader).
  Hypothesis H : heap_is h m.
  Hypothesis Is : In (l_self l, BFrame (Some (l_header l)) (Some (l_data l))) m.
  Hypothesis Ih : In (l_header l, BFrameHeader hd) m.

  Lemma r_size {B} (k : Z -> prog B) : run (bindp (size_of (Some (l_self l))) k) h = run (k (fh_size hd)) h.
  Proof. rewrite run_bind. unfold size_of. repeat stp H. unfold look_int. cbn [run]. rewrite (load_is _ _ _ _ H Ih). reflexivity. Qed.
  Lemma r_id {B} (k : mem -> prog B) : run (bindp (id_of (Some (l_self l))) k) h = run (k (fh_id hd)) h.
  Proof. rewrite run_bind. unfold id_of. repeat stp H. unfold look_chars. cbn [run]. rewrite (load_is _ _ _ _ H Ih). reflexivity. Qed.

  Lemma r_start : run (start_frame_stream_p (Some (l_self l))) h = keeping h (start_frame_stream hd).
  Proof.
    unfold start_frame_stream_p, start_frame_stream. stp H. erewrite r_keeping by (eapply r_FrameHeader_to; [exact H|exact Ih]).
    rewrite keeping_bind. apply bind_ext. intros hcs. rewrite r_size. repeat stp H. reflexivity.
  Qed.

  Lemma r_string a cs f x s b : In (l_data l, x) m -> get_field f x = Some (VPtr (Some b)) -> In (b, BBytes s) m -> a = l_self l ->
    run (write_string_p cs (Some a) f) h = keeping h (let* n := ID3v2_strlent (Some s) in CharStream_write cs s n).
  Proof.
    intros Id Gf Ib ->. unfold write_string_p.
    do 2 (stp H; erewrite r_look_ptr; [|exact H|exact Id|exact Gf]). repeat stp H. reflexivity.
  Qed.

  Lemma r_Text d : In (l_data l, BText (td_size d) (td_encoding d) (Some (l_x l))) m -> In (l_x l, BBytes (td_text d)) m ->
    run (TextFrame_to_char_stream_p (Some (l_self l))) h = keeping h (TextFrame_to_char_stream hd d).
  Proof.
    intros Id Ix. unfold TextFrame_to_char_stream_p, TextFrame_to_char_stream. erewrite r_keeping by exact r_start.
    rewrite keeping_bind. apply bind_ext. intros cs. repeat stp H. reflexivity.
  Qed.
  Lemma r_Comment d : In (l_data l, BComment (cd_size d) (cd_encoding d) (cd_language d) (Some (l_x l)) (Some (l_y l))) m ->
    In (l_x l, BBytes (cd_short d)) m -> In (l_y l, BBytes (cd_comment d)) m ->
    run (CommentFrame_to_char_stream_p (Some (l_self l))) h = keeping h (CommentFrame_to_char_stream hd d).
  Proof.
    intros Id Ix Iy. unfold CommentFrame_to_char_stream_p, CommentFrame_to_char_stream. erewrite r_keeping by exact r_start.
    rewrite keeping_bind. apply bind_ext. intros cs. repeat stp H.
    erewrite r_keeping by (eapply r_string; [exact Id|reflexivity|exact Ix|reflexivity]).
    rewrite bind_assoc, keeping_bind. apply bind_ext. intros n. rewrite keeping_bind. apply bind_ext. intros cs'. repeat stp H. reflexivity.
  Qed.
  Lemma r_Apic d : In (l_data l, BApic (ad_encoding d) (Some (l_x l)) (ad_type d) (Some (l_y l)) (Some (l_z l)) (ad_picture_size d)) m ->
    In (l_x l, BBytes (ad_mime d)) m -> In (l_y l, BBytes (ad_desc d)) m -> In (l_z l, BBytes (ad_data d)) m ->
    run (ApicFrame_to_char_stream_p (Some (l_self l))) h = keeping h (ApicFrame_to_char_stream hd d).
  Proof.
    intros Id Ix Iy Iz. unfold ApicFrame_to_char_stream_p, ApicFrame_to_char_stream. erewrite r_keeping by exact r_start.
    rewrite keeping_bind. apply bind_ext. intros cs. repeat stp H.
    erewrite r_keeping by (eapply r_string; [exact Id|reflexivity|exact Ix|reflexivity]).
    rewrite bind_assoc, keeping_bind. apply bind_ext. intros n. rewrite keeping_bind. apply bind_ext. intros cs'. repeat stp H.
    erewrite r_keeping by (eapply r_string; [exact Id|reflexivity|exact Iy|reflexivity]).
    rewrite bind_assoc, keeping_bind. apply bind_ext. intros n'. rewrite keeping_bind. apply bind_ext. intros cs''. repeat stp H. reflexivity.
  Qed.
End Frame.

Lemma r_Frame_to h m l f : heap_is h m -> incl (frame_blocks l f) m -> kind_ok f ->
  run (Frame_to_char_stream_p (Some (l_self l))) h = keeping h (Frame_to_char_stream (Some f)).
Proof.
  intros H I K. destruct f as [hd da].
  assert (Is : In (l_self l, BFrame (Some (l_header l)) (Some (l_data l))) m) by (apply I; now left).
  assert (Ih : In (l_header l, BFrameHeader hd) m) by (apply I; right; now left).
  cbn [Frame_to_char_stream_p Frame_to_char_stream f_hdr f_data]. rewrite (r_id h m l hd H Is Ih).
  unfold FrameHeader_isTextFrame, FrameHeader_isCommentFrame, FrameHeader_isApicFrame, id0_is. cbn [fh_id].
  destruct K as (c & r & E & K). cbn [f_hdr f_data] in *. rewrite E. do 3 (rewrite r_stop; cbn [bind]).
  destruct da as [d|d|d|raw].
  - subst c. change (beq "T" "T") with true. cbv iota. erewrite r_keeping by (eapply r_Text; [exact H|exact Is|exact Ih|apply I; do 2 right; now left|apply I; do 3 right; now left]).
    rewrite keeping_bind. reflexivity.
  - subst c. change (beq "C" "T") with false. change (beq "C" "C") with true. cbv iota.
    erewrite r_keeping by (eapply r_Comment; [exact H|exact Is|exact Ih|apply I; do 2 right; now left|apply I; do 3 right; now left|apply I; do 4 right; now left]).
    rewrite keeping_bind. reflexivity.
  - subst c. change (beq "A" "T") with false. change (beq "A" "C") with false. change (beq "A" "A") with true. cbv iota.
    erewrite r_keeping by (eapply r_Apic; [exact H|exact Is|exact Ih|apply I; do 2 right; now left|apply I; do 3 right; now left|apply I; do 4 right; now left|apply I; do 5 right; now left]).
    rewrite keeping_bind. reflexivity.
  - assert (Id : In (l_data l, BBytes raw) m) by (apply I; do 2 right; now left). destruct K as (Kt & Kc & Ka).
    rewrite (proj2 (beq_false _ _) Kt), (proj2 (beq_false _ _) Kc), (proj2 (beq_false _ _) Ka). rewrite (r_size h m l hd H Is Ih). repeat stp H.
    erewrite r_keeping by (eapply r_FrameHeader_to; [exact H|exact Ih]). rewrite keeping_bind. apply bind_ext. intros hcs. stp H.
    stp H. rewrite (r_size h m l hd H Is Ih). repeat stp H. reflexivity.
Qed.

(** ** The list of frames *)

Section List.
  Variables (h : heap) (m : list (nat * block)) (head : nat).
  Hypothesis H : heap_is h m.

  Lemma r_node_frame {B} p pl e (k : ptr -> prog B) : incl (node_blocks head (p :: pl)) m -> n_frame (p_node p) = Some e ->
    run (bindp (look_ptr (Some (p_addr p)) NodeFrame) k) h = run (k (Some (l_self (p_lay p)))) h.
  Proof.
    intros I F. apply incl_nodes_cons in I as (I & _). unfold node_block, p_frame in I. rewrite F in I.
    eapply r_look_ptr; [exact H|exact I|reflexivity].
  Qed.
  Lemma r_node_next {B} p pl (k : ptr -> prog B) : incl (node_blocks head (p :: pl)) m ->
    run (bindp (look_ptr (Some (p_addr p)) NodeNext) k) h = run (k (first_addr pl)) h.
  Proof. intros I. apply incl_nodes_cons in I as (I & _). eapply r_look_ptr; [exact H|exact I|reflexivity]. Qed.

  Lemma r_write_frames : forall pl fuel cs, incl (node_blocks head pl) m -> incl (all_frame_blocks pl) m -> full pl -> kinds_ok (map p_node pl) ->
    (length pl < fuel)%nat -> run (write_frames_p fuel (first_addr pl) cs) h = keeping h (write_frames cs (map p_node pl)).
  Proof.
    induction pl as [|p pl IH]; intros fuel cs I J F K L; (destruct fuel; [cbn [length] in L; lia|]); [reflexivity|].
    apply full_cons in F as ((e & Ep) & F). apply incl_frames_cons in J as (Jp & J). inversion K as [|x y Kp K' Ex]. subst x y.
    assert (Fe : n_frame (p_node p) = Some e) by now rewrite Ep.
    unfold p_frame_blocks in Jp. rewrite Fe in *. cbn [first_addr write_frames_p map write_frames length] in *.
    rewrite (r_node_frame p pl e _ I Fe).
    erewrite r_keeping by (eapply r_Frame_to; [exact H|exact Jp|exact Kp]). rewrite Fe. cbn [option_map]. rewrite keeping_bind. apply bind_ext.
    intros [fcs|]; [|reflexivity]. rewrite r_stop, keeping_bind. apply bind_ext. intros cs'. rewrite (r_node_next p pl _ I).
    apply IH; auto; [now apply incl_nodes_cons in I|lia].
  Qed.

  (** It reads the pointers of every node. *)
  Lemma l_bind_first {A B} (p : prog A) (k : A -> prog B) x : In x (log p h) -> In x (log (bindp p k) h).
  Proof. intros I. rewrite log_bind. apply in_or_app. now left. Qed.
  Lemma l_bind_then {A B} (p : prog A) (k : A -> prog B) a h' x : run p h = Ok (a, h') -> In x (log (k a) h') -> In x (log (bindp p k) h).
  Proof. intros R I. rewrite log_bind. apply in_or_app. right. now rewrite R. Qed.
  Lemma l_look a x f v y : In (a, x) m -> get_field f x = Some (VPtr v) -> y = Reads a f -> In y (log (look_ptr (Some a) f) h).
  Proof. intros I G ->. destruct (d_look_ptr _ _ _ _ _ _ H I G) as (_ & ->). now left. Qed.

  Lemma walk_write_frames : forall pl fuel cs r, incl (node_blocks head pl) m -> incl (all_frame_blocks pl) m -> full pl -> kinds_ok (map p_node pl) ->
    (length pl < fuel)%nat -> write_frames cs (map p_node pl) = Ok r -> incl (walk pl) (log (write_frames_p fuel (first_addr pl) cs) h).
  Proof.
    induction pl as [|p pl IH]; intros fuel cs r I J F K L E; (destruct fuel; [cbn [length] in L; lia|]); [intros x []|].
    apply full_cons in F as ((e & Ep) & F). apply incl_frames_cons in J as (Jp & J). inversion K as [|x y Kp K' Ex]. subst x y.
    assert (Fe : n_frame (p_node p) = Some e) by now rewrite Ep.
    unfold p_frame_blocks in Jp. rewrite Fe in *. cbn [first_addr write_frames_p map write_frames length] in *.
    pose proof (incl_nodes_cons _ _ _ _ I) as (In1 & I').
    assert (Gf : get_field NodeFrame (snd (node_block head p (first_addr pl))) = Some (VPtr (Some (l_self (p_lay p))))).
    { unfold node_block, p_frame. now rewrite Fe. }
    rewrite Fe in E. cbn [option_map] in E.
    destruct (Frame_to_char_stream (Some (fp_frame e))) as [[fcs|]| | |] eqn:Ef; try discriminate E. cbn [bind] in E.
    destruct (CharStream_write cs (cs_stream fcs) (cs_size fcs)) as [cs'| | |] eqn:Ew; try discriminate E. cbn [bind] in E.
    pose proof (r_Frame_to h m (p_lay p) (fp_frame e) H Jp Kp) as Rf. rewrite Ef in Rf. cbn [keeping bind] in Rf.
    assert (Rl : run (look_ptr (Some (p_addr p)) NodeFrame) h = Ok (Some (l_self (p_lay p)), h)) by (eapply d_look_ptr; [exact H|exact In1|exact Gf]).
    assert (Rn : run (look_ptr (Some (p_addr p)) NodeNext) h = Ok (first_addr pl, h)) by (eapply d_look_ptr; [exact H|exact In1|reflexivity]).
    intros x [<-|[<-|Ix]].
    - apply l_bind_first. eapply l_look; [exact In1|exact Gf|reflexivity].
    - eapply l_bind_then; [exact Rl|]. eapply l_bind_then; [exact Rf|]. cbv beta iota. rewrite Ew. cbn [bindp].
      apply l_bind_first. eapply l_look; [exact In1|reflexivity|reflexivity].
    - eapply l_bind_then; [exact Rl|]. eapply l_bind_then; [exact Rf|]. cbv beta iota. rewrite Ew. cbn [bindp]. eapply l_bind_then; [exact Rn|].
      eapply IH; eauto. lia.
  Qed.
End List.

(** ** The tag *)

Lemma good_kinds pl : good pl -> kinds_ok (map p_node pl) -> (exists p, pl = [p] /\ p_node p = empty_node /\ listed pl = []) \/
  (exists p e pl', pl = p :: pl' /\ n_frame (p_node p) = Some e /\ full pl).
Proof.
  intros [(p & -> & E)|(N & F)] _.
  - left. exists p. repeat split; auto. unfold listed. cbn [flat_map]. now rewrite E.
  - right. destruct pl as [|p pl]; [congruence|]. destruct (F p (or_introl eq_refl)) as (e & Ep). exists p, e, pl. rewrite Ep. repeat split. exact F.
Qed.

Section Tag.
  Variables (a ah head : nat) (pd : Z) (th : TagHeader) (rest : list (nat * block)).
  Notation base := ((a, BTag (Some ah) (Some head) pd) :: (ah, BTagHeader th) :: rest).
  Notation in_tag := (in_tag a ah head pd th rest).

  Lemma r_member {B} h m cs f v n (k : CharStream -> prog B) : heap_is h m -> In (a, BTag (Some ah) (Some head) pd) m -> In (ah, BTagHeader th) m ->
    get_field f (BTagHeader th) = Some (VChars v) ->
    run (bindp (write_member_p cs (Some a) f n) k) h = (let* cs := CharStream_write cs v n in run (k cs) h).
  Proof.
    intros H Ia Ih G. apply r_keeping. unfold write_member_p. erewrite r_look_ptr; [|exact H|exact Ia|reflexivity].
    erewrite r_look_chars; [|exact H|exact Ih|exact G]. cbn [run]. apply s_stop.
  Qed.

  Lemma r_Tag_to h pl more t n : in_tag h pl more -> good pl -> t_header t = th -> t_frames t = map p_node pl -> (length pl < n)%nat ->
    run (Tag_to_char_stream_p n (Some a)) h = keeping h (Tag_to_char_stream t).
  Proof.
    intros T G Eh Ef L. pose proof (base_in _ _ _ _ _ _ _ _ _ T) as Ia. destruct T as (H & Hf & _ & K). set (m := node_blocks head pl ++ all_frame_blocks pl ++ more ++ base) in *.
    assert (Ih : In (ah, BTagHeader th) m) by (do 3 (apply in_or_app; right); right; now left).
    unfold Tag_to_char_stream_p, Tag_to_char_stream. rewrite Eh, Ef.
    do 2 stp H. rewrite r_stop, keeping_bind. apply bind_ext. intros cs.
    do 4 (erewrite r_member; [|exact H|exact Ia|exact Ih|reflexivity]; rewrite keeping_bind; apply bind_ext; clear cs; intros cs).
    do 2 stp H. rewrite r_stop, keeping_bind. apply bind_ext. intros enc. rewrite r_stop, keeping_bind. apply bind_ext. clear cs. intros cs. stp H.
    destruct (good_kinds pl G K) as [(p & -> & Ep & _)|(p & e & pl' & E & Fe & Fu)].
    - injection Hf as <-. cbn [map]. rewrite Ep. cbn [n_frame empty_node].
      erewrite r_look_ptr; [|exact H| |]; [|now left|unfold node_block, p_frame; rewrite Ep; reflexivity]. reflexivity.
    - subst pl. assert (Hp : p_addr p = head) by now injection Hf. rewrite <- Hp at 1.
      rewrite (r_node_frame h m head H p pl' e _ (incl_appl _ (incl_refl _)) Fe). cbn [map]. rewrite Fe.
      rewrite <- Hf. rewrite <- (map_cons p_node). apply (r_write_frames h m head H); auto; [apply incl_appl, incl_refl|apply incl_appr, incl_appl, incl_refl].
  Qed.

  (** It reads the tag, and the nodes of the list. *)
  Lemma reads_Tag_to h pl more t n cs : in_tag h pl more -> good pl -> t_header t = th -> t_frames t = map p_node pl -> (length pl < n)%nat ->
    Tag_to_char_stream t = Ok cs -> incl (Reads a TagFrames :: all_reads pl) (log (Tag_to_char_stream_p n (Some a)) h).
  Proof.
    intros T G Eh Ef L E. pose proof (base_in _ _ _ _ _ _ _ _ _ T) as Ia. destruct T as (H & Hf & _ & K). set (m := node_blocks head pl ++ all_frame_blocks pl ++ more ++ base) in *.
    assert (Ih : In (ah, BTagHeader th) m) by (do 3 (apply in_or_app; right); right; now left).
    unfold Tag_to_char_stream_p. unfold Tag_to_char_stream in E. rewrite Eh, Ef in E.
    assert (Lk : forall x, run (look_ptr (Some a) TagHead) h = Ok (x, h) <-> x = Some ah).
    { intros x. destruct (d_look_ptr h m a _ TagHead (Some ah) H Ia eq_refl) as (-> & _). split; [now intros [= <-]|now intros ->]. }
    assert (Ls : run (look_int (Some ah) TagSize) h = Ok (th_tag_size th, h)) by (eapply d_look_int; [exact H|exact Ih|reflexivity]).
    assert (Lf : run (look_ptr (Some a) TagFrames) h = Ok (Some head, h)) by (eapply d_look_ptr; [exact H|exact Ia|reflexivity]).
    assert (Hd := proj2 (Lk (Some ah)) eq_refl). clear Lk.
    intros x Ix. eapply l_bind_then; [exact Hd|]. eapply l_bind_then; [exact Ls|].
    destruct (CharStream_new _) as [c0| | |]; try discriminate E. cbn [bind bindp] in *.
    do 4 (match type of E with bind (CharStream_write ?c ?v ?k) _ = _ => destruct (CharStream_write c v k) as [c1| | |] eqn:Ew; try discriminate E end; cbn [bind] in E;
      eapply l_bind_then;
        [unfold write_member_p; erewrite r_look_ptr; [|exact H|exact Ia|reflexivity]; erewrite r_look_chars; [|exact H|exact Ih|reflexivity]; cbn [run]; rewrite Ew; reflexivity|]; clear Ew; clear c0; rename c1 into c0).
    eapply l_bind_then; [exact Hd|]. eapply l_bind_then; [exact Ls|].
    destruct (syncint_encode _) as [enc| | |]; try discriminate E. cbn [bind bindp] in *.
    destruct (CharStream_write c0 _ _) as [c1| | |]; try discriminate E. cbn [bind bindp] in *.
    destruct Ix as [<-|Ix]; [apply l_bind_first; eapply l_look; [exact H|exact Ia|reflexivity|reflexivity]|]. eapply l_bind_then; [exact Lf|]. cbv beta.
    destruct (good_kinds pl G K) as [(p & -> & Ep & El)|(p & e & pl' & Epl & Fe & Fu)].
    - injection Hf as <-. unfold all_reads in Ix. rewrite El in Ix. destruct Ix as [<-|[]]. apply l_bind_first.
      eapply l_look; [exact H|now left|reflexivity|reflexivity].
    - assert (Ix' : In x (walk pl)).
      { unfold all_reads in Ix. pose proof (listed_length pl Fu) as Ll. destruct (listed pl); [subst pl; discriminate Ll|exact Ix]. }
      clear Ix. rewrite Epl in E. cbn [map] in E. rewrite Fe, <- (map_cons p_node), <- Epl in E.
      assert (Rf : run (look_ptr (Some head) NodeFrame) h = Ok (Some (l_self (p_lay p)), h)).
      { subst pl. injection Hf as <-. eapply d_look_ptr; [exact H|now left|]. unfold p_frame. rewrite Fe. reflexivity. }
      eapply l_bind_then; [exact Rf|]. cbv beta iota. rewrite <- Hf.
      eapply (walk_write_frames h m head H); try eassumption; [apply incl_appl, incl_refl|apply incl_appr, incl_appl, incl_refl].
  Qed.
End Tag.

(** Saving: one write, to padding_size. *)
Theorem save_does a ah head pd th rest old h pl t n f : in_tag a ah head pd th rest h pl [] -> In a old -> good pl -> t_header t = th -> t_frames t = map p_node pl -> t_padding t = pd -> (length pl < n)%nat ->
  match ID3v2_write_tag f (Some t) with
  | Ok (f', t') => exists l h' pd', does (write_tag_p n f (Some a)) h l f' h' /\ filter (at_old old) l = [Writes a TagPadding]
      /\ incl (Reads a TagFrames :: all_reads pl) l /\ t' = Some (mkTag th (t_frames t) pd' (t_fresh t))
      /\ in_tag a ah head pd' th rest h' pl []
  | Ub u => run (write_tag_p n f (Some a)) h = Ub u
  | Exit k => run (write_tag_p n f (Some a)) h = Exit k
  | NoFuel => run (write_tag_p n f (Some a)) h = NoFuel
  end.
Proof.
  intros T Oa G Eh Ef Ep L. pose proof (base_in _ _ _ _ _ _ _ _ _ T) as Ia. unfold ID3v2_write_tag, ID3v2_write_tag_states, write_tag_p. rewrite Ep.
  destruct (ID3v2_read_tag_header f) as [existing| | |]; cbn [bind]; try reflexivity.
  rewrite bindp_ok.
  set (sz := match existing with Some x => declared_length x | None => 0 end).
  assert (Lp : does (look_int (Some a) TagPadding) h [Reads a TagPadding] pd h) by (eapply d_look_int; [apply T|exact Ia|reflexivity]).
  destruct (isub ID3v2_TAG_DEFAULT_PADDING_LENGTH pd) as [d| | |] eqn:Ed; cbn [bind];
    try (rewrite run_bind, (proj1 Lp); cbn [bind]; rewrite Ed; reflexivity).
  set (extra := clamp_int d 0 ID3v2_TAG_DEFAULT_PADDING_LENGTH).
  destruct (iadd pd extra) as [pd'| | |] eqn:Ei; cbn [bind];
    try (rewrite run_bind, (proj1 Lp); cbn [bind]; rewrite Ed; cbn [bindp]; fold extra; rewrite run_bind, (proj1 Lp); cbn [bind]; rewrite Ei; reflexivity).
  set (t1 := mkTag (t_header t) (t_frames t) pd' (t_fresh t)).
  destruct (d_change h (node_blocks head pl ++ all_frame_blocks pl ++ [] ++ (a, BTag (Some ah) (Some head) pd) :: (ah, BTagHeader th) :: rest) a
    (BTag (Some ah) (Some head) pd) TagPadding (VInt pd') (BTag (Some ah) (Some head) pd') (node_blocks head pl ++ all_frame_blocks pl ++ [] ++ (ah, BTagHeader th) :: rest)
    (proj1 T)) as (h1 & Dw & H1); [perm|reflexivity|].
  assert (T1 : in_tag a ah head pd' th rest h1 pl []).
  { split; [eapply heap_perm; [exact H1|perm]|apply T]. }
  assert (R1 : run (Tag_to_char_stream_p n (Some a)) h1 = keeping h1 (Tag_to_char_stream t1)).
  { apply (r_Tag_to a ah head pd' th rest h1 pl [] t1 n); auto. }
  assert (Rs : forall (B : Type) (k : CharStream -> prog B), run (do! p := look_int (Some a) TagPadding in do! d := Stop (isub ID3v2_TAG_DEFAULT_PADDING_LENGTH p) in
      do! p := look_int (Some a) TagPadding in do! p := Stop (iadd p (clamp_int d 0 ID3v2_TAG_DEFAULT_PADDING_LENGTH)) in
      do! _ := set_int (Some a) TagPadding p in do! cs := Tag_to_char_stream_p n (Some a) in k cs) h
      = (let* cs := Tag_to_char_stream t1 in run (k cs) h1)).
  { intros B k. rewrite run_bind, (proj1 Lp). cbn [bind]. rewrite Ed. cbn [bindp]. fold extra. rewrite run_bind, (proj1 Lp). cbn [bind]. rewrite Ei. cbn [bindp].
    rewrite run_bind. unfold set_int. rewrite (proj1 Dw). cbn [bind]. now apply r_keeping. }
  rewrite (Rs file). destruct (Tag_to_char_stream t1) as [cs| | |] eqn:Et; cbn [bind]; try reflexivity.
  destruct (fwrite_bytes _) as [temp| | |] eqn:Ew; cbn [bind bindp]; try reflexivity. destruct f as [content|]; [|reflexivity].
  cbn [bind]. rewrite states_rewritten, last_rewritten. fold sz.
  assert (Lt : does (Tag_to_char_stream_p n (Some a)) h1 (log (Tag_to_char_stream_p n (Some a)) h1) cs h1) by (split; [exact R1|reflexivity]).
  eexists (_ ++ _ ++ _ ++ _ ++ _), h1, pd'. split.
  { eapply d_bind; [exact Lp|]. rewrite Ed. cbn [bindp]. fold extra. eapply d_bind; [exact Lp|]. rewrite Ei. cbn [bindp].
    eapply d_bind; [exact Dw|]. eapply d_bind; [exact Lt|]. cbv beta. rewrite Ew. cbn [bindp]. rewrite (copy_loop_app _ []). apply d_ret. }
  split; [|split; [|split; [now unfold t1; rewrite Eh|exact T1]]].
  - rewrite !filter_app, (seen_reads old _ (o_log _ h1 (o_Tag_to n (Some a)))). cbn. now destruct (in_dec Nat.eq_dec a old).
  - do 3 apply incl_appr. apply incl_appl. eapply (reads_Tag_to a ah head pd' th rest); eauto.
Qed.

(** ** No other request uses padding_size *)

Fixpoint avoids {A} (f : field) (p : prog A) : Prop :=
  match p with
  | Stop _ => True
  | Look _ g k => g <> f /\ forall v, avoids f (k v)
  | Change _ g _ k => g <> f /\ avoids f k
  | Make _ k => forall a, avoids f (k a)
  | Drop _ k => avoids f k
  end.
Definition on_field (f : field) (x : access) : Prop := match x with Reads _ g | Writes _ g => g = f | Frees _ => False end.
Lemma a_bind {A B} f (p : prog A) (k : A -> prog B) : avoids f p -> (forall a, avoids f (k a)) -> avoids f (bindp p k).
Proof. intros P K. induction p as [o|q g c IH|q g v c IH|x c IH|q c IH]; cbn [bindp avoids] in *; [destruct o; cbn; auto| | | |]; intuition. Qed.
Lemma a_log {A} f (p : prog A) : forall h, avoids f p -> forall x, In x (log p h) -> ~ on_field f x.
Proof.
  induction p as [o|q g k IH|q g v k IH|y k IH|q k IH]; intros h P x I; cbn [log avoids] in *.
  - destruct I.
  - destruct P as (N & P). apply in_app_or in I as [I|I].
    + destruct q; [destruct I as [<-|[]]; exact N|destruct I].
    + destruct (let* b := load q h in as_outcome (get_field g b)) as [v| | |]; cbn [or_nil] in I; try destruct I. eapply IH; eauto.
  - destruct P as (N & P). apply in_app_or in I as [I|I].
    + destruct q; [destruct I as [<-|[]]; exact N|destruct I].
    + destruct (let* b := load q h in _) as [v'| | |]; cbn [or_nil] in I; try destruct I. eapply IH; eauto.
  - destruct (malloc y h). eapply IH; eauto.
  - apply in_app_or in I as [I|I].
    + destruct q; [destruct I as [<-|[]]; intros []|destruct I].
    + destruct (free q h) as [v'| | |]; cbn [or_nil] in I; try destruct I. eapply IH; eauto.
Qed.

Section Avoid.
  Notation free_of := (avoids TagPadding).

  Lemma a_look_ptr p f : f <> TagPadding -> free_of (look_ptr p f).
  Proof. intros N. split; [exact N|]. intros []; exact I. Qed.
  Lemma a_look_int p f : f <> TagPadding -> free_of (look_int p f).
  Proof. intros N. split; [exact N|]. intros []; exact I. Qed.
  Lemma a_look_chars p f : f <> TagPadding -> free_of (look_chars p f).
  Proof. intros N. split; [exact N|]. intros []; exact I. Qed.
  Lemma a_set_ptr p f q : f <> TagPadding -> free_of (set_ptr p f q).
  Proof. intros N. split; [exact N|exact I]. Qed.
  Lemma a_set_int p f q : f <> TagPadding -> free_of (set_int p f q).
  Proof. intros N. split; [exact N|exact I]. Qed.
  Lemma a_make x : free_of (make x). Proof. intros n. exact I. Qed.
  Lemma a_drop p : free_of (drop p). Proof. exact I. Qed.
  Lemma a_stop {A} (o : outcome A) : free_of (Stop o). Proof. exact I. Qed.
  Lemma a_ret {A} (x : A) : free_of (retp x). Proof. exact I. Qed.
  Lemma a_alive p : free_of (alive p). Proof. destruct p; cbn; [split; [discriminate|intros; exact I]|exact I]. Qed.
  Hint Resolve a_make a_drop a_stop a_ret a_alive : avoid.
  Ltac av :=
    repeat first
      [ apply a_bind; [|intro]
      | apply a_look_ptr; discriminate | apply a_look_int; discriminate | apply a_look_chars; discriminate
      | apply a_set_ptr; discriminate | apply a_set_int; discriminate
      | solve [auto 2 with avoid]
      | match goal with |- avoids _ (match ?x with _ => _ end) => destruct x end ].
  Lemma a_same p q : free_of (same_pointer_p p q). Proof. unfold same_pointer_p. av. Qed.
  Lemma a_id p : free_of (id_of p). Proof. unfold id_of. av. Qed.
  Lemma a_size p : free_of (size_of p). Proof. unfold size_of. av. Qed.
  Hint Resolve a_same a_id a_size : avoid.
  Lemma a_Text_new i f t : free_of (TextFrame_new_p i f t).
  Proof. unfold TextFrame_new_p, TextFrameData_new_p, FrameHeader_new_p. av. Qed.
  Lemma a_Comment_new i f t u : free_of (CommentFrame_new_p i f t u).
  Proof. unfold CommentFrame_new_p, CommentFrameData_new_p, FrameHeader_new_p. av. Qed.
  Lemma a_Apic_new i f t u v w : free_of (ApicFrame_new_p i f t u v w).
  Proof. unfold ApicFrame_new_p, ApicFrameData_new_p, FrameHeader_new_p. av. Qed.
  Lemma a_Frame_free p : free_of (ID3v2_Frame_free_p p).
  Proof. unfold ID3v2_Frame_free_p, TextFrame_free_p, CommentFrame_free_p, ApicFrame_free_p. av. Qed.
  Lemma a_new : free_of FrameList_new_p. Proof. apply a_make. Qed.
  Hint Resolve a_new : avoid.
  Lemma a_matches p i : free_of (id_matches_p p i). Proof. unfold id_matches_p. av. Qed.
  Lemma a_cut p : free_of (cut_node_p p). Proof. unfold cut_node_p. av. Qed.
  Lemma a_grow p d : free_of (grow_p p d). Proof. unfold grow_p. av. Qed.
  Hint Resolve a_Text_new a_Comment_new a_Apic_new a_Frame_free a_new a_matches a_cut a_grow : avoid.
  Ltac loop n IH D := induction n as [|n IH]; intros; [exact I|]; cbn [D]; av; try apply IH.
  Lemma a_last : forall n p, free_of (last_node_p n p). Proof. loop n IH last_node_p. Qed.
  Lemma a_get : forall n p i, free_of (get_frame_by_id_p n p i). Proof. loop n IH get_frame_by_id_p. Qed.
  Lemma a_unlink : forall n p, free_of (unlink_p n p). Proof. loop n IH unlink_p. Qed.
  Lemma a_free_list : forall n p, free_of (free_list_p n p). Proof. loop n IH free_list_p. Qed.
  Lemma a_remove_id : forall n p i, free_of (remove_by_id_p n p i). Proof. loop n IH remove_by_id_p. Qed.
  Lemma a_remove : forall n p i, free_of (remove_frame_p n p i). Proof. loop n IH remove_frame_p. Qed.
  Lemma a_replace : forall n p i q, free_of (replace_frame_p n p i q). Proof. loop n IH replace_frame_p. Qed.
  Lemma a_frames_on : forall n p, free_of (frames_on n p). Proof. loop n IH frames_on. Qed.
  Hint Resolve a_last a_get a_unlink a_free_list a_remove_id a_remove a_replace a_frames_on : avoid.
  Lemma a_add n p q : free_of (FrameList_add_frame_p n p q). Proof. unfold FrameList_add_frame_p. av. Qed.
  Hint Resolve a_add : avoid.
  Lemma a_gets n : forall m p i s, free_of (get_frames_loop_p n m p i s). Proof. loop m IH get_frames_loop_p. Qed.
  Lemma a_delete n : forall m t p i j, free_of (delete_nth_loop_p n m t p i j). Proof. loop m IH delete_nth_loop_p. Qed.
  Hint Resolve a_gets a_delete : avoid.
  Lemma a_call n t c : free_of (run_call_p n t c).
  Proof.
    destruct c; cbn [run_call_p]; unfold ID3v2_Tag_set_text_frame_p, ID3v2_Tag_set_comment_frame_p, ID3v2_Tag_add_comment_frame_p, ID3v2_Tag_set_apic_frame_p,
      ID3v2_Tag_add_apic_frame_p, ID3v2_Tag_delete_frame_p, delete_nth_frame_p, FrameList_get_frames_by_id_p, install_frame_p; av.
  Qed.
  Hint Resolve a_call : avoid.
  Theorem a_request n r : (forall tag f, r <> Save tag f) -> free_of (request_p n r).
  Proof.
    intros N. destruct r; cbn [request_p]; unfold ID3v2_Tag_get_frame_p, ID3v2_Tag_get_frames_p, FrameList_get_frames_by_id_p, ID3v2_Tag_free_p; [av..|].
    exfalso. eapply N. reflexivity.
  Qed.
End Avoid.
