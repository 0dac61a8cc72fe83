(** Reading a tag on the heap. *)
From Verif Require Import Spec TagFacts Heap HeapIO SpecHeap SpecHeapIO HeapFacts HeapFrameFacts HeapListFacts HeapTagFacts.
From Coq Require Import Lia.

(** ** Streams *)

Definition stream_blocks (c st : nat) (s : CharStream) : list (nat * block) :=
  [ (c, BStream (Some st) (cs_cursor s) (cs_size s)); (st, BBytes (cs_stream s)) ].

Lemma load_bytes_is h m a x : heap_is h m -> In (a, BBytes x) m -> load_bytes (Some a) h = Ok x.
Proof. intros H I. unfold load_bytes. now rewrite (load_is _ _ _ _ H I). Qed.
Lemma load_stream_block_is h m a x y z : heap_is h m -> In (a, BStream x y z) m -> load_stream_block (Some a) h = Ok (x, y, z).
Proof. intros H I. unfold load_stream_block. now rewrite (load_is _ _ _ _ H I). Qed.

Lemma load_stream_in h m c st s : heap_is h m -> incl (stream_blocks c st s) m -> load_stream (Some c) h = Ok s.
Proof.
  intros H I. unfold load_stream.
  rewrite (load_stream_block_is _ _ _ _ _ _ H (I _ (or_introl eq_refl))). cbn [bind].
  rewrite (load_bytes_is _ _ _ _ H (I _ (or_intror (or_introl eq_refl)))). cbn [bind]. now destruct s.
Qed.

Lemma load_stream_is h c st s m : heap_is h (stream_blocks c st s ++ m) -> load_stream (Some c) h = Ok s.
Proof. intros H. eapply load_stream_in; [exact H|]. apply incl_appl, incl_refl. Qed.

Lemma store_stream_is h c st s s' m : heap_is h (stream_blocks c st s ++ m) ->
  exists h', store_stream (Some c) s' h = Ok h' /\ heap_is h' (stream_blocks c st s' ++ m).
Proof.
  intros H. unfold store_stream.
  rewrite (load_stream_block_is _ _ _ _ _ _ H (or_introl eq_refl)). cbn [bind].
  destruct (store_is _ _ _ _ (BStream (Some st) (cs_cursor s') (cs_size s')) H) as (h1 & E1 & H1 & _).
  rewrite E1. cbn [bind app] in *.
  destruct (store_at _ _ st (BBytes (cs_stream s)) (BBytes (cs_stream s'))
             ((c, BStream (Some st) (cs_cursor s') (cs_size s')) :: m) H1 ltac:(cbn [app]; perm)) as (h2 & E2 & H2 & _).
  rewrite E2. eexists. split; [reflexivity|]. eapply heap_perm; [exact H2|]. unfold stream_blocks. cbn [app]. perm.
Qed.

(** Same value, and the stream at [c] with everything else unchanged. *)
Definition beside {A} (c st : nat) (m : list (nat * block)) (v : A * CharStream) (r : A * heap) : Prop :=
  fst v = fst r /\ heap_is (snd r) (stream_blocks c st (snd v) ++ m).
Definition stream_is (c st : nat) (m : list (nat * block)) (s : CharStream) (h : heap) : Prop :=
  heap_is h (stream_blocks c st s ++ m).

Lemma on_is {A} (f : CharStream -> outcome (A * CharStream)) h c st s m : heap_is h (stream_blocks c st s ++ m) ->
  agrees (beside c st m) (f s) (on_stream (Some c) f h).
Proof.
  intros H. unfold on_stream. rewrite (load_stream_is _ _ _ _ _ H). cbn [bind].
  destruct (f s) as [[x s']| | |]; cbn [agrees bind]; try reflexivity.
  destruct (store_stream_is _ _ _ _ s' _ H) as (h' & -> & H'). cbn [bind]. eexists. split; [reflexivity|]. now split.
Qed.

Lemma move_is (f : CharStream -> outcome CharStream) h c st s m : heap_is h (stream_blocks c st s ++ m) ->
  agrees (stream_is c st m) (f s) (move (Some c) f h).
Proof.
  intros H. unfold move. rewrite (load_stream_is _ _ _ _ _ H). cbn [bind].
  destruct (f s) as [s'| | |]; cbn [agrees bind]; try reflexivity.
  destruct (store_stream_is _ _ _ _ s' _ H) as (h' & -> & H'). eauto.
Qed.

Definition opened (m : list (nat * block)) (s : CharStream) (r : nat * heap) : Prop :=
  exists st, heap_is (snd r) (stream_blocks (fst r) st s ++ m).

Lemma open_is (o : outcome CharStream) h m : heap_is h m ->
  agrees (opened m) o
    (let* cs := o in
     let (st, h) := malloc (BBytes (cs_stream cs)) h in
     Ok (malloc (BStream (Some st) (cs_cursor cs) (cs_size cs)) h)).
Proof.
  intros H. destruct o as [s| | |]; cbn [agrees bind]; try reflexivity. mal H. mal H.
  eexists. split; [reflexivity|]. eexists. exact H.
Qed.

Lemma new_stream_is n h m : heap_is h m -> agrees (opened m) (CharStream_new n) (CharStream_new_h n h).
Proof. apply open_is. Qed.
Lemma from_buffer_is p n h m : heap_is h m -> agrees (opened m) (CharStream_from_buffer p n) (CharStream_from_buffer_h p n h).
Proof. apply open_is. Qed.

Lemma close_is h c st s m : heap_is h (stream_blocks c st s ++ m) ->
  exists h', CharStream_free (Some c) h = Ok h' /\ heap_is h' m.
Proof.
  intros H. unfold CharStream_free.
  rewrite (load_stream_block_is _ _ _ _ _ _ H (or_introl eq_refl)). cbn [bind]. unfold stream_blocks in H. cbn [app] in H.
  fr H (BBytes (cs_stream s)) st. fr H (BStream (Some st) (cs_cursor s) (cs_size s)) c. eauto.
Qed.

Lemma strlent_is h c st s m : heap_is h (stream_blocks c st s ++ m) ->
  strlent_here (Some c) h = ID3v2_strlent (Some (CharStream_get_cur s)).
Proof. intros H. unfold strlent_here. now rewrite (load_stream_is _ _ _ _ _ H). Qed.

(** ** Headers *)

Definition hdr_ptr {A} (o : option A) (a : nat) : ptr := match o with Some _ => Some a | None => None end.
Definition hdr_blocks (o : option FrameHeader) (a : nat) : list (nat * block) :=
  match o with Some hd => [(a, BFrameHeader hd)] | None => [] end.
Definition th_blocks (o : option TagHeader) (a : nat) : list (nat * block) :=
  match o with Some hd => [(a, BTagHeader hd)] | None => [] end.

Definition header_made (c st : nat) (m : list (nat * block)) (v : option FrameHeader * CharStream) (r : ptr * heap) : Prop :=
  exists a, fst r = hdr_ptr (fst v) a /\ heap_is (snd r) (stream_blocks c st (snd v) ++ hdr_blocks (fst v) a ++ m).
Definition th_made (c st : nat) (m : list (nat * block)) (v : option TagHeader * CharStream) (r : ptr * heap) : Prop :=
  exists a, fst r = hdr_ptr (fst v) a /\ heap_is (snd r) (stream_blocks c st (snd v) ++ th_blocks (fst v) a ++ m).

Lemma header_parse_is h c st s m ver : heap_is h (stream_blocks c st s ++ m) ->
  agrees (header_made c st m) (FrameHeader_parse s ver) (FrameHeader_parse_h (Some c) ver h).
Proof.
  intros H. unfold FrameHeader_parse_h.
  pose proof (on_is (fun s => FrameHeader_parse s ver) _ _ _ _ _ H) as A. cbv beta in A.
  destruct (FrameHeader_parse s ver) as [[ho s']| | |]; cbn [agrees] in *; try (rewrite A; reflexivity).
  destruct A as ([ho' h1] & -> & E & H1). cbn [fst snd] in *. subst ho'. cbn [bind]. destruct ho as [hd|].
  - mal H1. eexists. split; [reflexivity|]. eexists. split; [reflexivity|]. cbn [fst snd hdr_blocks].
    eapply heap_perm; [exact H1|]. cbn [app]. perm.
  - eexists. split; [reflexivity|]. exists 0%nat. split; [reflexivity|]. exact H1.
Qed.

Lemma tag_header_parse_is h c st s m : heap_is h (stream_blocks c st s ++ m) ->
  agrees (th_made c st m) (TagHeader_parse s) (TagHeader_parse_h (Some c) h).
Proof.
  intros H. unfold TagHeader_parse_h.
  pose proof (on_is TagHeader_parse _ _ _ _ _ H) as A.
  destruct (TagHeader_parse s) as [[ho s']| | |]; cbn [agrees] in *; try (rewrite A; reflexivity).
  destruct A as ([ho' h1] & -> & E & H1). cbn [fst snd] in *. subst ho'. cbn [bind]. destruct ho as [hd|].
  - mal H1. eexists. split; [reflexivity|]. eexists. split; [reflexivity|]. cbn [fst snd th_blocks].
    eapply heap_perm; [exact H1|]. cbn [app]. perm.
  - eexists. split; [reflexivity|]. exists 0%nat. split; [reflexivity|]. exact H1.
Qed.

Lemma load_hdr h x o a m : heap_is h (x ++ hdr_blocks o a ++ m) -> load_frame_header (hdr_ptr o a) h = deref o.
Proof.
  intros H. destruct o as [hd|]; [|reflexivity]. cbn [hdr_ptr hdr_blocks deref] in *.
  eapply load_frame_header_is; [exact H|]. apply in_or_app. right. now left.
Qed.

Lemma free_hdr h hd a x m : heap_is h (x ++ [(a, BFrameHeader hd)] ++ m) ->
  exists h', FrameHeader_free (Some a) h = Ok h' /\ heap_is h' (x ++ m).
Proof.
  intros H. unfold FrameHeader_free. destruct (free_at _ _ a (BFrameHeader hd) (x ++ m) H ltac:(perm)) as (h' & E & H' & _). eauto.
Qed.

(** ** Frames *)

Definition frame_made (c st : nat) (m : list (nat * block)) (v : frame * CharStream) (r : nat * heap) : Prop :=
  exists l, fst r = l_self l /\ heap_is (snd r) (stream_blocks c st (snd v) ++ frame_blocks l (fst v) ++ m).

(** One step on the stream. *)
Ltac rd H :=
  let x := fresh "x" in let y := fresh "y" in let s := fresh "s" in let h := fresh "h" in let H' := fresh "H" in
  lazymatch goal with |- agrees _ _ (bind (on_stream _ ?f _) _) => eapply agrees_bind; [exact (on_is f _ _ _ _ _ H)|] end;
  intros [x s] [y h] [? H']; cbn [fst snd] in *; subst y; clear H; rename H' into H.
Ltac mv H :=
  let s := fresh "s" in let h := fresh "h" in let H' := fresh "H" in
  lazymatch goal with |- agrees _ _ (bind (move _ ?f _) _) => eapply agrees_bind; [exact (move_is f _ _ _ _ _ H)|] end;
  intros s h H'; unfold stream_is in H'; clear H; rename H' into H.

(** The end of the three functions: the new frame, then the header is freed. *)
Lemma finish_frame (new : outcome frame) (new_h : heap -> outcome (nat * heap)) h c st s a hd m :
  heap_is h (stream_blocks c st s ++ hdr_blocks (Some hd) a ++ m) ->
  agrees (made (stream_blocks c st s ++ hdr_blocks (Some hd) a ++ m)) new (new_h h) ->
  agrees (frame_made c st m)
    (let* f := new in Ok (f, s))
    (let* (frame, h) := new_h h in let* h := FrameHeader_free (Some a) h in Ok (frame, h)).
Proof.
  intros H A. eapply agrees_bind; [exact A|]. intros f [p h1] (l & E & H1). cbn [fst snd] in *. subst p.
  cbn [hdr_blocks] in H1.
  destruct (free_hdr h1 hd a (frame_blocks l f ++ stream_blocks c st s) m) as (h2 & -> & H2).
  { eapply heap_perm; [exact H1|]. perm. }
  cbn [bind]. apply agrees_ok. exists l. split; [reflexivity|]. cbn [fst snd]. eapply heap_perm; [exact H2|]. perm.
Qed.

Lemma text_parse_is h c st s m ver : heap_is h (stream_blocks c st s ++ m) ->
  agrees (frame_made c st m) (TextFrame_parse s ver) (TextFrame_parse_h (Some c) ver h).
Proof.
  intros H. unfold TextFrame_parse, TextFrame_parse_h, read_into_h, CharStream_seek_h.
  eapply agrees_bind; [apply header_parse_is, H|]. intros [ho s1] [p h1] (a & E & H1). cbn [fst snd] in *. subst p.
  mv H1. rewrite (load_hdr _ _ _ _ _ H1). apply agrees_same. intros hd D. destruct ho as [hd'|]; [|discriminate D]. injection D as ->.
  apply agrees_same. intros n _. apply agrees_same. intros [] _. rd H1.
  rewrite (load_hdr _ _ _ _ _ H1). cbn [deref bind hdr_ptr].
  apply (finish_frame _ (TextFrame_new_h _ _ _) _ _ _ _ _ _ _ H1). now apply text_frame_new.
Qed.

Lemma comment_parse_is h c st s m ver : heap_is h (stream_blocks c st s ++ m) ->
  agrees (frame_made c st m) (CommentFrame_parse s ver) (CommentFrame_parse_h (Some c) ver h).
Proof.
  intros H. unfold CommentFrame_parse, CommentFrame_parse_h, read_into_h, CharStream_seek_h.
  eapply agrees_bind; [apply header_parse_is, H|]. intros [ho s1] [p h1] (a & E & H1). cbn [fst snd] in *. subst p.
  mv H1. rd H1. rewrite (strlent_is _ _ _ _ _ H1). apply agrees_same. intros n1 _. apply agrees_same. intros [] _.
  rd H1. rewrite (strlent_is _ _ _ _ _ H1). apply agrees_same. intros n2 _. apply agrees_same. intros [] _.
  rd H1. rewrite (load_hdr _ _ _ _ _ H1). apply agrees_same. intros hd D. destruct ho as [hd'|]; [|discriminate D]. injection D as ->.
  cbn [hdr_ptr].
  apply (finish_frame _ (CommentFrame_new_h _ _ _ _) _ _ _ _ _ _ _ H1). now apply comment_frame_new.
Qed.

Lemma apic_parse_is h c st s m ver : heap_is h (stream_blocks c st s ++ m) ->
  agrees (frame_made c st m) (ApicFrame_parse s ver) (ApicFrame_parse_h (Some c) ver h).
Proof.
  intros H. unfold ApicFrame_parse, ApicFrame_parse_h, read_into_h, CharStream_seek_h.
  eapply agrees_bind; [apply header_parse_is, H|]. intros [ho s1] [p h1] (a & E & H1). cbn [fst snd] in *. subst p.
  mv H1. rewrite (strlent_is _ _ _ _ _ H1). apply agrees_same. intros n1 _. apply agrees_same. intros [] _.
  rd H1. rd H1. rewrite (strlent_is _ _ _ _ _ H1). apply agrees_same. intros n2 _. apply agrees_same. intros [] _.
  rd H1. rewrite (load_hdr _ _ _ _ _ H1). apply agrees_same. intros hd D. destruct ho as [hd'|]; [|discriminate D]. injection D as ->.
  do 4 (apply agrees_same; intros ? _). apply agrees_same. intros [] _. rd H1.
  rewrite (load_hdr _ _ _ _ _ H1). cbn [deref bind hdr_ptr].
  apply (finish_frame _ (ApicFrame_new_h _ _ _ _ _ _) _ _ _ _ _ _ _ H1). now apply apic_frame_new.
Qed.

Definition frame_read (c st : nat) (m : list (nat * block)) (v : option frame * CharStream) (r : ptr * heap) : Prop :=
  match fst v with
  | None => fst r = None /\ heap_is (snd r) (stream_blocks c st (snd v) ++ m)
  | Some f => exists l, fst r = Some (l_self l) /\ heap_is (snd r) (stream_blocks c st (snd v) ++ frame_blocks l f ++ m)
  end.

(** Rewind, free the header, and parse again. *)
Lemma parse_again (parse : CharStream -> outcome (frame * CharStream)) (parse_h : heap -> outcome (nat * heap)) k h c st s a hd m :
  (forall h s, heap_is h (stream_blocks c st s ++ m) -> agrees (frame_made c st m) (parse s) (parse_h h)) ->
  heap_is h (stream_blocks c st s ++ hdr_blocks (Some hd) a ++ m) ->
  agrees (frame_read c st m)
    (let* s := CharStream_seek s k SEEK_CUR in let* (f, s) := parse s in Ok (Some f, s))
    (let* h := CharStream_seek_h (Some c) k SEEK_CUR h in
     let* h := FrameHeader_free (Some a) h in
     let* (f, h) := parse_h h in Ok (Some f, h)).
Proof.
  intros A H. unfold CharStream_seek_h. mv H. destruct (free_hdr _ _ _ _ _ H) as (h2 & -> & H2). cbn [bind].
  eapply agrees_bind; [apply A, H2|]. intros [f s2] [p h3] (l & E & H3). cbn [fst snd] in *. subst p.
  apply agrees_ok. exists l. auto.
Qed.

Lemma frame_parse_is h c st s m ver : heap_is h (stream_blocks c st s ++ m) ->
  agrees (frame_read c st m) (Frame_parse s ver) (Frame_parse_h (Some c) ver h).
Proof.
  intros H. unfold Frame_parse, Frame_parse_h.
  eapply agrees_bind; [apply header_parse_is, H|]. intros [ho s1] [p h1] (a & E & H1). cbn [fst snd] in *. subst p.
  destruct ho as [hd|]; cbn [hdr_ptr].
  2:{ apply agrees_ok. split; [reflexivity|exact H1]. }
  assert (Ld : load_frame_header (Some a) h1 = Ok hd) by exact (load_hdr _ _ (Some hd) a _ H1).
  rewrite Ld. cbn [bind]. do 3 (apply agrees_same; intros ? _).
  destruct a0; [|destruct a1; [|destruct a2]].
  - eapply parse_again; [|exact H1]. intros. now apply text_parse_is.
  - eapply parse_again; [|exact H1]. intros. now apply comment_parse_is.
  - eapply parse_again; [|exact H1]. intros. now apply apic_parse_is.
  - destruct (fh_size hd <? 0); [reflexivity|]. unfold read_into_h. rd H1. mal H1. mal H1. apply agrees_ok.
    match goal with Hh : heap_is _ ((?f, BFrame _ (Some ?d)) :: _) |- _ => exists (mkLay f a d 0 0 0) end.
    split; [reflexivity|]. cbn [fst snd]. eapply heap_perm; [exact H1|].
    unfold frame_blocks. cbn [f_data f_hdr l_self l_header l_data hdr_blocks]. perm.
Qed.

(** ** The tag *)

Lemma add_rep h a ah head t pl R l f : rep h a ah head t pl (frame_blocks l f ++ R) ->
  agrees (fun fr h' => exists pl', rep h' a ah head (mkTag (t_header t) fr (t_padding t) (S (t_fresh t))) pl' R)
    (FrameList_add_frame (t_frames t) (t_fresh t, f)) (FrameList_add_frame_h (Some head) (Some (l_self l)) h).
Proof.
  intros (H & Et & Fh & Nk & Ad & Af). unfold tag_blocks in H. cbn [app] in H.
  destruct t as [th fs pad fresh]. cbn [t_header t_frames t_padding t_fresh] in *. subst fs.
  set (T1 := (a, BTag (Some ah) (Some head) pad)) in *. set (T2 := (ah, BTagHeader th)) in *. set (FB := frame_blocks l f) in *.
  assert (Hn : heap_is h (node_blocks head pl ++ T1 :: T2 :: all_frame_blocks pl ++ FB ++ R))
    by (eapply heap_perm; [exact H|perm]).
  eapply agrees_weaken; [apply (add_frame_is h head pl l (fresh, f)); [exact Hn|exact Fh]|].
  intros v h1 (pl' & -> & H1 & Fh' & C). exists pl'.
  assert (X : Permutation (all_frame_blocks pl') (all_frame_blocks pl ++ FB) /\ Forall node_ok (map p_node pl')
            /\ Permutation (addresses (map p_node pl')) (fresh :: addresses (map p_node pl))).
  { destruct C as [(p & r & -> & St & ->)|(c & ->)].
    - cbn [map] in Nk. inversion Nk as [|? ? Np Nr]; subst.
      unfold node_ok in Np. rewrite St in Np. destruct (n_frame (p_node p)) eqn:Fp; [discriminate Np|].
      rewrite !frames_cons. unfold p_frame_blocks. rewrite Fp. cbn [p_node n_frame p_lay app fp_frame snd].
      fold FB. split; [perm|]. split; [constructor; [reflexivity|exact Nr]|].
      cbn [map addresses flat_map p_node n_frame]. rewrite Fp. reflexivity.
    - rewrite frames_app, map_app, addresses_app. split; [|split].
      + apply Permutation_app_head. cbn [all_frame_blocks flat_map]. rewrite app_nil_r. reflexivity.
      + apply Forall_app. split; [exact Nk|]. repeat constructor.
      + cbn [map addresses flat_map p_node n_frame app fp_addr fst]. symmetry. apply Permutation_cons_append. }
  destruct X as (X1 & X2 & X3). unfold rep. cbn [t_header t_frames t_padding t_fresh].
  split; [|split; [reflexivity|split; [exact Fh'|split; [exact X2|split]]]].
  - unfold tag_blocks. cbn [t_header t_padding]. fold T1 T2. eapply heap_perm; [exact H1|].
    etransitivity; [|symmetry; apply Permutation_app_tail, Permutation_app_head, Permutation_app_head; exact X1].
    perm.
  - eapply Permutation_NoDup; [symmetry; exact X3|]. constructor; [|exact Ad]. now apply not_fresh.
  - eapply Permutation_Forall; [symmetry; exact X3|]. constructor; [lia|now apply Forall_lt_S].
Qed.

Lemma rep_perm h a ah head t pl R R' : rep h a ah head t pl R -> Permutation R R' -> rep h a ah head t pl R'.
Proof.
  intros (H & X) P. split; [|exact X]. eapply heap_perm; [exact H|]. now apply Permutation_app_head.
Qed.

(** The blocks beside the tag may change as they like. *)
Lemma rep_swap h h' a ah head t pl R R' : rep h a ah head t pl R -> heap_is h' (R' ++ tag_blocks a ah head t pl) ->
  rep h' a ah head t pl R'.
Proof. intros (_ & X) H. split; [|exact X]. eapply heap_perm; [exact H|]. perm. Qed.

Lemma rep_heap h a ah head t pl R : rep h a ah head t pl R -> heap_is h (R ++ tag_blocks a ah head t pl).
Proof. intros (H & _). eapply heap_perm; [exact H|]. perm. Qed.

Lemma rep_header h a ah head t pl R : rep h a ah head t pl R -> tag_header_of (Some a) h = Ok (t_header t).
Proof.
  intros (H & _). unfold tag_header_of, tag_blocks in *. cbn [app] in H. ld H. ld H. reflexivity.
Qed.

Lemma rep_frames h a ah head t pl R : rep h a ah head t pl R -> frames_of (Some a) h = Ok (Some head).
Proof. intros (H & _). unfold tag_blocks in *. cbn [app] in H. eapply frames_of_is; [exact H|]. now left. Qed.

Definition looped (c st a ah head : nat) (th : TagHeader) (pad : Z) (rest : list (nat * block))
    (v : flist * nat * CharStream) (h : heap) : Prop :=
  let '(fr, fresh, s) := v in
  exists pl, rep h a ah head (mkTag th fr pad fresh) pl (stream_blocks c st s ++ rest).

Lemma parse_loop_is a ah head c st rest fuel : forall h t pl s,
  rep h a ah head t pl (stream_blocks c st s ++ rest) ->
  agrees (looped c st a ah head (t_header t) (t_padding t) rest)
    (parse_loop fuel (th_tag_size (t_header t)) (schar (th_major (t_header t))) s (t_frames t) (t_fresh t))
    (parse_loop_h fuel (Some a) (Some c) h).
Proof.
  induction fuel as [|fuel IH]; intros h t pl s R.
  - cbn [parse_loop parse_loop_h]. pose proof (rep_heap _ _ _ _ _ _ _ R) as H. rewrite <- app_assoc in H.
    rewrite (load_stream_is _ _ _ _ _ H), (rep_header _ _ _ _ _ _ _ R). cbn [bind].
    destruct (_ <? _); [reflexivity|]. apply agrees_ok. exists pl. now destruct t.
  - cbn [parse_loop parse_loop_h]. pose proof (rep_heap _ _ _ _ _ _ _ R) as H. rewrite <- app_assoc in H.
    rewrite (load_stream_is _ _ _ _ _ H), (rep_header _ _ _ _ _ _ _ R). cbn [bind].
    destruct (_ <? _).
    2:{ apply agrees_ok. exists pl. now destruct t. }
    eapply agrees_bind; [apply frame_parse_is, H|]. intros [fo s1] [p h1] Q. unfold frame_read in Q. cbn [fst snd] in Q.
    destruct fo as [f|].
    + destruct Q as (l & -> & H1).
      assert (R1 : rep h1 a ah head t pl (frame_blocks l f ++ stream_blocks c st s1 ++ rest)).
      { eapply rep_swap; [exact R|]. eapply heap_perm; [exact H1|]. perm. }
      rewrite (rep_frames _ _ _ _ _ _ _ R1). cbn [bind].
      eapply agrees_bind; [exact (add_rep _ _ _ _ _ _ _ _ _ R1)|]. intros fr h2 (pl' & R2).
      exact (IH h2 _ pl' s1 R2).
    + destruct Q as (-> & H1). apply agrees_ok. exists pl. destruct t. eapply rep_swap; [exact R|].
      eapply heap_perm; [exact H1|]. perm.
Qed.

Definition loaded_stream (c st : nat) (m : list (nat * block)) (v : option Tag) (r : ptr * heap) : Prop :=
  exists s, loaded (stream_blocks c st s ++ m) v r.

Lemma tag_parse_is h c st s m : heap_is h (stream_blocks c st s ++ m) ->
  agrees (loaded_stream c st m) (Tag_parse s) (Tag_parse_h (Some c) h).
Proof.
  intros H. unfold Tag_parse, Tag_parse_h.
  eapply agrees_bind; [apply tag_header_parse_is, H|]. intros [ho s1] [p h1] (ah & E & H1). cbn [fst snd] in *. subst p.
  destruct ho as [th|]; cbn [hdr_ptr th_blocks] in *.
  2:{ apply agrees_ok. exists s1. now split. }
  unfold ID3v2_Tag_new_h, FrameList_new_h. mal H1.
  destruct (malloc_is h0 _ (BTag (Some ah) (Some (next h1)) 0) H1) as (h2 & -> & H2 & _).
  set (a := next h0) in *. set (head := next h1) in *.
  set (t0 := mkTag th FrameList_new 0 0).
  assert (R : rep h2 a ah head t0 [mkP head (mkLay 0 0 0 0 0 0) empty_node] (stream_blocks c st s1 ++ m)).
  { split; [|repeat split; repeat constructor]. eapply heap_perm; [exact H2|].
    unfold tag_blocks, all_frame_blocks, p_frame_blocks, p_frame, t0. cbn [t_header t_padding node_blocks flat_map p_node n_frame n_start p_addr first_addr empty_node app].
    perm. }
  assert (Ld : load_tag_header (Some ah) h2 = Ok th).
  { eapply load_tag_header_is; [exact H2|]. do 2 right. apply in_or_app. right. now left. }
  rewrite Ld. cbn [bind].
  eapply agrees_bind with (R := fun s' h' => rep h' a ah head t0 [mkP head (mkLay 0 0 0 0 0 0) empty_node] (stream_blocks c st s' ++ m)).
  { destruct (0 <? th_ext_size th); [|now apply agrees_ok].
    unfold CharStream_seek_h. pose proof (rep_heap _ _ _ _ _ _ _ R) as Hh. rewrite <- app_assoc in Hh.
    eapply agrees_weaken; [exact (move_is (fun cs => CharStream_seek cs (to_i32 (th_ext_size th)) SEEK_SET) _ _ _ _ _ Hh)|].
    intros s' h' Hh'. eapply rep_swap; [exact R|]. eapply heap_perm; [exact Hh'|]. perm. }
  intros s2 h3 R3. pose proof (rep_heap _ _ _ _ _ _ _ R3) as H3. rewrite <- app_assoc in H3.
  rewrite (load_stream_is _ _ _ _ _ H3). cbn [bind].
  eapply agrees_bind; [exact (parse_loop_is a ah head c st m _ h3 t0 _ s2 R3)|].
  intros [[fr fresh] s4] h4 (pl & R4). pose proof (rep_heap _ _ _ _ _ _ _ R4) as H4. rewrite <- app_assoc in H4.
  rewrite (load_stream_is _ _ _ _ _ H4). cbn [bind]. apply agrees_same. intros n _.
  unfold set_padding. destruct R4 as (H5 & X). unfold tag_blocks in H5. cbn [t_header t_frames t_padding t_fresh app t0] in *. ld H5.
  destruct (store_is _ _ a _ (BTag (Some ah) (Some head) n) H5) as (h5 & -> & H6 & _). cbn [bind].
  apply agrees_ok. exists s4. exists a. split; [reflexivity|]. exists pl, ah, head. cbn [snd]. split; [exact H6|exact X].
Qed.

Lemma read_buffer_is h m p n : heap_is h m ->
  agrees (loaded m) (ID3v2_read_tag_from_buffer p n) (ID3v2_read_tag_from_buffer_h p n h).
Proof.
  intros H. unfold ID3v2_read_tag_from_buffer, ID3v2_read_tag_from_buffer_h.
  eapply agrees_bind; [apply from_buffer_is, H|]. intros s [c h1] (st & H1). cbn [fst snd] in *.
  pose proof (tag_parse_is _ _ _ _ _ H1) as A.
  destruct (Tag_parse s) as [v| | |]; cbn [agrees] in *; try (rewrite A; reflexivity).
  destruct A as ([q h2] & -> & s2 & L). cbn [bind]. destruct v as [t|]; cbn [loaded fst snd] in L.
  - destruct L as (a & -> & pl & ah & head & H2 & X).
    destruct (close_is h2 c st s2 (tag_blocks a ah head t pl ++ m)) as (h3 & -> & H3).
    { eapply heap_perm; [exact H2|]. perm. }
    cbn [bind]. eexists. split; [reflexivity|]. exists a. split; [reflexivity|]. exists pl, ah, head. now split.
  - destruct L as (-> & H2). destruct (close_is _ _ _ _ _ H2) as (h3 & -> & H3). cbn [bind].
    eexists. split; [reflexivity|]. now split.
Qed.

Definition header_at (m : list (nat * block)) (v : option TagHeader) (r : ptr * heap) : Prop :=
  exists a, fst r = hdr_ptr v a /\ heap_is (snd r) (th_blocks v a ++ m).

Lemma header_at_loaded m v r : header_at m v r -> header_loaded m v r.
Proof. intros (a & E & H). destruct v as [th|]; cbn [header_loaded hdr_ptr th_blocks app] in *; [exists a|]; now split. Qed.

Lemma read_header_buffer_is h m p : heap_is h m ->
  agrees (header_at m) (ID3v2_read_tag_header_from_buffer p) (ID3v2_read_tag_header_from_buffer_h p h).
Proof.
  intros H. unfold ID3v2_read_tag_header_from_buffer, ID3v2_read_tag_header_from_buffer_h.
  eapply agrees_bind; [apply from_buffer_is, H|]. intros s [c h1] (st & H1). cbn [fst snd] in *.
  eapply agrees_bind; [apply tag_header_parse_is, H1|]. intros [ho s1] [q h2] (a & E & H2). cbn [fst snd] in *. subst q.
  destruct (close_is _ _ _ _ _ H2) as (h3 & -> & H3). cbn [bind]. apply agrees_ok. exists a. now split.
Qed.

Lemma read_header_is h m f : heap_is h m ->
  agrees (header_at m) (ID3v2_read_tag_header f) (ID3v2_read_tag_header_h f h).
Proof.
  intros H. unfold ID3v2_read_tag_header, ID3v2_read_tag_header_h. destruct f as [content|].
  2:{ apply agrees_ok. exists 0%nat. now split. }
  cbv zeta. destruct (_ <? _); [apply agrees_ok; exists 0%nat; now split|]. now apply read_header_buffer_is.
Qed.

Lemma read_tag_is h m f : heap_is h m -> agrees (loaded m) (ID3v2_read_tag f) (ID3v2_read_tag_h f h).
Proof.
  intros H. unfold ID3v2_read_tag, ID3v2_read_tag_h.
  eapply agrees_bind; [apply read_header_is, H|]. intros ho [q h1] (ah & E & H1). cbn [fst snd] in *. subst q.
  destruct ho as [hd|]; cbn [hdr_ptr th_blocks app] in *; [|apply agrees_ok; now split].
  destruct f as [content|]; [|reflexivity]. ld H1. cbv zeta. mal H1.
  set (b := next h1) in *. set (data := fread_into content (declared_length hd)) in *.
  rewrite (load_bytes_is _ _ b data H1) by (now left). cbn [bind].
  pose proof (read_buffer_is _ _ (Some data) (declared_length hd) H1) as A.
  destruct (ID3v2_read_tag_from_buffer (Some data) (declared_length hd)) as [v| | |]; cbn [agrees] in *;
    try (rewrite A; reflexivity).
  destruct A as ([q h2] & -> & L). cbn [bind]. unfold ID3v2_TagHeader_free. destruct v as [t|]; cbn [loaded fst snd] in L.
  - destruct L as (a & -> & pl & ah' & head & H2 & X).
    destruct (free_at _ _ b (BBytes data) (tag_blocks a ah' head t pl ++ (ah, BTagHeader hd) :: m) H2 ltac:(perm)) as (h3 & -> & H3 & _).
    cbn [bind].
    destruct (free_at _ _ ah (BTagHeader hd) (tag_blocks a ah' head t pl ++ m) H3 ltac:(perm)) as (h4 & -> & H4 & _).
    cbn [bind]. eexists. split; [reflexivity|]. exists a. split; [reflexivity|]. exists pl, ah', head. now split.
  - destruct L as (-> & H2). fr H2 (BBytes data) b. fr H2 (BTagHeader hd) ah. eexists. split; [reflexivity|]. now split.
Qed.

(** ** The kinds of the frames that are read *)

Lemma id0_ok hd x b : id0_is hd x = Ok b -> exists c r, fh_id hd = Some c :: r /\ b = beq c x.
Proof.
  unfold id0_is. destruct (fh_id hd) as [|[c|] r]; try discriminate. intros E. injection E as <-. eauto.
Qed.

Lemma frame_parse_kind p r ver f cs : fits p r -> Frame_parse (at_pos p r) ver = Ok (Some f, cs) -> kind_ok f.
Proof.
  intros F E. unfold Frame_parse in E. binv E. destruct v as [[h|] cs1]; [|discriminate E].
  apply header_parse_some in E0; auto.
  destruct E0 as (i & s & c & n & -> & Li & Ls & _ & Hh & -> & _).
  binv E. binv E. binv E.
  apply id0_ok in E0 as (x & t & Ei & ->). apply id0_ok in E1 as (x' & t' & Ei' & ->). apply id0_ok in E2 as (x'' & t'' & Ei'' & ->).
  rewrite Ei in Ei', Ei''. injection Ei' as <- <-. injection Ei'' as <- <-.
  destruct (rewind p i s c F Li Ls) as (p' & r' & R & F' & Cs). rewrite R in E. cbn [bind] in E.
  assert (Ih : fh_id h = i) by now rewrite Hh.
  destruct (beq x "T") eqn:T.
  { apply beq_true in T. subst x. binv E. destruct v. injection E as -> _. destruct Cs as [L|[-> ->]].
    - now destruct (text_parse_short p' r' ver (f, c0) F' L).
    - apply (text_parse_id _ _ _ _ _ i (s ++ c)) in E0; auto. destruct E0 as (E0 & d & Ed).
      exists "T"%byte, t. rewrite E0, Ed, <- Ih. auto. }
  destruct (beq x "C") eqn:C.
  { apply beq_true in C. subst x. binv E. destruct v. injection E as -> _. apply comment_parse_id in E0 as (E0 & d & Ed).
    unfold kind_ok. rewrite E0, Ed. do 2 eexists. split; reflexivity. }
  destruct (beq x "A") eqn:A.
  { apply beq_true in A. subst x. binv E. destruct v. injection E as -> _. apply apic_parse_id in E0 as (E0 & d & Ed).
    unfold kind_ok. rewrite E0, Ed. do 2 eexists. split; reflexivity. }
  destruct (fh_size h <? 0); [discriminate|]. binv E. destruct v. injection E as <- _.
  exists x, t. cbn [f_hdr f_data]. split; [exact Ei|].
  repeat split; intros ->; [discriminate T|discriminate C|discriminate A].
Qed.

Lemma add_kinds l a f l' : kinds_ok l -> kind_ok f -> FrameList_add_frame l (a, f) = Ok l' -> kinds_ok l'.
Proof.
  intros K Kf E. unfold FrameList_add_frame in E. destruct l as [|n l]; [discriminate|].
  destruct (negb (n_start n)); injection E as <-.
  - inversion K; subst. constructor; auto.
  - inversion K; subst. constructor; [assumption|]. apply Forall_app. split; [assumption|]. constructor; [exact Kf|constructor].
Qed.

Lemma parse_loop_kinds tag_size ver fuel : forall p r l fresh l' fresh' cs,
  fits p r -> kinds_ok l -> parse_loop fuel tag_size ver (at_pos p r) l fresh = Ok (l', fresh', cs) -> kinds_ok l'.
Proof.
  induction fuel as [|fuel IH]; intros p r l fresh l' fresh' cs F K E; cbn [parse_loop] in E;
    (destruct (to_u32 _ <? tag_size); [|injection E as <- _ _; exact K]); [discriminate E|].
  binv E. destruct v as [fo cs1]. pose proof (frame_parse_moved _ _ _ _ _ F E0) as M.
  destruct fo as [f|]; [|injection E as <- _ _; exact K].
  pose proof (frame_parse_kind _ _ _ _ _ F E0) as Kf. destruct M as (c & r' & -> & -> & _).
  binv E. eapply IH; [|eapply add_kinds; [exact K|exact Kf|exact E1]|exact E]. now apply fits_app.
Qed.

Lemma parse_loop_any_kinds tag_size ver fuel (m : mem) c l fresh l' fresh' cs :
  zlen m < 2 ^ 31 -> kinds_ok l -> parse_loop fuel tag_size ver (mkCS c (zlen m) m) l fresh = Ok (l', fresh', cs) -> kinds_ok l'.
Proof.
  intros Z K E. pose proof (zlen_nonneg m).
  assert (O : c < 0 \/ zlen m < c -> kinds_ok l').
  { intros O. destruct fuel as [|fuel]; cbn [parse_loop cs_cursor] in E;
      (destruct (to_u32 c <? tag_size); [|injection E as <- _ _; exact K]); [discriminate E|].
    binv E. exfalso. eapply parse_outside; [| |exact E0]; cbn [cs_size cs_cursor]; lia. }
  destruct (Z.le_gt_cases 0 c) as [A|A]; [destruct (Z.le_gt_cases c (zlen m)) as [B|B]|]; [|apply O; lia|apply O; lia].
  rewrite at_pos_cursor in E by lia. eapply parse_loop_kinds; [|exact K|exact E].
  unfold fits. rewrite zlen_take, zlen_drop by lia. lia.
Qed.

Lemma read_buffer_kinds p n t : n < 2 ^ 31 -> ID3v2_read_tag_from_buffer p n = Ok (Some t) -> kinds_ok (t_frames t).
Proof.
  intros N E. unfold ID3v2_read_tag_from_buffer, CharStream_from_buffer in E. binv E. binv E0. injection E0 as <-.
  assert (zlen v0 = n).
  { unfold memcpy_from in E1. destruct p as [m|]; [|discriminate]. destruct (n <? 0) eqn:Hn; [discriminate|].
    destruct (zlen m <? n) eqn:Hm; [discriminate|]. injection E1 as <-. unfold zlen in *. rewrite firstn_length. lia. }
  subst n. change (mkCS 0 (zlen v0) v0) with (at_pos [] v0) in E. unfold Tag_parse in E. binv E. destruct v as [[th|] cs]; [|discriminate E].
  apply tag_header_moved in E0; [|exact N]. destruct E0 as (c & r & -> & -> & _). cbn [app] in E.
  binv E. assert (exists k, v = mkCS k (zlen (c ++ r)) (c ++ r)) as (k & ->).
  { destruct (0 <? th_ext_size th); cbn [CharStream_seek] in E0; injection E0 as <-;
      unfold with_cursor, at_pos; cbn [cs_size cs_stream]; rewrite (zlen_app c r); eauto. }
  binv E. destruct v as [[fr fresh] cs']. binv E. injection E as <-. cbn [t_frames].
  eapply parse_loop_any_kinds; [exact N| |exact E2]. repeat constructor.
Qed.

Lemma declared_small hd : declared_length hd < 2 ^ 31.
Proof. unfold declared_length. apply to_i32_range. Qed.

Lemma read_tag_kinds f t : ID3v2_read_tag f = Ok (Some t) -> kinds_ok (t_frames t).
Proof.
  intros E. unfold ID3v2_read_tag in E. binv E. destruct v as [hd|]; [|discriminate E]. destruct f as [content|]; [|discriminate E].
  eapply read_buffer_kinds; [|exact E]. apply declared_small.
Qed.

Lemma header_buffer_loaded h m p : heap_is h m ->
  agrees (header_loaded m) (ID3v2_read_tag_header_from_buffer p) (ID3v2_read_tag_header_from_buffer_h p h).
Proof. intros H. eapply agrees_weaken; [apply read_header_buffer_is, H|]. intros v r. apply header_at_loaded. Qed.

Lemma header_file_loaded h m f : heap_is h m ->
  agrees (header_loaded m) (ID3v2_read_tag_header f) (ID3v2_read_tag_header_h f h).
Proof. intros H. eapply agrees_weaken; [apply read_header_is, H|]. intros v r. apply header_at_loaded. Qed.
