(** Frames on the heap: creation and release. *)
From Verif Require Import BaseFacts Heap SpecHeap HeapFacts.
From Coq Require Import Lia.

(** ** agrees *)

Lemma agrees_bind {A B A' B'} (R : A -> A' -> Prop) (Q : B -> B' -> Prop) o o' k k' :
  agrees R o o' -> (forall a a', R a a' -> agrees Q (k a) (k' a')) -> agrees Q (bind o k) (bind o' k').
Proof.
  destruct o; cbn [agrees bind]; intros H K.
  - destruct H as (b & -> & H). apply K, H.
  - now rewrite H.
  - now rewrite H.
  - now rewrite H.
Qed.

Lemma agrees_same {A B B'} (Q : B -> B' -> Prop) (o : outcome A) k k' :
  (forall a, o = Ok a -> agrees Q (k a) (k' a)) -> agrees Q (bind o k) (bind o k').
Proof. destruct o; cbn [agrees bind]; auto. Qed.

Lemma agrees_ok {A B} (R : A -> B -> Prop) a b : R a b -> agrees R (Ok a) (Ok b).
Proof. intros H. exists b. auto. Qed.

Lemma agrees_weaken {A B} (R Q : A -> B -> Prop) o o' :
  agrees R o o' -> (forall a b, R a b -> Q a b) -> agrees Q o o'.
Proof. destruct o; cbn [agrees]; auto. intros (b & E & H) W. exists b. auto. Qed.

(** ** Typed loads *)

Lemma load_node_is h m a f s n : heap_is h m -> In (a, BNode f s n) m -> load_node (Some a) h = Ok (f, s, n).
Proof. intros H I. unfold load_node. now rewrite (load_is _ _ _ _ H I). Qed.
Lemma load_frame_is h m a hd da : heap_is h m -> In (a, BFrame hd da) m -> load_frame (Some a) h = Ok (hd, da).
Proof. intros H I. unfold load_frame. now rewrite (load_is _ _ _ _ H I). Qed.
Lemma load_frame_header_is h m a x : heap_is h m -> In (a, BFrameHeader x) m -> load_frame_header (Some a) h = Ok x.
Proof. intros H I. unfold load_frame_header. now rewrite (load_is _ _ _ _ H I). Qed.
Lemma load_text_is h m a s e t : heap_is h m -> In (a, BText s e t) m -> load_text (Some a) h = Ok t.
Proof. intros H I. unfold load_text. now rewrite (load_is _ _ _ _ H I). Qed.
Lemma load_comment_is h m a s e l x y : heap_is h m -> In (a, BComment s e l x y) m -> load_comment (Some a) h = Ok (x, y).
Proof. intros H I. unfold load_comment. now rewrite (load_is _ _ _ _ H I). Qed.
Lemma load_apic_is h m a e x t y z s : heap_is h m -> In (a, BApic e x t y z s) m -> load_apic (Some a) h = Ok (x, y, z).
Proof. intros H I. unfold load_apic. now rewrite (load_is _ _ _ _ H I). Qed.
Lemma load_tag_header_is h m a x : heap_is h m -> In (a, BTagHeader x) m -> load_tag_header (Some a) h = Ok x.
Proof. intros H I. unfold load_tag_header. now rewrite (load_is _ _ _ _ H I). Qed.
Lemma load_tag_block_is h m a x y z : heap_is h m -> In (a, BTag x y z) m -> load_tag_block (Some a) h = Ok (x, y, z).
Proof. intros H I. unfold load_tag_block. now rewrite (load_is _ _ _ _ H I). Qed.

Ltac is_in := repeat first [assumption | apply in_eq | apply in_cons | (apply in_or_app; left; is_in; fail) | (apply in_or_app; right; is_in; fail)].

(** Rewrite the next load with hypothesis [H : heap_is h m]. *)
Ltac ld H :=
  first [ erewrite (load_node_is _ _ _ _ _ _ H) by (cbn [app]; is_in)
        | erewrite (load_frame_is _ _ _ _ _ H) by (cbn [app]; is_in)
        | erewrite (load_frame_header_is _ _ _ _ H) by (cbn [app]; is_in)
        | erewrite (load_text_is _ _ _ _ _ _ H) by (cbn [app]; is_in)
        | erewrite (load_comment_is _ _ _ _ _ _ _ _ H) by (cbn [app]; is_in)
        | erewrite (load_apic_is _ _ _ _ _ _ _ _ _ H) by (cbn [app]; is_in)
        | erewrite (load_tag_header_is _ _ _ _ H) by (cbn [app]; is_in)
        | erewrite (load_tag_block_is _ _ _ _ _ _ H) by (cbn [app]; is_in) ]; cbn [bind].

(** Free the block at [a] (at the front after permuting to [(a, x) :: m]). *)
Lemma free_at h m a x m' : heap_is h m -> Permutation m ((a, x) :: m') ->
  exists h', free (Some a) h = Ok h' /\ heap_is h' m' /\ next h' = next h.
Proof. intros H P. eapply free_is. eapply heap_perm; eassumption. Qed.

Lemma store_at h m a x y m' : heap_is h m -> Permutation m ((a, x) :: m') ->
  exists h', store (Some a) y h = Ok h' /\ heap_is h' ((a, y) :: m') /\ next h' = next h.
Proof. intros H P. eapply store_is. eapply heap_perm; eassumption. Qed.

(** ** Release *)

(** The blocks of a frame that ID3v2_Frame_free leaves. *)
Definition leaked_blocks (l : lay) (f : frame) : list (nat * block) :=
  match f_data f with DRaw _ => [ (l_self l, BFrame (Some (l_header l)) (Some (l_data l))) ] | _ => [] end.

Lemma leaked_length l f : length (leaked_blocks l f) = frame_leak f.
Proof. unfold leaked_blocks, frame_leak. now destruct (f_data f). Qed.

Ltac perm_ev :=
  symmetry; split_cons; repeat rewrite <- app_assoc; cbn [app]; split_cons;
  eapply perm_step; [bring|reflexivity].

Ltac fr H x a' :=
  let h' := fresh "h" in let E := fresh "E" in let H' := fresh "H" in let P := fresh "P" in let m' := fresh "m" in
  lazymatch type of H with heap_is _ ?m =>
    evar (m' : list (nat * block)); assert (P : Permutation m ((a', x) :: m')) by (unfold m'; perm_ev);
    subst m'; destruct (free_at _ _ a' x _ H P) as (h' & E & H' & _);
    rewrite E; cbn [bind]; cbn [app] in H'; clear H E P; rename H' into H
  end.

Lemma header_of_is h m l f : heap_is h m -> incl (frame_blocks l f) m -> header_of (Some (l_self l)) h = Ok (f_hdr f).
Proof.
  intros H I. unfold header_of, frame_blocks in *.
  rewrite (load_frame_is _ _ _ _ _ H (I _ (or_introl eq_refl))). cbn [bind].
  now rewrite (load_frame_header_is _ _ _ _ H (I _ (or_intror (or_introl eq_refl)))).
Qed.

Lemma id0 hd c r x : fh_id hd = Some c :: r -> id0_is hd x = Ok (beq c x).
Proof. intros E. unfold id0_is. rewrite E. reflexivity. Qed.

Lemma beq_neq a b : a <> b -> beq a b = false.
Proof. intros N. destruct (beq a b) eqn:E; [|reflexivity]. apply beq_true in E. contradiction. Qed.

Lemma frame_free h l f m : kind_ok f -> heap_is h (frame_blocks l f ++ m) ->
  exists h', ID3v2_Frame_free (Some (l_self l)) h = Ok h' /\ heap_is h' (leaked_blocks l f ++ m).
Proof.
  intros (c & r & Ei & K) H. unfold ID3v2_Frame_free.
  rewrite (header_of_is _ _ _ _ H (incl_appl _ (incl_refl _))). cbn [bind].
  unfold FrameHeader_isTextFrame, FrameHeader_isCommentFrame, FrameHeader_isApicFrame.
  rewrite !(id0 _ _ _ _ Ei). cbn [bind].
  destruct l as [self hd da x y z], f as [hdr d]. unfold frame_blocks, leaked_blocks in *.
  cbn [f_data f_hdr l_self l_header l_data l_x l_y l_z app] in *.
  destruct d as [d|d|d|raw]; [subst c|subst c|subst c|].
  - change (beq "T" "T") with true. cbv iota. unfold TextFrame_free.
    ld H. fr H (BFrameHeader hdr) hd.
    ld H. ld H. fr H (BBytes (td_text d)) x.
    ld H. fr H (BText (td_size d) (td_encoding d) (Some x)) da.
    fr H (BFrame (Some hd) (Some da)) self. eexists. split; [reflexivity|exact H].
  - change (beq "C" "T") with false. change (beq "C" "C") with true. cbv iota. unfold CommentFrame_free.
    ld H. fr H (BFrameHeader hdr) hd.
    ld H. ld H. fr H (BBytes (cd_comment d)) y.
    ld H. ld H. fr H (BBytes (cd_short d)) x.
    ld H. fr H (BComment (cd_size d) (cd_encoding d) (cd_language d) (Some x) (Some y)) da.
    fr H (BFrame (Some hd) (Some da)) self. eexists. split; [reflexivity|exact H].
  - change (beq "A" "T") with false. change (beq "A" "C") with false. change (beq "A" "A") with true.
    cbv iota. unfold ApicFrame_free.
    ld H. fr H (BFrameHeader hdr) hd.
    ld H. ld H. fr H (BBytes (ad_data d)) z.
    ld H. ld H. fr H (BBytes (ad_desc d)) y.
    ld H. ld H. fr H (BBytes (ad_mime d)) x.
    ld H. fr H (BApic (ad_encoding d) (Some x) (ad_type d) (Some y) (Some z) (ad_picture_size d)) da.
    fr H (BFrame (Some hd) (Some da)) self. eexists. split; [reflexivity|exact H].
  - destruct K as (K1 & K2 & K3). rewrite !beq_neq by assumption.
    ld H. fr H (BFrameHeader hdr) hd.
    ld H. fr H (BBytes raw) da. eexists. split; [reflexivity|exact H].
Qed.

(** ** Creation *)

Ltac mal H :=
  match goal with
  | |- context [malloc ?x ?h] =>
      let h' := fresh "h" in let E := fresh "E" in let H' := fresh "H" in
      destruct (malloc_is h _ x H) as (h' & E & H' & _); rewrite E; clear H; rename H' into H
  end.

Definition made (m : list (nat * block)) (f : frame) (r : nat * heap) : Prop :=
  exists l, fst r = l_self l /\ heap_is (snd r) (frame_blocks l f ++ m).

Lemma text_frame_new h m id flags text : heap_is h m ->
  agrees (made m) (TextFrame_new id flags text) (TextFrame_new_h id flags text h).
Proof.
  intros H. unfold TextFrame_new, TextFrame_new_h, TextFrameData_new_h, FrameHeader_new_h.
  destruct (TextFrameData_new text) as [d| | |]; cbn [bind]; try reflexivity.
  mal H. mal H. cbn [bind].
  apply agrees_same. intros n _. apply agrees_bind with (R := fun a r => malloc (BFrameHeader a) h1 = r).
  { destruct (FrameHeader_new id flags n); cbn [agrees bind]; eauto. }
  intros hd r <-. mal H. cbn [bind]. mal H. apply agrees_ok.
  match goal with Hh : heap_is _ ((?a1, BFrame (Some ?a2) (Some ?a3)) :: _ :: _ :: (?a4, _) :: _) |- _ =>
    exists (mkLay a1 a2 a3 a4 0 0); split; [reflexivity|]; eapply heap_perm; [exact Hh|] end.
  unfold frame_blocks. cbn [f_data f_hdr l_self l_header l_data l_x snd]. reflexivity.
Qed.

Lemma comment_frame_new h m flags lang short comment : heap_is h m ->
  agrees (made m) (CommentFrame_new flags lang short comment) (CommentFrame_new_h flags lang short comment h).
Proof.
  intros H. unfold CommentFrame_new, CommentFrame_new_h, CommentFrameData_new_h, FrameHeader_new_h.
  destruct (CommentFrameData_new lang short comment) as [d| | |]; cbn [bind]; try reflexivity.
  mal H. mal H. mal H. cbn [bind]. do 4 (apply agrees_same; intros ? _).
  apply agrees_bind with (R := fun a r => malloc (BFrameHeader a) h2 = r).
  { destruct (FrameHeader_new ID3v2_COMMENT_FRAME_ID flags _); cbn [agrees bind]; eauto. }
  intros hd r <-. mal H. cbn [bind]. mal H. apply agrees_ok.
  match goal with Hh : heap_is _ ((?a1, BFrame (Some ?a2) (Some ?a3)) :: _ :: _ :: (?a4, _) :: (?a5, _) :: _) |- _ =>
    exists (mkLay a1 a2 a3 a4 a5 0); split; [reflexivity|]; eapply heap_perm; [exact Hh|] end.
  unfold frame_blocks. cbn [f_data f_hdr l_self l_header l_data l_x l_y snd]. reflexivity.
Qed.

Lemma apic_frame_new h m flags desc type mime size data : heap_is h m ->
  agrees (made m) (ApicFrame_new flags desc type mime size data) (ApicFrame_new_h flags desc type mime size data h).
Proof.
  intros H. unfold ApicFrame_new, ApicFrame_new_h, ApicFrameData_new_h, FrameHeader_new_h.
  destruct (ApicFrameData_new desc type mime size data) as [d| | |]; cbn [bind]; try reflexivity.
  mal H. mal H. mal H. mal H. cbn [bind]. do 6 (apply agrees_same; intros ? _).
  apply agrees_bind with (R := fun a r => malloc (BFrameHeader a) h3 = r).
  { destruct (FrameHeader_new ID3v2_ALBUM_COVER_FRAME_ID flags _); cbn [agrees bind]; eauto. }
  intros hd r <-. mal H. cbn [bind]. mal H. apply agrees_ok.
  match goal with Hh : heap_is _ ((?a1, BFrame (Some ?a2) (Some ?a3)) :: _ :: _ :: (?a4, _) :: (?a5, _) :: (?a6, _) :: _) |- _ =>
    exists (mkLay a1 a2 a3 a5 a6 a4); split; [reflexivity|]; eapply heap_perm; [exact Hh|] end.
  unfold frame_blocks. cbn [f_data f_hdr l_self l_header l_data l_x l_y l_z snd]. cbn [app].
  do 3 apply perm_skip. perm.
Qed.
