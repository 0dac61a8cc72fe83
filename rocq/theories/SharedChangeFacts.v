(** Which accesses to memory that others know the programs make. *)
From Verif Require Import BaseFacts Spec ListFacts HeapFacts HeapFrameFacts HeapListFacts HeapTagFacts SpecShared SharedFacts SharedRunFacts SharedSameFacts SharedLogFacts.
From Coq Require Import Lia.

(** A write or a free at one of these addresses. *)
Definition at_old (old : list nat) (x : access) : bool :=
  match x with
  | Reads _ _ => false
  | Writes a _ | Frees a => if in_dec Nat.eq_dec a old then true else false
  end.

Section Old.
  (** The addresses that other threads know. *)
  Variable old : list nat.
  Notation seen := (filter (at_old old)).

  (** The program changes what is at these addresses exactly by the accesses
      [W], in this order, and makes the accesses [R], among others. *)
  Definition leads {A} (p : prog A) (h : heap) (W R : list access) (Q : A -> heap -> Prop) : Prop :=
    exists l a h', does p h l a h' /\ seen l = W /\ incl R l /\ Q a h'.

  Lemma seen_reads l : forallb is_read l = true -> seen l = [].
  Proof.
    induction l as [|x l IH]; [reflexivity|]. intros F. cbn in F. apply andb_true_iff in F as (F & G). destruct x; try discriminate F. cbn. auto.
  Qed.
  Lemma seen_writes a f : In a old -> seen [Writes a f] = [Writes a f].
  Proof. intros I. cbn. destruct (in_dec Nat.eq_dec a old); [reflexivity|contradiction]. Qed.
  Lemma seen_frees a : In a old -> seen [Frees a] = [Frees a].
  Proof. intros I. cbn. destruct (in_dec Nat.eq_dec a old); [reflexivity|contradiction]. Qed.
  Lemma unseen_writes a f : ~ In a old -> seen [Writes a f] = [].
  Proof. intros I. cbn. destruct (in_dec Nat.eq_dec a old); [contradiction|reflexivity]. Qed.
  Lemma unseen_frees a : ~ In a old -> seen [Frees a] = [].
  Proof. intros I. cbn. destruct (in_dec Nat.eq_dec a old); [contradiction|reflexivity]. Qed.

  Lemma e_ret {A} (a : A) h (Q : A -> heap -> Prop) : Q a h -> leads (retp a) h [] [] Q.
  Proof. intros q. exists [], a, h. split; [apply d_ret|]. split; [reflexivity|]. split; [apply incl_refl|exact q]. Qed.
  Lemma e_bind {A B} (p : prog A) (f : A -> prog B) h W1 R1 Q1 W2 R2 W R Q :
    leads p h W1 R1 Q1 -> (forall a h1, Q1 a h1 -> leads (f a) h1 W2 R2 Q) -> W = W1 ++ W2 -> incl R (R1 ++ R2) -> leads (bindp p f) h W R Q.
  Proof.
    intros (l1 & a & h1 & D1 & F1 & I1 & q1) K -> IR. destruct (K a h1 q1) as (l2 & b & h2 & D2 & F2 & I2 & q2).
    exists (l1 ++ l2), b, h2. split; [eapply d_bind; eassumption|]. split; [now rewrite filter_app, F1, F2|]. split; [|exact q2].
    intros x Ix. apply IR in Ix. apply in_app_iff in Ix as [Ix|Ix]; apply in_or_app; auto.
  Qed.
  Lemma e_does {A B} (p : prog A) (f : A -> prog B) h l a h1 W R Q : does p h l a h1 -> forallb is_read l = true ->
    leads (f a) h1 W R Q -> leads (bindp p f) h W (l ++ R) Q.
  Proof.
    intros D F (l2 & b & h2 & D2 & F2 & I2 & q2). exists (l ++ l2), b, h2. split; [eapply d_bind; eassumption|].
    split; [now rewrite filter_app, seen_reads, F2|]. split; [|exact q2]. apply incl_app; [now apply incl_appl, incl_refl|now apply incl_appr].
  Qed.
  Lemma e_weak {A} (p : prog A) h W R R' (Q Q' : A -> heap -> Prop) : leads p h W R Q -> incl R' R -> (forall a h', Q a h' -> Q' a h') -> leads p h W R' Q'.
  Proof. intros (l & a & h' & D & F & I & q) IR K. exists l, a, h'. split; [exact D|]. split; [exact F|]. split; [eauto using incl_tran|auto]. Qed.
  Lemma e_read {A B} (p : prog A) (f : A -> prog B) h l a h1 W R Q : does p h l a h1 -> forallb is_read l = true ->
    leads (f a) h1 W R Q -> leads (bindp p f) h W R Q.
  Proof. intros D F K. eapply e_weak; [eapply e_does; eassumption|apply incl_appr, incl_refl|auto]. Qed.
  Lemma e_tail {A} (p : prog A) h W R Q : leads (bindp p retp) h W R Q -> leads p h W R Q.
  Proof.
    intros (l & a & h' & (Er & El) & F & I & q). exists l, a, h'. split; [|auto]. rewrite run_bind in Er. rewrite log_bind in El.
    destruct (run p h) as [[b h1]| | |] eqn:E; cbn [bind fst snd run retp] in Er; try discriminate Er. injection Er as -> ->.
    cbn [or_nil fst snd log retp] in El. rewrite app_nil_r in El. now split.
  Qed.
  Lemma e_look {A} h m a x f q (k : ptr -> prog A) W R Q : heap_is h m -> In (a, x) m -> get_field f x = Some (VPtr q) ->
    leads (k q) h W R Q -> leads (bindp (look_ptr (Some a) f) k) h W (Reads a f :: R) Q.
  Proof. intros H I G K. change (?x :: ?l) with ([x] ++ l) at 1. eapply e_does; [eapply d_look_ptr; eassumption|reflexivity|exact K]. Qed.
  Lemma e_look_int {A} h m a x f q (k : Z -> prog A) W R Q : heap_is h m -> In (a, x) m -> get_field f x = Some (VInt q) ->
    leads (k q) h W R Q -> leads (bindp (look_int (Some a) f) k) h W (Reads a f :: R) Q.
  Proof. intros H I G K. change (?x :: ?l) with ([x] ++ l) at 1. eapply e_does; [eapply d_look_int; eassumption|reflexivity|exact K]. Qed.
  Lemma e_peek {A} h m a x f q (k : ptr -> prog A) W R Q : heap_is h m -> In (a, x) m -> get_field f x = Some (VPtr q) ->
    leads (k q) h W R Q -> leads (bindp (look_ptr (Some a) f) k) h W R Q.
  Proof. intros H I G K. eapply e_read; [eapply d_look_ptr; eassumption|reflexivity|exact K]. Qed.
  Lemma e_stop {A B} (o : outcome A) (k : A -> prog B) a h W R Q : o = Ok a -> leads (k a) h W R Q -> leads (bindp (Stop o) k) h W R Q.
  Proof. intros -> K. exact K. Qed.
  Lemma e_make {A} h m x (k : nat -> prog A) W R Q : heap_is h m -> incl old (map fst m) ->
    (forall a h1, heap_is h1 ((a, x) :: m) -> ~ In a old -> leads (k a) h1 W R Q) -> leads (bindp (make x) k) h W R Q.
  Proof.
    intros H O K. destruct (d_make _ _ x H) as (h' & D & H'). eapply e_read; [exact D|reflexivity|]. apply K; [exact H'|].
    intros I. apply O in I. destruct H as (_ & _ & B). eapply Forall_forall in B; [|exact I]. lia.
  Qed.
  Lemma e_set {A} h m a x f v y m' (k : unit -> prog A) W R Q : heap_is h m -> Permutation m ((a, x) :: m') -> set_field f v x = Some y ->
    (forall h1, heap_is h1 ((a, y) :: m') -> leads (k tt) h1 W R Q) ->
    leads (bindp (Change (Some a) f v (retp tt)) k) h (seen [Writes a f] ++ W) R Q.
  Proof.
    intros H P S K. destruct (d_change _ _ _ _ _ _ _ _ H P S) as (h1 & D & H1). destruct (K h1 H1) as (l2 & b & h2 & D2 & F2 & I2 & q2).
    exists ([Writes a f] ++ l2), b, h2. split; [eapply d_bind; eassumption|]. split; [now rewrite filter_app, F2|]. split; [|exact q2].
    now apply incl_appr.
  Qed.
  Lemma e_drop {A} h m a x m' (k : unit -> prog A) W R Q : heap_is h m -> Permutation m ((a, x) :: m') ->
    (forall h1, heap_is h1 m' -> leads (k tt) h1 W R Q) -> leads (bindp (drop (Some a)) k) h (seen [Frees a] ++ W) R Q.
  Proof.
    intros H P K. destruct (d_drop _ _ _ _ _ H P) as (h1 & D & H1). destruct (K h1 H1) as (l2 & b & h2 & D2 & F2 & I2 & q2).
    exists ([Frees a] ++ l2), b, h2. split; [eapply d_bind; eassumption|]. split; [now rewrite filter_app, F2|]. split; [|exact q2].
    now apply incl_appr.
  Qed.
  Lemma e_set_new {A} h m a x f v y m' (k : unit -> prog A) W R Q : heap_is h m -> Permutation m ((a, x) :: m') -> set_field f v x = Some y -> ~ In a old ->
    (forall h1, heap_is h1 ((a, y) :: m') -> leads (k tt) h1 W R Q) -> leads (bindp (Change (Some a) f v (retp tt)) k) h W R Q.
  Proof. intros H P S N K. pose proof (e_set _ _ _ _ _ _ _ _ _ _ _ _ H P S K) as G. now rewrite (unseen_writes a f N) in G. Qed.
  Lemma e_drop_new {A} h m a x m' (k : unit -> prog A) W R Q : heap_is h m -> Permutation m ((a, x) :: m') -> ~ In a old ->
    (forall h1, heap_is h1 m' -> leads (k tt) h1 W R Q) -> leads (bindp (drop (Some a)) k) h W R Q.
  Proof. intros H P N K. pose proof (e_drop _ _ _ _ _ _ _ _ _ H P K) as G. now rewrite (unseen_frees a N) in G. Qed.

  (** ** Frames *)

  (** The blocks that ID3v2_Frame_free frees. *)
  Definition freed (l : lay) (f : frame) : list nat :=
    match f_data f with
    | DText _ => [l_header l; l_x l; l_data l; l_self l]
    | DComment _ => [l_header l; l_y l; l_x l; l_data l; l_self l]
    | DApic _ => [l_header l; l_z l; l_y l; l_x l; l_data l; l_self l]
    | DRaw _ => [l_header l; l_data l]
    end.

  Ltac pk := eapply e_peek; [eassumption|cbn [app]; is_in|reflexivity|].
  Ltac dr x a' :=
    let m' := fresh "m" in let P := fresh "P" in
    match goal with H : heap_is ?h ?m |- leads (bindp (drop _) _) ?h _ _ _ =>
      evar (m' : list (nat * block)); assert (P : Permutation m ((a', x) :: m')) by (unfold m'; perm_ev); subst m';
      eapply (e_drop h m a' x); [exact H|exact P|]; let h1 := fresh "h" in let H1 := fresh "H" in
      intros h1 H1; cbn [app] in H1; clear P H; rename H1 into H
    end.

  Lemma e_Frame_free {A} h l f m (k : unit -> prog A) W R Q : kind_ok f -> heap_is h (frame_blocks l f ++ m) ->
    (forall h1, heap_is h1 (leaked_blocks l f ++ m) -> leads (k tt) h1 W R Q) ->
    leads (bindp (ID3v2_Frame_free_p (Some (l_self l))) k) h (seen (map Frees (freed l f)) ++ W) R Q.
  Proof.
    intros (c & r & Ei & K) H N.
    assert (G : leads (ID3v2_Frame_free_p (Some (l_self l))) h (seen (map Frees (freed l f))) [] (fun _ h1 => heap_is h1 (leaked_blocks l f ++ m))).
    2:{ eapply e_bind; [exact G|intros [] h1 H1; apply N, H1|reflexivity|apply incl_refl]. }
    clear N. unfold ID3v2_Frame_free_p.
    eapply e_read; [eapply d_id_of; [exact H|apply incl_appl, incl_refl]|reflexivity|].
    unfold FrameHeader_isTextFrame, FrameHeader_isCommentFrame, FrameHeader_isApicFrame.
    eapply e_stop; [eapply id0; exact Ei|]. eapply e_stop; [eapply id0; exact Ei|]. eapply e_stop; [eapply id0; exact Ei|].
    destruct l as [self hd da x y z], f as [hdr d]. unfold frame_blocks, leaked_blocks, freed in *.
    cbn [f_data f_hdr l_self l_header l_data l_x l_y l_z app] in *.
    destruct d as [d|d|d|raw]; [subst c|subst c|subst c|]; cbn [map];
      repeat (rewrite (filter_app (at_old old) [_]) || match goal with |- context [seen (?x :: ?y :: ?l)] => change (x :: y :: l) with ([x] ++ y :: l) end).
    - change (beq "T" "T") with true. cbv iota. unfold TextFrame_free_p.
      pk. dr (BFrameHeader hdr) hd. pk. pk. dr (BBytes (td_text d)) x.
      pk. dr (BText (td_size d) (td_encoding d) (Some x)) da. apply e_tail.
      rewrite <- (app_nil_r (seen [_])). dr (BFrame (Some hd) (Some da)) self. now apply e_ret.
    - change (beq "C" "T") with false. change (beq "C" "C") with true. cbv iota. unfold CommentFrame_free_p.
      pk. dr (BFrameHeader hdr) hd. pk. pk. dr (BBytes (cd_comment d)) y.
      pk. pk. dr (BBytes (cd_short d)) x.
      pk. dr (BComment (cd_size d) (cd_encoding d) (cd_language d) (Some x) (Some y)) da. apply e_tail.
      rewrite <- (app_nil_r (seen [_])). dr (BFrame (Some hd) (Some da)) self. now apply e_ret.
    - change (beq "A" "T") with false. change (beq "A" "C") with false. change (beq "A" "A") with true.
      cbv iota. unfold ApicFrame_free_p.
      pk. dr (BFrameHeader hdr) hd. pk. pk. dr (BBytes (ad_data d)) z.
      pk. pk. dr (BBytes (ad_desc d)) y. pk. pk. dr (BBytes (ad_mime d)) x.
      pk. dr (BApic (ad_encoding d) (Some x) (ad_type d) (Some y) (Some z) (ad_picture_size d)) da. apply e_tail.
      rewrite <- (app_nil_r (seen [_])). dr (BFrame (Some hd) (Some da)) self. now apply e_ret.
    - destruct K as (K1 & K2 & K3). rewrite !beq_neq by assumption.
      pk. dr (BFrameHeader hdr) hd. pk. apply e_tail.
      rewrite <- (app_nil_r (seen [_])). dr (BBytes raw) da. now apply e_ret.
  Qed.

  (** ** New frames *)

  Definition silent {A} (p : prog A) : Prop := forall h, log p h = [].
  Lemma silent_stop {A} (o : outcome A) : silent (Stop o).
  Proof. intros h. reflexivity. Qed.
  Lemma silent_make x : silent (make x).
  Proof. intros h. cbn [make log]. now destruct (malloc x h). Qed.
  Lemma silent_bind {A B} (p : prog A) (f : A -> prog B) : silent p -> (forall a, silent (f a)) -> silent (bindp p f).
  Proof. intros S K h. rewrite log_bind, S. destruct (run p h) as [[a h1]| | |]; cbn [or_nil app]; try reflexivity. apply K. Qed.
  Lemma e_silent {A B} (p : prog A) (k : A -> prog B) a h h1 W R Q : silent p -> run p h = Ok (a, h1) -> leads (k a) h1 W R Q -> leads (bindp p k) h W R Q.
  Proof. intros S E K. eapply e_read; [split; [exact E|apply S]|reflexivity|exact K]. Qed.

  Ltac quiet := repeat first [apply silent_stop | apply silent_make | apply silent_bind; [|intros ?; try (match goal with |- silent (let (_, _) := ?x in _) => destruct x end)]].

  Lemma e_text_new {B} h m id fl t f (k : nat -> prog B) W R Q : heap_is h m -> TextFrame_new id fl t = Ok f ->
    (forall l h1, heap_is h1 (frame_blocks l f ++ m) -> leads (k (l_self l)) h1 W R Q) -> leads (bindp (TextFrame_new_p id fl t) k) h W R Q.
  Proof.
    intros H E K. pose proof (text_frame_new h m id fl t H) as G. rewrite E in G. destruct G as ((a & h1) & G & l & L & Hh). cbn [fst snd] in *. subst a.
    eapply e_silent; [|rewrite s_TextFrame_new; exact G|now apply K].
    unfold TextFrame_new_p, TextFrameData_new_p, FrameHeader_new_p. quiet.
  Qed.
  Lemma e_comment_new {B} h m fl la sd co f (k : nat -> prog B) W R Q : heap_is h m -> CommentFrame_new fl la sd co = Ok f ->
    (forall l h1, heap_is h1 (frame_blocks l f ++ m) -> leads (k (l_self l)) h1 W R Q) -> leads (bindp (CommentFrame_new_p fl la sd co) k) h W R Q.
  Proof.
    intros H E K. pose proof (comment_frame_new h m fl la sd co H) as G. rewrite E in G. destruct G as ((a & h1) & G & l & L & Hh). cbn [fst snd] in *. subst a.
    eapply e_silent; [|rewrite s_CommentFrame_new; exact G|now apply K].
    unfold CommentFrame_new_p, CommentFrameData_new_p, FrameHeader_new_p. quiet.
  Qed.
  Lemma e_apic_new {B} h m fl de ty mi n da f (k : nat -> prog B) W R Q : heap_is h m -> ApicFrame_new fl de ty mi n da = Ok f ->
    (forall l h1, heap_is h1 (frame_blocks l f ++ m) -> leads (k (l_self l)) h1 W R Q) -> leads (bindp (ApicFrame_new_p fl de ty mi n da) k) h W R Q.
  Proof.
    intros H E K. pose proof (apic_frame_new h m fl de ty mi n da H) as G. rewrite E in G. destruct G as ((a & h1) & G & l & L & Hh). cbn [fst snd] in *. subst a.
    eapply e_silent; [|rewrite s_ApicFrame_new; exact G|now apply K].
    unfold ApicFrame_new_p, ApicFrameData_new_p, FrameHeader_new_p. quiet.
  Qed.

  (** ** Lists *)

  Lemma e_grow {B} h a ah hd pd th m d (k : unit -> prog B) W R Q :
    heap_is h ((a, BTag (Some ah) hd pd) :: (ah, BTagHeader th) :: m) ->
    (forall h1, heap_is h1 ((a, BTag (Some ah) hd pd) :: (ah, BTagHeader (with_tag_size th (th_tag_size th + d))) :: m) -> leads (k tt) h1 W R Q) ->
    leads (bindp (grow_p (Some a) d) k) h (seen [Writes ah TagSize] ++ W) R Q.
  Proof.
    intros H K.
    assert (G : leads (grow_p (Some a) d) h (seen [Writes ah TagSize]) [] (fun _ h1 => heap_is h1 ((a, BTag (Some ah) hd pd) :: (ah, BTagHeader (with_tag_size th (th_tag_size th + d))) :: m))).
    2:{ eapply e_bind; [exact G|intros [] h1 H1; apply K, H1|reflexivity|apply incl_refl]. }
    unfold grow_p. pk. eapply e_weak; [eapply e_look_int; [exact H|right; now left|reflexivity|]|intros x []|intros x y q; exact q].
    apply e_tail. rewrite <- (app_nil_r (seen [_])). unfold set_int.
    eapply e_set; [exact H|apply perm_swap|reflexivity|]. intros h1 H1. apply e_ret. eapply heap_perm; [exact H1|apply perm_swap].
  Qed.

  (** What is left after FrameList_remove_frame has cut a node out. *)
  Definition closed_up (q : pnode) (s2 : list pnode) : list pnode :=
    match s2 with
    | [] => [mkP (p_addr q) (p_lay q) empty_node]
    | r :: s2 => mkP (p_addr q) (p_lay r) (p_node r) :: s2
    end.
  Definition cut_log (q : pnode) (s2 : list pnode) : list access :=
    [Writes (p_addr q) NodeFrame; Writes (p_addr q) NodeStart; Writes (p_addr q) NodeNext]
    ++ match s2 with [] => [] | r :: _ => [Frees (p_addr r)] end.

  Lemma e_cut {B} h head s1 q s2 m (k : unit -> prog B) W R Q :
    heap_is h (node_blocks head (s1 ++ q :: s2) ++ m) -> incl old (map fst (node_blocks head (s1 ++ q :: s2) ++ m)) ->
    (forall h1, heap_is h1 (node_blocks head (s1 ++ closed_up q s2) ++ m) -> leads (k tt) h1 W R Q) ->
    leads (bindp (cut_node_p (Some (p_addr q))) k) h (seen (cut_log q s2) ++ W) R Q.
  Proof.
    intros H O K.
    assert (G : leads (cut_node_p (Some (p_addr q))) h (seen (cut_log q s2)) [] (fun _ h1 => heap_is h1 (node_blocks head (s1 ++ closed_up q s2) ++ m))).
    2:{ eapply e_bind; [exact G|intros [] h1 H1; apply K, H1|reflexivity|apply incl_refl]. }
    clear K. unfold cut_node_p, cut_log, FrameList_new_p. rewrite nodes_app in H. cbn [node_blocks] in H.
    eapply e_peek; [exact H|is_in|reflexivity|].
    destruct s2 as [|r s2]; cbn [first_addr closed_up].
    - cbn [node_blocks] in H.
      change (make ?x) with (Make x retp). cbn [bindp retp]. change (Make ?x ?k) with (bindp (make x) k).
      eapply e_make; [exact H| |].
      { intros x Ix. apply O in Ix. rewrite nodes_app in Ix. exact Ix. }
      intros a h1 H1 Na. pk. pk. pk. unfold set_ptr.
      rewrite app_nil_r. change [?x; ?y; ?z] with ([x] ++ [y] ++ [z]). rewrite !filter_app.
      set (rest := (a, BNode None None None) :: seg head s1 (Some (p_addr q)) ++ m) in *.
      eapply e_set with (m' := rest); [exact H1|unfold rest; perm|reflexivity|]. intros h2 H2.
      eapply e_set; [exact H2|reflexivity|reflexivity|]. intros h3 H3.
      rewrite <- (app_nil_r (seen [Writes _ NodeNext])).
      eapply e_set; [exact H3|reflexivity|reflexivity|]. intros h4 H4.
      apply e_tail. eapply e_drop_new; [exact H4|unfold rest; apply perm_swap|exact Na|]. intros h5 H5. apply e_ret. eapply heap_perm; [exact H5|].
      rewrite nodes_app. cbn [node_blocks first_addr p_addr p_node]. unfold p_frame. cbn [p_node n_frame n_start empty_node]. perm.
    - cbn [node_blocks] in H.
      set (RR := BNode (p_frame r) (if n_start (p_node r) then Some head else None) (first_addr s2)) in *.
      set (QQ := BNode (p_frame q) (if n_start (p_node q) then Some head else None) (first_addr (r :: s2))) in *.
      eapply e_peek; [exact H|unfold QQ; is_in|reflexivity|]. cbn [first_addr].
      eapply e_peek; [exact H|unfold RR; is_in|reflexivity|]. eapply e_peek; [exact H|unfold RR; is_in|reflexivity|]. eapply e_peek; [exact H|unfold RR; is_in|reflexivity|].
      unfold set_ptr. change ([?x; ?y; ?z] ++ [?u]) with ([x] ++ [y] ++ [z] ++ [u]). rewrite !filter_app.
      set (rest := (p_addr r, RR) :: seg head s1 (Some (p_addr q)) ++ node_blocks head s2 ++ m) in *.
      eapply e_set with (m' := rest); [exact H|unfold rest; cbn [first_addr] in *; perm|reflexivity|]. intros h2 H2.
      eapply e_set; [exact H2|reflexivity|reflexivity|]. intros h3 H3.
      eapply e_set; [exact H3|reflexivity|reflexivity|]. intros h4 H4.
      apply e_tail. rewrite <- (app_nil_r (seen [_])).
      eapply e_drop; [exact H4|unfold rest; apply perm_swap|]. intros h5 H5. apply e_ret. eapply heap_perm; [exact H5|].
      rewrite nodes_app. cbn [node_blocks first_addr p_addr p_node].
      change (p_frame (mkP (p_addr q) (p_lay r) (p_node r))) with (p_frame r). fold RR. perm.
  Qed.
End Old.
