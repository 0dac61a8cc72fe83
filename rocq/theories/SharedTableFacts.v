(** Which requests race. *)
From Verif Require Import BaseFacts Spec ListFacts FrameFacts EditFacts HeapFacts HeapFrameFacts HeapListFacts HeapTagFacts SpecShared SharedFacts SharedRunFacts SharedSameFacts SharedLogFacts SharedChangeFacts SharedWalkFacts SharedTagFacts SharedOpFacts SharedSaveFacts.
From Coq Require Import Lia.

Definition acc_addr (x : access) : nat := match x with Reads a _ | Writes a _ | Frees a => a end.

Lemma clash_addr x y : clash x y -> acc_addr x = acc_addr y.
Proof. destruct x, y; cbn; tauto. Qed.

(** ** Threads meet only at what was there before *)

Lemma touches_where {A} (x : prog A * heap) y : well x -> touches x y ->
  In (acc_addr y) (map fst (live (snd x))) \/ allocates x (acc_addr y).
Proof.
  intros W (k & P). pose proof (alone_steps x k (w_fine _ W)) as T. destruct (alone_live x W k) as (_ & Al).
  assert (I : In (acc_addr y) (map fst (live (snd (alone k x))))).
  { destruct T as [o h|a f k' h z v L G|a f v k' h z z' L G|z k' h|k' h|a k' h z L]; try discriminate P; injection P as <-; cbn [acc_addr];
      (destruct (in_dec Nat.eq_dec a (map fst (live h))) as [I|N]; [exact I|apply lookup_none in N; congruence]). }
  destruct (Al _ I) as ([J|J] & U); [now left|right]. split; [exact J|]. now exists k.
Qed.

Lemma clash_old {A} (w : world A) : apart w -> (forall i, fine (start w i)) -> forall i j x y, i <> j ->
  touches (start w i) x -> touches (start w j) y -> clash x y -> In (acc_addr x) (map fst (fst w)).
Proof.
  intros S F i j x y N Tx Ty C. pose proof (clash_addr _ _ C) as E.
  destruct (touches_where _ _ (start_well w S F i) Tx) as [I|Ax]; [exact I|].
  destruct (touches_where _ _ (start_well w S F j) Ty) as [I|Ay]; [rewrite E; exact I|].
  rewrite <- E in Ay. exfalso. destruct S as (_ & _ & S). exact (S i j _ N Ax Ay).
Qed.

(** ** Where the reads of a lookup are *)

Inductive looks (pl : list pnode) (n : nat) : access -> Prop :=
| LFrame i q : nth_error pl i = Some q -> (i <= n)%nat -> looks pl n (Reads (p_addr q) NodeFrame)
| LNext i q : nth_error pl i = Some q -> (i < n)%nat -> looks pl n (Reads (p_addr q) NodeNext)
| LHead i q b f : nth_error pl i = Some q -> (i <= n)%nat -> In b (map fst (p_frame_blocks q)) -> f = FrameHead \/ f = HeadId -> looks pl n (Reads b f).

Lemma looks_cons p pl n y : looks pl n y -> looks (p :: pl) (S n) y.
Proof.
  intros [i q N L|i q N L|i q b f N L I F]; [eapply LFrame with (i := S i)|eapply LNext with (i := S i)|eapply LHead with (i := S i)]; eauto; lia.
Qed.
Lemma reach_cons id p pl e : p_node p = mkNode (Some e) true ->
  reach id (fof (p :: pl)) = if named id (fp_frame e) then O else S (reach id (fof pl)).
Proof.
  intros Ep. rewrite fof_cons, Ep. cbn [n_frame app]. unfold reach. cbn [first_pos]. destruct (named id (fp_frame e)); [reflexivity|].
  destruct (first_pos (named id) (fof pl)); reflexivity.
Qed.
Lemma get_log_looks id pl y : full pl \/ (exists p, pl = [p] /\ p_node p = empty_node) -> In y (get_log id pl) -> looks pl (reach id (fof pl)) y.
Proof.
  intros [F|(p & -> & Np)].
  - induction pl as [|p pl IH]; [intros []|]. apply full_cons in F as ((e & Ep) & F). rewrite (reach_cons id p pl e Ep). cbn [get_log]. rewrite Ep. cbn [n_frame].
    assert (Bp : p_frame_blocks p = frame_blocks (p_lay p) (fp_frame e)) by (unfold p_frame_blocks; now rewrite Ep).
    assert (A : forall n, looks (p :: pl) n (Reads (p_addr p) NodeFrame)) by (intros n; apply (LFrame _ _ 0 p); [reflexivity|lia]).
    intros [<-|I]; [apply A|]. cbn [app In] in I. destruct I as [<-|[<-|[<-|I]]]; [apply A| | |].
    + apply (LHead _ _ 0 p); [reflexivity|lia|rewrite Bp; now left|now left].
    + apply (LHead _ _ 0 p); [reflexivity|lia|rewrite Bp; right; now left|now right].
    + destruct (named id (fp_frame e)).
      * destruct I as [<-|[]]. apply A.
      * destruct I as [<-|I]; [apply (LNext _ _ 0 p); [reflexivity|lia]|]. apply looks_cons, IH; auto.
  - cbn [get_log]. rewrite Np. cbn [n_frame empty_node]. intros [<-|[]]. apply (LFrame _ _ 0 p); [reflexivity|lia].
Qed.
(** Those that are sure to be there. *)
Lemma get_log_frame id : forall pl i q, nth_error pl i = Some q -> full pl -> (i <= reach id (fof pl))%nat -> In (Reads (p_addr q) NodeFrame) (get_log id pl).
Proof.
  induction pl as [|p pl IH]; intros i q N F L; [now destruct i|]. apply full_cons in F as ((e & Ep) & F). rewrite (reach_cons id p pl e Ep) in L.
  cbn [get_log]. destruct i as [|i]; [injection N as <-; now left|]. cbn [nth_error] in N. right. rewrite Ep. cbn [n_frame].
  apply in_or_app. right. destruct (named id (fp_frame e)); [lia|]. right. eapply IH; eauto. lia.
Qed.
Lemma get_log_next id : forall pl i q, nth_error pl i = Some q -> full pl -> (i < reach id (fof pl))%nat -> In (Reads (p_addr q) NodeNext) (get_log id pl).
Proof.
  induction pl as [|p pl IH]; intros i q N F L; [now destruct i|]. apply full_cons in F as ((e & Ep) & F). rewrite (reach_cons id p pl e Ep) in L.
  cbn [get_log]. right. rewrite Ep. cbn [n_frame]. apply in_or_app. right. destruct (named id (fp_frame e)); [lia|].
  destruct i as [|i]; [injection N as <-; now left|]. right. eapply IH; eauto. lia.
Qed.

Lemma all_reads_frame pl q : In q pl -> In (Reads (p_addr q) NodeFrame) (all_reads pl).
Proof.
  intros I. unfold all_reads. destruct (listed pl); [apply in_map_iff; eauto|]. unfold walk. apply in_flat_map. exists q. split; [exact I|now left].
Qed.
Lemma all_reads_next pl q : full pl -> In q pl -> In (Reads (p_addr q) NodeNext) (all_reads pl).
Proof.
  intros F I. unfold all_reads. pose proof (listed_length pl F) as L. destruct (listed pl); [destruct pl; [destruct I|discriminate L]|].
  unfold walk. apply in_flat_map. exists q. split; [exact I|right; now left].
Qed.

(** ** The table *)

Section Table.
  Variables (a ah head : nat) (pd : Z) (th : TagHeader) (rest : list (nat * block)) (pl : list pnode) (old : list nat).
  Notation base := ((a, BTag (Some ah) (Some head) pd) :: (ah, BTagHeader th) :: rest).
  Hypothesis O : olds old a ah head pd th rest pl.
  Hypothesis D : NoDup (map fst (node_blocks head pl ++ all_frame_blocks pl ++ base)).
  Hypothesis G : good pl.
  Notation seen := (filter (at_old old)).

  Lemma nodes_fst l : map fst (node_blocks head l) = map p_addr l.
  Proof. induction l as [|p l IH]; [reflexivity|]. cbn [node_blocks map fst]. now rewrite IH. Qed.

  Lemma node_once i j p q : nth_error pl i = Some p -> nth_error pl j = Some q -> p_addr p = p_addr q -> i = j.
  Proof.
    intros Ni Nj E. assert (Dn := D). rewrite map_app in Dn. apply NoDup_app_l in Dn. rewrite nodes_fst in Dn.
    rewrite NoDup_nth_error in Dn. apply Dn.
    - rewrite map_length. apply nth_error_Some. congruence.
    - rewrite !nth_error_map, Ni, Nj. cbn. now rewrite E.
  Qed.
  Lemma in_frames q b : In q pl -> In b (map fst (p_frame_blocks q)) -> In b (map fst (all_frame_blocks pl)).
  Proof. intros I J. unfold all_frame_blocks. rewrite map_fst_flat_map. apply in_flat_map. eauto. Qed.
  Lemma node_not_frame p q b : In p pl -> In q pl -> In b (map fst (p_frame_blocks q)) -> p_addr p <> b.
  Proof.
    intros Ip Iq J E. apply (in_frames q b Iq) in J. assert (Dn := D). rewrite map_app in Dn. rewrite nodes_fst in Dn. 
    apply (in_map p_addr) in Ip. rewrite E in Ip. revert Dn Ip. generalize (map p_addr pl) as u. intros u. induction u as [|x u IH]; [intros _ []|].
    cbn [app]. intros Dn [->|Ip]; inversion Dn as [|? ? Nx Dn']; subst; [|now apply IH].
    apply Nx, in_or_app. right. rewrite map_app. apply in_or_app. now left.
  Qed.
  Lemma frame_once i j p q b : nth_error pl i = Some p -> nth_error pl j = Some q -> In b (map fst (p_frame_blocks p)) -> In b (map fst (p_frame_blocks q)) -> i = j.
  Proof.
    intros Ni Nj Ip Iq. assert (Dn := D). rewrite map_app in Dn. apply NoDup_app_r in Dn. rewrite map_app in Dn. apply NoDup_app_l in Dn.
    unfold all_frame_blocks in Dn. rewrite map_fst_flat_map in Dn.
    assert (p = q) as <- by (eapply flat_map_unique; eauto using nth_error_In).
    now apply (node_once i j p p).
  Qed.
  Lemma a_not_node p : In p pl -> p_addr p <> a.
  Proof.
    intros Ip E. assert (Dn := D). rewrite map_app, nodes_fst in Dn. apply (in_map p_addr) in Ip. rewrite E in Ip. revert Dn Ip. generalize (map p_addr pl) as u.
    intros u. induction u as [|x u IH]; [intros _ []|]. cbn [app]. intros Dn [->|Ip]; inversion Dn as [|? ? Nx Dn']; subst; [|now apply IH].
    apply Nx, in_or_app. right. rewrite map_app. apply in_or_app. right. now left.
  Qed.
  Lemma a_not_frame q b : In q pl -> In b (map fst (p_frame_blocks q)) -> b <> a.
  Proof.
    intros Iq J ->. apply (in_frames q a Iq) in J. assert (Dn := D). rewrite map_app in Dn. apply NoDup_app_r in Dn. rewrite map_app in Dn.
    cbn [map fst] in Dn. apply NoDup_remove_2 in Dn. apply Dn, in_or_app. now left.
  Qed.

  (** What a thread with this request accesses. *)
  Definition accesses (o : op) (l : list access) : Prop :=
    match o with
    | OGet id => l = Reads a TagFrames :: get_log id pl
    | OGetAll _ => seen l = [] /\ incl (Reads a TagFrames :: all_reads pl) l
    | OText k => exists q x d, nth_error pl k = Some q /\ n_frame (p_node q) = Some x /\ f_data (fp_frame x) = DText d
        /\ l = [Reads (l_self (p_lay q)) FrameData; Reads (l_data (p_lay q)) TextText; Reads (l_x (p_lay q)) Chars]
    | OEdit e => exists W, shaped ah pl e W /\ seen l = W /\ incl (edit_reads a e pl) l /\ deletes_one e (fof pl)
    | OFree => seen l = seen ([Frees ah] ++ free_log pl ++ [Frees a])
    | OSave _ => seen l = [Writes a TagPadding] /\ incl (Reads a TagFrames :: all_reads pl) l
    end.
  (** Only who saves uses padding_size. *)
  Definition unpadded (o : op) (l : list access) : Prop :=
    match o with OSave _ => True | _ => forall x, In x l -> ~ on_field TagPadding x end.

  Definition meet (l l' : list access) : Prop := exists x y, In x l /\ In y l' /\ clash x y /\ In (acc_addr x) old.

  Lemma meet_sym l l' : meet l l' -> meet l' l.
  Proof.
    intros (x & y & Ix & Iy & C & A). exists y, x. repeat split; auto; [now apply clash_sym|]. rewrite <- (clash_addr _ _ C). exact A.
  Qed.
  Lemma conflict_sym fs o o' : conflict fs o o' -> conflict fs o' o.
  Proof. destruct o, o'; cbn; tauto. Qed.

  Lemma in_seen x l : In x l -> In (acc_addr x) old -> (forall b f, x <> Reads b f) -> In x (seen l).
  Proof.
    intros I A N. apply filter_In. split; [exact I|]. destruct x as [b f|b f|b]; [now destruct (N b f)| |]; cbn in *; now destruct (in_dec Nat.eq_dec b old).
  Qed.

  Lemma full_or_hole : full pl \/ (exists p, pl = [p] /\ p_node p = empty_node).
  Proof. destruct (good_cases pl G) as [(p & E & Np & _)|(F & _)]; [right; eauto|now left]. Qed.

  (** A change meets only what it conflicts with. *)
  Lemma meet_conflict o o' l l' x y : accesses o l -> accesses o' l' -> unpadded o' l' -> In x l -> In y l' -> clash x y -> In (acc_addr x) old ->
    (forall b f, x <> Reads b f) -> conflict (fof pl) o o'.
  Proof.
    intros A A' U Ix Iy C Ox Nr. pose proof (in_seen _ _ Ix Ox Nr) as Sx. destruct o as [id|id|k|e| |f]; cbn [accesses] in A.
    - subst l. rewrite (seen_reads old) in Sx; [destruct Sx|]. cbn [forallb is_read andb]. apply get_log_reads.
    - destruct A as (A & _). rewrite A in Sx. destruct Sx.
    - destruct A as (q & z & d & _ & _ & _ & ->). rewrite (seen_reads old) in Sx; [destruct Sx|reflexivity].
    - destruct A as (W & Sh & EW & _ & _). rewrite EW in Sx. unfold shaped in Sh. cbn [conflict]. destruct (place e (fof pl)) as [p|] eqn:Pe; [|rewrite Sh in Sx; destruct Sx].
      destruct Sh as (_ & Up & _ & _). apply Up in Sx. destruct o' as [id|id|k|e'| |f']; try exact I; try discriminate; try (left; discriminate).
      + exists p. split; [reflexivity|]. cbn [accesses] in A'. subst l'. destruct Iy as [<-|Iy].
        * destruct Sx as [|i q N L|i q N L|i q N L|i q N L|q b Ed N Ib]; cbn [clash] in C; try (destruct C as (_ & C); discriminate C).
          { apply nth_error_In in N. exfalso. now apply (a_not_node q N). }
          { apply nth_error_In in N. exfalso. now apply (a_not_frame q b N Ib). }
        * apply (get_log_looks id pl y full_or_hole) in Iy.
          destruct Sx as [|i q N L|i q N L|i q N L|i q N L|q b Ed N Ib]; destruct Iy as [j r M K|j r M K|j r c f M K Ic F]; cbn [clash] in C;
            try (destruct C as (_ & C); discriminate C); try (destruct C as (_ & <-); destruct F; discriminate).
          { destruct C as (C & _). rewrite (node_once i j q r N M C) in L. lia. }
          { destruct C as (C & _). rewrite (node_once i j q r N M C) in L. lia. }
          { rewrite (node_once i j q r N M C) in L. lia. }
          { rewrite (node_once i j q r N M C) in L. lia. }
          { exfalso. eapply (node_not_frame q r c); eauto using nth_error_In. }
          { exfalso. eapply (node_not_frame r q b); eauto using nth_error_In. }
          { exfalso. eapply (node_not_frame r q b); eauto using nth_error_In. }
          { subst c. rewrite (frame_once p j q r b N M Ib Ic). lia. }
      + cbn [accesses] in A'. destruct A' as (r & z & d & M & Fr & Dr & ->).
        assert (B : exists c f, y = Reads c f /\ In c (map fst (p_frame_blocks r)) /\ (f = FrameData \/ f = TextText \/ f = Chars)).
        { unfold p_frame_blocks. rewrite Fr. unfold frame_blocks. rewrite Dr. cbn [map fst].
          destruct Iy as [<-|[<-|[<-|[]]]]; eexists _, _; (split; [reflexivity|]); cbn [In]; tauto. }
        destruct B as (c & f & -> & Ic & F).
        destruct Sx as [|i q N L|i q N L|i q N L|i q N L|q b Ed N Ib]; cbn [clash] in C; try (destruct C as (_ & <-); destruct F as [F|[F|F]]; discriminate F).
        * exfalso. eapply (node_not_frame q r c); eauto using nth_error_In.
        * subst c. rewrite Ed. f_equal. eapply frame_once; eauto.
    - destruct o'; exact I.
    - destruct A as (A & _). rewrite A in Sx. destruct Sx as [<-|[]].
      assert (Fa : y = Frees a \/ on_field TagPadding y).
      { destruct y as [b g|b g|b]; cbn [clash] in C; [right; cbn; now destruct C as (_ & <-)|right; cbn; now destruct C as (_ & <-)|left; now rewrite C]. }
      assert (Sy : y = Frees a -> In y (seen l')) by (intros ->; apply in_seen; [exact Iy|exact Ox|discriminate]).
      destruct o' as [id|id|k|e'| |f']; cbn [conflict unpadded accesses] in *; try exact I; (destruct Fa as [Fa|Fa]; [|exfalso; exact (U y Iy Fa)]); specialize (Sy Fa); exfalso.
      + subst l'. rewrite (seen_reads old) in Sy; [destruct Sy|]. cbn [forallb is_read andb]. apply get_log_reads.
      + destruct A' as (A' & _). rewrite A' in Sy. destruct Sy.
      + destruct A' as (q & z & d & _ & _ & _ & ->). rewrite (seen_reads old) in Sy; [destruct Sy|reflexivity].
      + destruct A' as (W & Sh & EW & _ & _). rewrite EW in Sy. unfold shaped in Sh. destruct (place e' (fof pl)) as [p|]; [|rewrite Sh in Sy; destruct Sy].
        destruct Sh as (_ & Up & _ & _). apply Up in Sy. rewrite Fa in Sy. inversion Sy as [|i q N L|i q N L|i q N L|i q N L E|q b Ed N Ib E].
        * apply (a_not_node q); [now apply nth_error_In in N|exact E].
        * apply (a_not_frame q a); [now apply nth_error_In in N|exact Ib|reflexivity].
  Qed.

  Lemma meets_conflict o o' l l' : accesses o l -> unpadded o l -> accesses o' l' -> unpadded o' l' -> meet l l' -> conflict (fof pl) o o'.
  Proof.
    intros A U A' U' (x & y & Ix & Iy & C & Ox). destruct x as [b f|b f|b].
    - apply conflict_sym. eapply (meet_conflict o' o l' l y (Reads b f)); eauto.
      + now apply clash_sym.
      + now rewrite <- (clash_addr _ _ C).
      + intros c g ->. exact C.
    - eapply meet_conflict; eauto. discriminate.
    - eapply meet_conflict; eauto. discriminate.
  Qed.

  (** And with that it does meet. *)
  Lemma old_a : In a old.
  Proof. apply O. rewrite !map_app, !in_app_iff. right. right. now left. Qed.
  Lemma seen_in x l : In x (seen l) -> In x l.
  Proof. intros I. now apply filter_In in I. Qed.
  Lemma written_old x l : In x (seen l) -> In (acc_addr x) old.
  Proof. intros I. apply filter_In in I as (_ & I). destruct x as [b f|b f|b]; cbn in I; [discriminate| |]; cbn [acc_addr]; now destruct (in_dec Nat.eq_dec b old). Qed.

  Lemma first_below {A} (f : A -> bool) l : forall k, first_pos f l = Some k -> (k < length l)%nat.
  Proof.
    induction l as [|x l IH]; intros k E; [discriminate E|]. cbn [first_pos length] in *. destruct (f x); [injection E as <-; lia|].
    destruct (first_pos f l); [|discriminate E]. injection E as <-. specialize (IH _ eq_refl). lia.
  Qed.
  Lemma nth_below {A} (f : A -> bool) l : forall i k, nth_pos f i l = Some k -> (k < length l)%nat.
  Proof.
    induction l as [|x l IH]; intros i k E; [discriminate E|]. cbn [nth_pos length] in *.
    destruct (f x); [destruct (i =? 0); [injection E as <-; lia|]|];
      (match type of E with context [nth_pos f ?j l] => destruct (nth_pos f j l) eqn:En; [|discriminate E]; apply IH in En; injection E as <-; lia end).
  Qed.
  Lemma place_below e fs p : place e fs = Some p -> (p <= length fs)%nat.
  Proof.
    destruct e as [f|f|id|id i]; cbn [place].
    - intros [= <-]. destruct (first_pos _ fs) eqn:E; cbn [or_end]; [apply first_below in E; lia|lia].
    - intros [= <-]. lia.
    - intros E. apply first_below in E. lia.
    - destruct fs as [|x fs]; [destruct (i =? 0); [intros [= <-]; lia|discriminate]|]. intros E. apply nth_below in E. lia.
  Qed.

  (** The change that is sure to be there, and a read of all the list. *)
  Lemma key_cases p x : key pl p x -> (p <= length (fof pl))%nat ->
    (exists q, nth_error pl p = Some q /\ x = Writes (p_addr q) NodeFrame)
    \/ (full pl /\ p = length pl /\ exists pre q, pl = pre ++ [q] /\ x = Writes (p_addr q) NodeNext).
  Proof.
    intros Kx Lp. unfold key in Kx. destruct (nth_error pl p) as [q|] eqn:Nq; [left; eauto|right].
    apply nth_error_None in Nq. destruct (good_cases pl G) as [(r & E & _ & Ef)|(Fu & _)].
    - rewrite Ef, E in *. cbn [length] in *. lia.
    - rewrite (fof_length pl Fu) in Lp. repeat split; auto. lia.
  Qed.
  Lemma key_meets x l l' p : In x (seen l) -> key pl p x -> (p <= length (fof pl))%nat -> incl (all_reads pl) l' -> meet l l'.
  Proof.
    intros Ix Kx Lp R. destruct (key_cases p x Kx Lp) as [(q & Nq & ->)|(Fu & _ & pre & q & E & ->)].
    - exists (Writes (p_addr q) NodeFrame), (Reads (p_addr q) NodeFrame). split; [now apply seen_in|]. split; [apply R, all_reads_frame; now apply nth_error_In in Nq|].
      split; [now split|]. now apply written_old in Ix.
    - exists (Writes (p_addr q) NodeNext), (Reads (p_addr q) NodeNext). split; [now apply seen_in|].
      split; [apply R, all_reads_next; [exact Fu|rewrite E; apply in_or_app; right; now left]|]. split; [now split|]. now apply written_old in Ix.
  Qed.

  Lemma text_freed k q x d : nth_error pl k = Some q -> n_frame (p_node q) = Some x -> f_data (fp_frame x) = DText d ->
    In (Frees (l_data (p_lay q))) (seen ([Frees ah] ++ free_log pl ++ [Frees a])).
  Proof.
    intros N F Dx. assert (Iq : In q pl) by now apply nth_error_In in N. apply in_seen_free.
    - apply (old_frame old a ah head pd th rest pl q _ O Iq). unfold p_frame_blocks. rewrite F. apply freed_in, data_freed.
    - apply in_or_app. right. apply in_or_app. left. unfold free_log. apply in_flat_map. exists q. split; [exact Iq|]. rewrite F.
      apply in_or_app. left. apply in_map, data_freed.
  Qed.

  Lemma free_meets o l l' : accesses OFree l -> accesses o l' -> meet l l'.
  Proof.
    intros A A'. cbn [accesses] in A.
    assert (Fa : In (Frees a) (seen l)) by (rewrite A; apply in_seen_free; [exact old_a|]; do 2 (apply in_or_app; right); now left).
    assert (M : In (Reads a TagFrames) l' -> meet l l').
    { intros I. exists (Frees a), (Reads a TagFrames). repeat split; auto; [now apply seen_in|exact old_a]. }
    destruct o as [id|id|k|e| |f]; cbn [accesses] in A'.
    - subst l'. apply M. now left.
    - apply M, A'. now left.
    - destruct A' as (q & x & d & N & F & Dx & ->). pose proof (text_freed k q x d N F Dx) as T. rewrite <- A in T.
      exists (Frees (l_data (p_lay q))), (Reads (l_data (p_lay q)) TextText). repeat split; [now apply seen_in|right; now left|]. now apply written_old in T.
    - destruct A' as (W & _ & _ & R & _). apply M, R. now left.
    - exists (Frees a), (Frees a). repeat split; [now apply seen_in| |exact old_a]. apply seen_in. rewrite A', <- A. exact Fa.
    - apply M, A'. now left.
  Qed.

  Definition sizes (e : edit) : bool := match e with RemoveNth _ _ => false | _ => true end.
  Lemma sizes_place e fs : sizes e = true -> deletes_one e fs -> place e fs <> None.
  Proof. destruct e; cbn; intros S Dl; congruence. Qed.

  (** An edit, at some place, and ... *)
  Lemma edit_meets_all e l l' : accesses (OEdit e) l -> place e (fof pl) <> None -> incl (all_reads pl) l' -> meet l l'.
  Proof.
    intros (W & Sh & EW & _) P R. unfold shaped in Sh. destruct (place e (fof pl)) as [p|] eqn:Pe; [|congruence].
    destruct Sh as ((x & Ix & Kx) & _). rewrite <- EW in Ix. eapply key_meets; eauto. now apply place_below in Pe.
  Qed.
  Lemma edit_meets_get e id l l' p : accesses (OEdit e) l -> accesses (OGet id) l' -> place e (fof pl) = Some p -> (p <= reach id (fof pl))%nat -> meet l l'.
  Proof.
    intros (W & Sh & EW & _) A' Pe L. cbn [accesses] in A'. subst l'. unfold shaped in Sh. rewrite Pe in Sh. destruct Sh as ((x & Ix & Kx) & _). rewrite <- EW in Ix.
    pose proof (written_old _ _ Ix) as Ox.
    destruct (key_cases p x Kx (place_below _ _ _ Pe)) as [(q & Nq & ->)|(Fu & Ep & pre & q & E & ->)].
    - exists (Writes (p_addr q) NodeFrame), (Reads (p_addr q) NodeFrame). split; [now apply seen_in|]. split; [|split; [now split|exact Ox]]. right.
      destruct full_or_hole as [Fu|(r & Er & Nr)]; [now apply (get_log_frame id pl p q)|].
      rewrite Er in *. destruct p as [|[|p]]; try discriminate Nq. injection Nq as <-. now left.
    - exists (Writes (p_addr q) NodeNext), (Reads (p_addr q) NodeNext). split; [now apply seen_in|]. split; [|split; [now split|exact Ox]]. right.
      apply (get_log_next id pl (length pre) q); [rewrite E; apply nth_at|exact Fu|]. rewrite E, app_length in Ep. cbn [length] in Ep. lia.
  Qed.
  Lemma edit_meets_text e k l l' : accesses (OEdit e) l -> accesses (OText k) l' -> dropped e (fof pl) = Some k -> meet l l'.
  Proof.
    intros (W & Sh & EW & _) (q & x & d & N & F & Dx & ->) Dr.
    assert (P : place e (fof pl) = Some k).
    { destruct e as [f|f|id|id i]; cbn [dropped victim_pos place] in *; try discriminate Dr; try (now rewrite Dr). destruct (fof pl); [discriminate Dr|exact Dr]. }
    unfold shaped in Sh. rewrite P in Sh. destruct Sh as (_ & _ & _ & Fd). specialize (Fd k q Dr N). rewrite <- EW in Fd.
    exists (Frees (l_data (p_lay q))), (Reads (l_data (p_lay q)) TextText). repeat split; [now apply seen_in|right; now left|]. now apply written_old in Fd.
  Qed.
  Lemma edit_meets_edit e e' l l' : accesses (OEdit e) l -> accesses (OEdit e') l' -> place e (fof pl) <> None -> meet l l'.
  Proof.
    intros A A' P. destruct (sizes e') eqn:S'.
    - destruct (sizes e) eqn:S.
      + destruct A as (W & Sh & EW & _ & Dl). destruct A' as (W' & Sh' & EW' & _ & Dl'). pose proof (sizes_place e' _ S' Dl') as P'. unfold shaped in *.
        destruct (place e (fof pl)); [|congruence]. destruct (place e' (fof pl)); [|congruence].
        destruct Sh as (_ & _ & Z & _). destruct Sh' as (_ & _ & Z' & _).
        assert (I : In (Writes ah TagSize) (seen l)) by (rewrite EW; now destruct e). assert (I' : In (Writes ah TagSize) (seen l')) by (rewrite EW'; now destruct e').
        exists (Writes ah TagSize), (Writes ah TagSize). repeat split; try (now apply seen_in). now apply written_old in I.
      + apply meet_sym. eapply edit_meets_all; [exact A'| |].
        * apply sizes_place; [exact S'|]. now destruct A' as (? & _ & _ & _ & ?).
        * destruct A as (W & _ & _ & R & _). destruct e; try discriminate S. intros y Iy. apply R. now right.
    - eapply edit_meets_all; [exact A|exact P|]. destruct A' as (W & _ & _ & R & _). destruct e'; try discriminate S'. intros y Iy. apply R. now right.
  Qed.

  Lemma conflict_meets o o' l l' : accesses o l -> accesses o' l' -> conflict (fof pl) o o' -> meet l l'.
  Proof.
    intros A A' C. destruct o as [id|id|k|e| |f], o' as [id'|id'|k'|e'| |f']; cbn [conflict] in C; try (destruct C; fail);
      try (eapply free_meets; eassumption); try (apply meet_sym; eapply free_meets; eassumption).
    - apply meet_sym. destruct C as (p & P & L). eapply edit_meets_get; eauto.
    - apply meet_sym. eapply edit_meets_all; [exact A'|exact C|]. intros y Iy. apply A. now right.
    - apply meet_sym. eapply edit_meets_text; eauto.
    - destruct C as (p & P & L). eapply edit_meets_get; eauto.
    - eapply edit_meets_all; [exact A|exact C|]. intros y Iy. apply A'. now right.
    - eapply edit_meets_text; eauto.
    - destruct C as [C|C]; [eapply edit_meets_edit; eauto|apply meet_sym; eapply edit_meets_edit; eauto].
    - eapply edit_meets_all; [exact A|exact C|]. intros y Iy. apply A'. now right.
    - apply meet_sym. eapply edit_meets_all; [exact A'|exact C|]. intros y Iy. apply A. now right.
    - destruct A as (A & _). destruct A' as (A' & _). exists (Writes a TagPadding), (Writes a TagPadding).
      repeat split; [apply seen_in; rewrite A; now left|apply seen_in; rewrite A'; now left|exact old_a].
  Qed.

  Theorem meet_iff o o' l l' : accesses o l -> unpadded o l -> accesses o' l' -> unpadded o' l' -> meet l l' <-> conflict (fof pl) o o'.
  Proof. intros A U A' U'. split; [now apply meets_conflict|now apply conflict_meets]. Qed.
End Table.
