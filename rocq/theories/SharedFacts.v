(** Threads race exactly if what they access when left alone clashes; else each
    of them runs as if it were alone. *)
From Verif Require Import BaseFacts HeapFacts SpecShared.
From Coq Require Import Lia.

(** ** Single members *)

Lemma field_dec (f g : field) : {f = g} + {f <> g}.
Proof. decide equality. Defined.

Lemma clash_sym x y : clash x y -> clash y x.
Proof. destruct x, y; cbn; intuition congruence. Qed.

Lemma clash_dec x y : {clash x y} + {~ clash x y}.
Proof.
  destruct x as [a f|a f|a], y as [b g|b g|b]; cbn; try (now right);
    destruct (Nat.eq_dec a b); destruct (field_dec NodeFrame NodeFrame);
    try destruct (field_dec f g); intuition congruence.
Defined.

Lemma get_set f v x y x' y' : set_field f v x = Some y -> set_field f v x' = Some y' -> get_field f y = get_field f y'.
Proof. destruct f, v, x; intros E; try discriminate E; destruct x'; intros E'; try discriminate E'; injection E as <-; injection E' as <-; reflexivity. Qed.

Lemma get_set_other f v x y g : set_field f v x = Some y -> g <> f -> get_field g y = get_field g x.
Proof. destruct f, v, x; intros E N; try discriminate E; injection E as <-; destruct g; congruence || reflexivity. Qed.

Lemma set_same f v x y x' : set_field f v x = Some y -> get_field f x' = get_field f x -> exists y', set_field f v x' = Some y'.
Proof.
  destruct f, v, x; intros E G; try discriminate E; destruct x'; cbn in G; try discriminate G; cbn; eauto.
Qed.

Lemma set_get f v x y : set_field f v x = Some y -> exists u, get_field f x = Some u.
Proof. destruct f, v, x; intros E; try discriminate E; cbn; eauto. Qed.

(** ** Heaps *)

Lemma lookup_update_same a y l : lookup a l <> None -> lookup a (update a y l) = Some y.
Proof.
  induction l as [|[b z] l IH]; cbn [lookup update]; [congruence|].
  destruct (Nat.eqb_spec b a) as [->|N]; cbn [lookup]; [now rewrite Nat.eqb_refl|].
  destruct (Nat.eqb_spec b a); [congruence|exact IH].
Qed.
Lemma lookup_update_other a b y l : b <> a -> lookup b (update a y l) = lookup b l.
Proof.
  intros N. induction l as [|[c z] l IH]; cbn [lookup update]; [reflexivity|].
  destruct (Nat.eqb_spec c a) as [->|M]; cbn [lookup].
  - destruct (Nat.eqb_spec a b); [congruence|reflexivity].
  - destruct (Nat.eqb_spec c b); [reflexivity|exact IH].
Qed.
Lemma map_update a y l : map fst (update a y l) = map fst l.
Proof.
  induction l as [|[c z] l IH]; cbn [update map fst]; [reflexivity|].
  destruct (Nat.eqb_spec c a) as [->|M]; cbn [map fst]; [reflexivity|now rewrite IH].
Qed.
Lemma lookup_none a l : ~ In a (map fst l) <-> lookup a l = None.
Proof.
  induction l as [|[c z] l IH]; cbn [lookup map fst In]; [tauto|].
  destruct (Nat.eqb_spec c a) as [->|M]; [|tauto]. split; [tauto|discriminate].
Qed.
Lemma in_discard a b l : In b (map fst (discard a l)) -> In b (map fst l).
Proof.
  induction l as [|[c z] l IH]; cbn [discard map fst]; [auto|].
  destruct (Nat.eqb_spec c a) as [->|M]; cbn [map fst In]; [now right|]. intros [->|I]; [now left|right; auto].
Qed.
Lemma nodup_discard a l : NoDup (map fst l) -> NoDup (map fst (discard a l)).
Proof.
  induction l as [|[c z] l IH]; cbn [discard map fst]; [auto|]. intros D. inversion D; subst.
  destruct (Nat.eqb_spec c a) as [->|M]; cbn [map fst]; [assumption|]. constructor; [|auto].
  intros I. apply in_discard in I. contradiction.
Qed.
Lemma lookup_discard_same a l : NoDup (map fst l) -> lookup a (discard a l) = None.
Proof.
  induction l as [|[c z] l IH]; cbn [discard map fst]; [reflexivity|]. intros D. inversion D; subst.
  destruct (Nat.eqb_spec c a) as [->|M]; [now apply lookup_none|]. cbn [lookup].
  destruct (Nat.eqb_spec c a); [congruence|auto].
Qed.
Lemma lookup_discard_other a b l : b <> a -> lookup b (discard a l) = lookup b l.
Proof.
  intros N. induction l as [|[c z] l IH]; cbn [lookup discard]; [reflexivity|].
  destruct (Nat.eqb_spec c a) as [->|M].
  - destruct (Nat.eqb_spec a b); [congruence|reflexivity].
  - cbn [lookup]. destruct (Nat.eqb_spec c b); [reflexivity|exact IH].
Qed.

(** ** One access *)

(** What an access does to the heap, if it is allowed. *)
Inductive steps {A} : prog A -> heap -> prog A -> heap -> Prop :=
| SStop o h : steps (Stop o) h (Stop o) h
| SLook a f k h x v : lookup a (live h) = Some x -> get_field f x = Some v -> steps (Look (Some a) f k) h (k v) h
| SChange a f v k h x y : lookup a (live h) = Some x -> set_field f v x = Some y ->
    steps (Change (Some a) f v k) h k (mkHeap (update a y (live h)) (next h))
| SMake x k h : steps (Make x k) h (k (next h)) (mkHeap ((next h, x) :: live h) (S (next h)))
| SDropNull k h : steps (Drop None k) h k h
| SDrop a k h x : lookup a (live h) = Some x -> steps (Drop (Some a) k) h k (mkHeap (discard a (live h)) (next h)).

Lemma steps_advance {A} (p : prog A) h p' h' : steps p h p' h' -> advance (p, h) = (p', h').
Proof.
  intros S. destruct S as [o h|a f k h x v L G|a f v k h x y L G|x k h|k h|a k h x L];
    cbn [advance load free deref bind store malloc]; rewrite ?L; cbn [bind as_outcome]; rewrite ?G;
    cbn [as_outcome bind next_step]; unfold store, load; cbn [deref bind]; rewrite ?L; reflexivity.
Qed.

Lemma advance_steps {A} (p : prog A) h : (forall u, fst (advance (p, h)) <> Stop (Ub u)) ->
  steps p h (fst (advance (p, h))) (snd (advance (p, h))).
Proof.
  intros F. destruct p as [o|[a|] f k|[a|] f v k|x k|[a|] k].
  - constructor.
  - cbn [advance load deref bind] in *. destruct (lookup a (live h)) as [x|] eqn:L; [|now destruct (F UseAfterFree)].
    cbn [bind] in *. destruct (get_field f x) as [v|] eqn:G; [|now destruct (F TypeConfusion)].
    cbn. econstructor; eauto.
  - now destruct (F NullDeref).
  - cbn [advance load deref bind] in *. destruct (lookup a (live h)) as [x|] eqn:L; [|now destruct (F UseAfterFree)].
    cbn [bind] in *. destruct (set_field f v x) as [y|] eqn:G; [|now destruct (F TypeConfusion)].
    cbn. unfold store, load. cbn [deref bind]. rewrite L. cbn. econstructor; eauto.
  - now destruct (F NullDeref).
  - cbn. constructor.
  - cbn [advance free] in *. destruct (lookup a (live h)) as [x|] eqn:L; [|now destruct (F BadFree)].
    cbn. econstructor; eauto.
  - cbn. constructor.
Qed.

Lemma advance_stop {A} (p : prog A) h o : p = Stop o -> advance (p, h) = (p, h).
Proof. now intros ->. Qed.

Lemma pair_eta {A B} (x : A * B) : x = (fst x, snd x).
Proof. now destruct x. Qed.

Lemma alone_steps {A} (x : prog A * heap) k : fine x ->
  steps (fst (alone k x)) (snd (alone k x)) (fst (alone (S k) x)) (snd (alone (S k) x)).
Proof.
  intros F. cbn [alone]. rewrite (pair_eta (alone k x)) at 3 4. apply advance_steps. intros u E.
  apply (F (S k) u). cbn [alone]. now rewrite (pair_eta (alone k x)).
Qed.

(** ** A program left alone *)

Lemma alone_next {A} (x : prog A * heap) : fine x -> forall k m, (k <= m)%nat -> (next (snd (alone k x)) <= next (snd (alone m x)))%nat.
Proof.
  intros F k m L. induction L as [|m L IH]; [reflexivity|]. etransitivity; [exact IH|].
  pose proof (alone_steps x m F) as T. destruct T; cbn [next]; lia.
Qed.

Record well {A} (x : prog A * heap) : Prop := {
  w_fine : fine x;
  w_nodup : NoDup (map fst (live (snd x)));
  w_below : Forall (fun a => (a < next (snd x))%nat) (map fst (live (snd x)))
}.

Lemma alone_live {A} (x : prog A * heap) : well x -> forall k,
  NoDup (map fst (live (snd (alone k x))))
  /\ forall a, In a (map fst (live (snd (alone k x)))) ->
     (In a (map fst (live (snd x))) \/ (next (snd x) <= a)%nat) /\ (a < next (snd (alone k x)))%nat.
Proof.
  intros [F D B]. induction k as [|k (IHD & IH)].
  - split; [exact D|]. intros a I. split; [now left|]. eapply Forall_forall in B; eauto.
  - pose proof (alone_next x F 0 k ltac:(lia)) as L0. cbn [alone] in L0.
    pose proof (alone_steps x k F) as T.
    remember (fst (alone k x)) as p. remember (snd (alone k x)) as h.
    remember (fst (alone (S k) x)) as p'. remember (snd (alone (S k) x)) as h'. clear Heqp Heqh Heqp' Heqh'.
    destruct T as [o h|a f k' h y v L G|a f v k' h y z L G|y k' h|k' h|a k' h y L]; cbn [live next]; try (split; assumption).
    + rewrite map_update. split; assumption.
    + cbn [map fst]. split.
      * constructor; [|exact IHD]. intros I. apply IH in I. lia.
      * intros b [<-|I]; [split; [right; exact L0|lia]|]. apply IH in I. split; [tauto|lia].
    + split; [now apply nodup_discard|]. intros b I. apply in_discard in I. auto.
Qed.

(** ** Several threads *)

Section Threads.
  Context {A : Type} (w0 : world A).
  Hypothesis sep : apart w0.
  Hypothesis safe : forall i, fine (start w0 i).

  Definition al (i k : nat) : prog A * heap := alone k (start w0 i).

  Lemma start_well i : well (start w0 i).
  Proof.
    destruct sep as (D & B & _). split; [apply safe|exact D|]. apply B.
  Qed.

  (** What [i] has got from malloc after [k] accesses. *)
  Definition made (i k a : nat) : Prop := (next (snd (start w0 i)) <= a < next (snd (al i k)))%nat.

  Lemma made_allocates i k a : made i k a -> allocates (start w0 i) a.
  Proof. intros (L & U). split; [exact L|]. exists k. exact U. Qed.
  Lemma made_apart i j k m a : i <> j -> made i k a -> made j m a -> False.
  Proof. intros N M M'. destruct sep as (_ & _ & S). eapply S; eauto using made_allocates. Qed.

  Definition undisturbed (n : nat -> nat) (i a : nat) (f : field) : Prop :=
    (forall j, j <> i -> ~ made j (n j) a)
    /\ forall j k x, j <> i -> (k < n j)%nat -> pending (fst (al j k)) = Some x -> ~ changes x a f.

  Record inv (n : nat -> nat) (w : world A) : Prop := {
    i_threads : forall i, snd w i = (fst (al i (n i)), next (snd (al i (n i))));
    i_nodup : NoDup (map fst (fst w));
    i_live : forall a, In a (map fst (fst w)) -> In a (map fst (fst w0)) \/ exists j, made j (n j) a;
    i_cells : forall i a f, undisturbed n i a f -> cell (fst w) a f = cell (live (snd (al i (n i)))) a f
  }.

  Definition bump (n : nat -> nat) (i j : nat) : nat := if Nat.eqb j i then S (n j) else n j.

  (** The pending access of [i] clashes with none that another has made. *)
  Definition quiet (n : nat -> nat) (i : nat) : Prop :=
    forall x j k y, pending (fst (al i (n i))) = Some x -> j <> i -> (k < n j)%nat ->
      pending (fst (al j k)) = Some y -> ~ clash x y.

  Lemma not_made i j k a : j <> i -> In a (map fst (live (snd (al i k)))) -> forall m, ~ made j m a.
  Proof.
    intros N I m M. destruct (alone_live _ (start_well i) k) as (_ & L). apply L in I as ([I|I] & U).
    - destruct sep as (_ & B & _). specialize (B j). eapply Forall_forall in B; [|exact I]. destruct M. lia.
    - eapply (made_apart j i m k a N M). split; assumption.
  Qed.

  Lemma bump_same n i : bump n i i = S (n i).
  Proof. unfold bump. now rewrite Nat.eqb_refl. Qed.
  Lemma bump_other n i j : j <> i -> bump n i j = n j.
  Proof. intros N. unfold bump. destruct (Nat.eqb_spec j i); [contradiction|reflexivity]. Qed.

  Lemma made_more i k a : made i k a -> made i (S k) a.
  Proof.
    intros (L & U). split; [exact L|]. unfold al in *.
    pose proof (alone_next _ (safe i) k (S k) ltac:(lia)). lia.
  Qed.

  Lemma undisturbed_back n i j a f : undisturbed (bump n i) j a f -> undisturbed n j a f.
  Proof.
    intros (M & C). split.
    - intros l N K. apply (M l N). destruct (Nat.eq_dec l i) as [->|Ne]; [rewrite bump_same; now apply made_more|now rewrite bump_other].
    - intros l k x N L. apply (C l k x N). unfold bump. destruct (Nat.eqb l i); lia.
  Qed.

  Lemma turn_inv n w i : inv n w -> quiet n i -> inv (bump n i) (turn w i).
  Proof.
    intros [T D Lv C] Q. pose proof (alone_steps _ (n i) (safe i)) as S.
    fold (al i (n i)) in S. change (alone (Datatypes.S (n i)) (start w0 i)) with (al i (Datatypes.S (n i))) in S.
    (* The access that [i] makes in [w] is the one it makes alone. *)
    assert (E : exists l, steps (fst (al i (n i))) (mkHeap (fst w) (next (snd (al i (n i)))))
                      (fst (al i (Datatypes.S (n i)))) (mkHeap l (next (snd (al i (Datatypes.S (n i))))))
              /\ NoDup (map fst l)
              /\ (forall a, In a (map fst l) -> In a (map fst (fst w)) \/ made i (Datatypes.S (n i)) a)
              /\ (forall a f, cell (fst w) a f = cell (live (snd (al i (n i)))) a f ->
                              cell l a f = cell (live (snd (al i (Datatypes.S (n i))))) a f)
              /\ (forall a f, ~ made i (Datatypes.S (n i)) a ->
                              (forall x, pending (fst (al i (n i))) = Some x -> ~ changes x a f) ->
                              cell l a f = cell (fst w) a f)).
    { assert (U : forall a f, In a (map fst (live (snd (al i (n i))))) ->
                  (forall j k x, j <> i -> (k < n j)%nat -> pending (fst (al j k)) = Some x -> ~ changes x a f) ->
                  cell (fst w) a f = cell (live (snd (al i (n i)))) a f).
      { intros a f I H. apply C. split; [|exact H]. intros j N. eapply not_made; eauto. }
      destruct (alone_live _ (start_well i) (n i)) as (ND & Ab). fold (al i (n i)) in ND, Ab.
      pose proof (alone_next _ (safe i) 0 (n i) ltac:(lia)) as L0. fold (al i (n i)) in L0. cbn [alone] in L0.
      assert (Mk : forall a, made i (Datatypes.S (n i)) a <->
                (next (snd (start w0 i)) <= a < next (snd (al i (Datatypes.S (n i)))))%nat) by reflexivity.
      assert (Mn : forall j a, made j (n j) a -> j = i -> (a < next (snd (al i (n i))))%nat).
      { intros j a (_ & H) ->. exact H. }
      unfold quiet in Q. revert Q U S Ab ND L0 Mk Mn. clear C T.
      generalize (fst (al i (n i))) (snd (al i (n i))) (fst (al i (Datatypes.S (n i)))) (snd (al i (Datatypes.S (n i)))).
      intros p h p' h' Q U S Ab ND L0 Mk Mn.
      destruct S as [o h|a f k h x v L G|a f v k h x y L G|x k h|k h|a k h x L]; cbn [live next] in *.
      - exists (fst w). repeat split; auto. constructor.
      - assert (Cw : cell (fst w) a f = cell (live h) a f).
        { apply U; [apply lookup_in in L; change a with (fst (a, x)); now apply in_map|].
          intros j m y N Lt P Cg. apply (Q _ _ _ _ eq_refl N Lt P). destruct y; cbn in *; intuition congruence. }
        unfold cell in Cw. rewrite L in Cw. cbn [option_map] in Cw. destruct (lookup a (fst w)) as [z|] eqn:Lw; [|discriminate Cw].
        injection Cw as Cw. exists (fst w). repeat split; auto. eapply SLook; [exact Lw|congruence].
      - assert (Cw : cell (fst w) a f = cell (live h) a f).
        { apply U; [apply lookup_in in L; change a with (fst (a, x)); now apply in_map|].
          intros j m z N Lt P Cg. apply (Q _ _ _ _ eq_refl N Lt P). destruct z; cbn in *; intuition congruence. }
        unfold cell in Cw. rewrite L in Cw. cbn [option_map] in Cw. destruct (lookup a (fst w)) as [z|] eqn:Lw; [|discriminate Cw].
        injection Cw as Cw. destruct (set_same _ _ _ _ _ G Cw) as (z' & Gz).
        exists (update a z' (fst w)). split; [eapply (SChange a f v k (mkHeap (fst w) (next h))); [exact Lw|exact Gz]|].
        rewrite map_update. repeat split; auto.
        + intros b g E. unfold cell in *. destruct (Nat.eq_dec b a) as [->|N].
          * rewrite !lookup_update_same by congruence. cbn [option_map]. f_equal.
            rewrite L, Lw in E. cbn [option_map] in E. injection E as E.
            destruct (field_dec g f) as [->|Ng]; [exact (get_set _ _ _ _ _ _ Gz G)|].
            now rewrite (get_set_other _ _ _ _ _ G Ng), (get_set_other _ _ _ _ _ Gz Ng).
          * now rewrite !lookup_update_other.
        + intros b g _ H. unfold cell. destruct (Nat.eq_dec b a) as [->|N]; [|now rewrite lookup_update_other].
          rewrite lookup_update_same by congruence. rewrite Lw. cbn [option_map]. f_equal.
          apply (get_set_other _ _ _ _ _ Gz). intros ->. apply (H _ eq_refl). cbn. auto.
      - assert (Fresh : ~ In (next h) (map fst (fst w))).
        { intros I. apply Lv in I as [I|(j & M)].
          - destruct sep as (_ & B & _). specialize (B i). eapply Forall_forall in B; [|exact I]. lia.
          - destruct (Nat.eq_dec j i) as [Ej|N]; [specialize (Mn _ _ M Ej); lia|].
            eapply (made_apart j i _ _ _ N M). apply Mk. cbn [next]. lia. }
        exists ((next h, x) :: fst w). split; [apply (SMake x k (mkHeap (fst w) (next h)))|]. cbn [map fst]. repeat split.
        + now constructor.
        + intros b [<-|I]; [right; apply Mk; lia|now left].
        + intros b g E. unfold cell in *. cbn [lookup]. destruct (Nat.eqb_spec (next h) b); [reflexivity|exact E].
        + intros b g Nm _. unfold cell in *. cbn [lookup]. destruct (Nat.eqb_spec (next h) b) as [<-|]; [|reflexivity].
          destruct Nm. apply Mk. lia.
      - exists (fst w). repeat split; auto. constructor.
      - assert (Cw : cell (fst w) a Lifetime = cell (live h) a Lifetime).
        { apply U; [apply lookup_in in L; change a with (fst (a, x)); now apply in_map|].
          intros j m z N Lt P Cg. apply (Q _ _ _ _ eq_refl N Lt P). destruct z; cbn in *; intuition congruence. }
        unfold cell in Cw. rewrite L in Cw. cbn [option_map] in Cw. destruct (lookup a (fst w)) as [z|] eqn:Lw; [|discriminate Cw].
        exists (discard a (fst w)). split; [apply (SDrop a k (mkHeap (fst w) (next h)) z Lw)|]. repeat split.
        + now apply nodup_discard.
        + intros b I. left. eapply in_discard; eauto.
        + intros b g E. unfold cell in *. destruct (Nat.eq_dec b a) as [->|N].
          * now rewrite !lookup_discard_same.
          * now rewrite !lookup_discard_other.
        + intros b g _ H. unfold cell. rewrite lookup_discard_other; [reflexivity|]. intros ->. apply (H _ eq_refl). cbn. auto. }
    destruct E as (l & St & Dl & Ll & Ci & Co). apply steps_advance in St.
    assert (Et : turn w i = (l, fun j => if Nat.eqb j i then (fst (al i (Datatypes.S (n i))), next (snd (al i (Datatypes.S (n i))))) else snd w j)).
    { unfold turn. destruct w as (lw, ts). cbn [fst snd] in *. rewrite (T i). rewrite St. reflexivity. }
    rewrite Et. split; cbn [fst snd].
    - intros j. destruct (Nat.eqb_spec j i) as [->|N]; [now rewrite bump_same|]. rewrite bump_other by exact N. apply T.
    - exact Dl.
    - intros a I. apply Ll in I as [I|M]; [|right; exists i; now rewrite bump_same].
      apply Lv in I as [I|(j & M)]; [now left|right]. exists j.
      destruct (Nat.eq_dec j i) as [->|N]; [rewrite bump_same; now apply made_more|now rewrite bump_other].
    - intros j a f Un. pose proof (C j a f (undisturbed_back _ _ _ _ _ Un)) as Cj.
      destruct (Nat.eq_dec j i) as [->|N].
      + rewrite bump_same. now apply Ci.
      + rewrite bump_other by exact N. rewrite <- Cj. destruct Un as (Um & Uc). apply Co.
        * intros M. apply (Um i ltac:(congruence)). now rewrite bump_same.
        * intros x P. apply (Uc i (n i) x ltac:(congruence)); [rewrite bump_same; lia|exact P].
  Qed.

  Lemma start_inv : inv (fun _ => O) w0.
  Proof.
    split; cbn.
    - intros i. unfold start. cbn. apply pair_eta.
    - apply sep.
    - intros a I. now left.
    - reflexivity.
  Qed.

  Lemma turns_snoc s i : turns w0 (s ++ [i]) = turn (turns w0 s) i.
  Proof. unfold turns. now rewrite fold_left_app. Qed.

  Lemma turns_of_snoc s i j : turns_of j (s ++ [i]) = bump (fun j => turns_of j s) i j.
  Proof.
    unfold turns_of, bump. rewrite count_occ_app. cbn [count_occ].
    destruct (Nat.eq_dec i j) as [->|N]; [rewrite Nat.eqb_refl; lia|].
    destruct (Nat.eqb_spec j i); [congruence|lia].
  Qed.

  Lemma inv_ext n m w : (forall i, n i = m i) -> inv n w -> inv m w.
  Proof.
    intros E [T D L C]. split.
    - intros i. rewrite <- E. apply T.
    - exact D.
    - intros a I. destruct (L a I) as [H|(j & M)]; [now left|]. right. exists j. now rewrite <- E.
    - intros i a f (U1 & U2). rewrite <- E. apply C. split.
      + intros j N. rewrite E. auto.
      + intros j k x N Lt. rewrite E in Lt. eauto.
  Qed.

  (** Either all is as if alone, or there is a clash. *)
  Definition clashing : Prop :=
    exists i j x y, i <> j /\ touches (start w0 i) x /\ touches (start w0 j) y /\ clash x y.

  Lemma quiet_dec s i : quiet (fun j => turns_of j s) i \/ clashing.
  Proof.
    destruct (pending (fst (al i (turns_of i s)))) as [x|] eqn:P.
    2:{ left. intros x j k y E. congruence. }
    set (Bad := fun jk : nat * nat => fst jk <> i /\ (snd jk < turns_of (fst jk) s)%nat /\
                 exists y, pending (fst (al (fst jk) (snd jk))) = Some y /\ clash x y).
    assert (Dec : forall jk, {Bad jk} + {~ Bad jk}).
    { intros (j, k). unfold Bad. cbn [fst snd]. destruct (Nat.eq_dec j i); [right; tauto|].
      destruct (lt_dec k (turns_of j s)); [|right; tauto].
      destruct (pending (fst (al j k))) as [y|]; [|right; intros (_ & _ & y & E & _); discriminate E].
      destruct (clash_dec x y); [left; eauto|right]. intros (_ & _ & z & E & Cz). congruence. }
    destruct (Exists_dec Bad (list_prod s (seq 0 (length s))) Dec) as [Ex|Nx].
    - right. apply Exists_exists in Ex as ((j, k) & _ & N & Lt & y & Py & Cy). cbn [fst snd] in *.
      exists i, j, x, y. repeat split; [congruence| | |exact Cy]; [exists (turns_of i s)|exists k]; assumption.
    - left. intros x' j k y Px Nj Lt Py Cl. unfold al in P, Px. rewrite P in Px. injection Px as <-. apply Nx. apply Exists_exists.
      exists (j, k). split; [|unfold Bad; cbn [fst snd]; eauto].
      apply in_prod.
      + unfold turns_of in Lt. destruct (in_dec Nat.eq_dec j s) as [I|I]; [exact I|].
        apply (count_occ_not_In Nat.eq_dec) in I. lia.
      + apply in_seq. unfold turns_of in Lt. pose proof (count_occ_bound Nat.eq_dec j s). lia.
  Qed.

  Lemma turns_inv s : inv (fun j => turns_of j s) (turns w0 s) \/ clashing.
  Proof.
    induction s as [|i s IH] using rev_ind.
    - left. apply start_inv.
    - destruct IH as [IH|Cl]; [|now right]. destruct (quiet_dec s i) as [Q|Cl]; [|now right]. left.
      rewrite turns_snoc. eapply inv_ext; [|apply turn_inv; [exact IH|exact Q]]. intros j. symmetry. apply turns_of_snoc.
  Qed.

  Lemma racing_clashing s : racing (turns w0 s) -> clashing.
  Proof.
    intros (i & j & x & y & N & Px & Py & Cl). destruct (turns_inv s) as [I|C]; [|exact C].
    unfold of_thread in *. rewrite (i_threads _ _ I i) in Px. rewrite (i_threads _ _ I j) in Py. cbn [fst] in *.
    exists i, j, x, y. repeat split; [exact N| | |exact Cl]; [exists (turns_of i s)|exists (turns_of j s)]; assumption.
  Qed.

  (** ** From a clash to a race *)

  Lemma least (P : nat -> Prop) : (forall k, {P k} + {~ P k}) -> forall n, P n ->
    exists m, (m <= n)%nat /\ P m /\ forall k, (k < m)%nat -> ~ P k.
  Proof.
    intros Dec. induction n as [n IH] using lt_wf_ind. intros Pn.
    destruct (Exists_dec P (seq 0 n) Dec) as [Ex|Nx].
    - apply Exists_exists in Ex as (k & I & Pk). apply in_seq in I. destruct (IH k ltac:(lia) Pk) as (m & L & H). exists m. split; [lia|exact H].
    - exists n. repeat split; [lia|exact Pn|]. intros k L Pk. apply Nx. apply Exists_exists. exists k. split; [apply in_seq; lia|exact Pk].
  Qed.

  Lemma repeat_snoc (i k : nat) : repeat i (S k) = repeat i k ++ [i].
  Proof. change (i :: repeat i k = repeat i k ++ [i]). apply repeat_cons. Qed.
  Lemma turns_of_repeat i k j : turns_of j (repeat i k) = if Nat.eqb j i then k else O.
  Proof.
    unfold turns_of. induction k as [|k IH]; cbn [repeat count_occ]; [now destruct (Nat.eqb j i)|].
    destruct (Nat.eq_dec i j) as [->|N].
    - rewrite IH, Nat.eqb_refl. reflexivity.
    - rewrite IH. destruct (Nat.eqb_spec j i); congruence.
  Qed.

  Lemma run_first i k : inv (fun j => turns_of j (repeat i k)) (turns w0 (repeat i k)).
  Proof.
    induction k as [|k IH]; [apply start_inv|]. rewrite repeat_snoc, turns_snoc.
    eapply inv_ext; [|apply turn_inv; [exact IH|]].
    - intros j. symmetry. apply turns_of_snoc.
    - intros x j m y _ N L. rewrite turns_of_repeat in L. destruct (Nat.eqb_spec j i); [congruence|lia].
  Qed.

  Lemma clashing_races : clashing -> can_race w0.
  Proof.
    intros (i & j & x & y & N & (ki & Px) & (kj & Py) & Cl).
    (* i's first access that clashes with one of j's first accesses *)
    set (P := fun k => exists x, pending (fst (al i k)) = Some x /\
                Exists (fun m => exists y, pending (fst (al j m)) = Some y /\ clash x y) (seq 0 (S kj))).
    assert (Dm : forall x m, {exists y, pending (fst (al j m)) = Some y /\ clash x y} + {~ exists y, pending (fst (al j m)) = Some y /\ clash x y}).
    { intros x' m. destruct (pending (fst (al j m))) as [y'|]; [|right; intros (y' & E & _); discriminate E].
      destruct (clash_dec x' y'); [left; eauto|right]. intros (z & E & Cz). congruence. }
    assert (Dec : forall k, {P k} + {~ P k}).
    { intros k. unfold P. destruct (pending (fst (al i k))) as [x'|]; [|right; intros (z & E & _); discriminate E].
      destruct (Exists_dec _ (seq 0 (S kj)) (Dm x')) as [Ex|Nx]; [left; eauto|right].
      intros (z & E & Ez). injection E as <-. contradiction. }
    destruct (least P Dec ki) as (k & _ & (xk & Pk & Ek) & Before).
    { exists x. split; [exact Px|]. apply Exists_exists. exists kj. split; [apply in_seq; lia|eauto]. }
    apply Exists_exists in Ek as (mj & Im & y' & Py' & Cl'). apply in_seq in Im.
    destruct (least (fun m => exists y, pending (fst (al j m)) = Some y /\ clash xk y) (Dm xk) mj) as (m & Lm & (ym & Pm & Clm) & Before').
    { eauto. }
    exists (repeat i k ++ repeat j m).
    assert (I : forall m', (m' <= m)%nat -> inv (fun l => turns_of l (repeat i k ++ repeat j m')) (turns w0 (repeat i k ++ repeat j m'))).
    { induction m' as [|m' IH]; intros L.
      - cbn [repeat]. rewrite app_nil_r. apply run_first.
      - rewrite repeat_snoc, app_assoc, turns_snoc. eapply inv_ext; [|apply turn_inv; [apply IH; lia|]].
        + intros l. symmetry. apply turns_of_snoc.
        + intros z l q u Pz Nl Lq Pu Cz.
          assert (Eq : turns_of l (repeat i k ++ repeat j m') = ((if Nat.eqb l i then k else 0) + (if Nat.eqb l j then m' else 0))%nat).
          { unfold turns_of. rewrite count_occ_app. change (turns_of l (repeat i k) + turns_of l (repeat j m') = (if Nat.eqb l i then k else 0) + (if Nat.eqb l j then m' else 0))%nat.
            now rewrite !turns_of_repeat. }
          assert (Ej : turns_of j (repeat i k ++ repeat j m') = m').
          { unfold turns_of. rewrite count_occ_app. change (turns_of j (repeat i k) + turns_of j (repeat j m') = m')%nat.
            rewrite !turns_of_repeat, Nat.eqb_refl. destruct (Nat.eqb_spec j i); [congruence|lia]. }
          rewrite Ej in Pz. destruct (Nat.eqb_spec l j); [contradiction|]. destruct (Nat.eqb_spec l i) as [->|]; [|lia].
          rewrite Nat.add_0_r in Eq. rewrite Eq in Lq. apply (Before q Lq). exists u. split; [exact Pu|]. apply Exists_exists.
          exists m'. split; [apply in_seq; lia|]. exists z. split; [exact Pz|]. now apply clash_sym. }
    specialize (I m (le_n m)). exists i, j, xk, ym. unfold of_thread. rewrite (i_threads _ _ I i), (i_threads _ _ I j). cbn [fst].
    assert (Ei : turns_of i (repeat i k ++ repeat j m) = k).
    { unfold turns_of. rewrite count_occ_app. change (turns_of i (repeat i k) + turns_of i (repeat j m) = k)%nat.
      rewrite !turns_of_repeat, Nat.eqb_refl. destruct (Nat.eqb_spec i j); [congruence|lia]. }
    assert (Ej : turns_of j (repeat i k ++ repeat j m) = m).
    { unfold turns_of. rewrite count_occ_app. change (turns_of j (repeat i k) + turns_of j (repeat j m) = m)%nat.
      rewrite !turns_of_repeat, Nat.eqb_refl. destruct (Nat.eqb_spec j i); [congruence|lia]. }
    rewrite Ei, Ej. repeat split; assumption.
  Qed.

  Theorem race_iff : can_race w0 <-> clashing.
  Proof. split; [intros (s & R); eapply racing_clashing; eauto|apply clashing_races]. Qed.

  Theorem as_if_alone : ~ clashing -> forall s i,
    of_thread (turns w0 s) i = fst (alone (turns_of i s) (start w0 i)) /\ ~ racing (turns w0 s).
  Proof.
    intros N s i. destruct (turns_inv s) as [I|C]; [|contradiction]. split.
    - unfold of_thread. now rewrite (i_threads _ _ I i).
    - intros R. apply N. eapply racing_clashing; eauto.
  Qed.

  Theorem memory : ~ clashing -> forall s i a f, (forall j, j <> i -> ~ allocates (start w0 j) a) ->
    (forall j x, j <> i -> touches (start w0 j) x -> ~ changes x a f) ->
    cell (fst (turns w0 s)) a f = cell (live (snd (alone (turns_of i s) (start w0 i)))) a f.
  Proof.
    intros N s i a f M C. destruct (turns_inv s) as [I|Cl]; [|contradiction]. apply (i_cells _ _ I). split.
    - intros j Nj Mj. apply (M j Nj). eapply made_allocates, Mj.
    - intros j k x Nj _ P. apply (C j x Nj). now exists k.
  Qed.
End Threads.
