(** Which accesses the programs make, on a tag in the heap. *)
From Verif Require Import BaseFacts Spec ListFacts HeapFacts HeapFrameFacts HeapListFacts HeapTagFacts SpecShared SharedFacts SharedRunFacts.
From Coq Require Import Lia.

(** ** Result and accesses together *)

Definition does {A} (p : prog A) (h : heap) (l : list access) (a : A) (h' : heap) : Prop :=
  run p h = Ok (a, h') /\ log p h = l.

Lemma d_ret {A} (a : A) h : does (retp a) h [] a h.
Proof. now split. Qed.
Lemma d_stop {A} (o : outcome A) a h : o = Ok a -> does (Stop o) h [] a h.
Proof. now intros ->. Qed.
Lemma d_bind {A B} (p : prog A) (f : A -> prog B) h l1 a h1 l2 b h2 :
  does p h l1 a h1 -> does (f a) h1 l2 b h2 -> does (bindp p f) h (l1 ++ l2) b h2.
Proof. intros (R1 & L1) (R2 & L2). split; [now rewrite run_bind, R1|]. now rewrite log_bind, R1, L1, <- L2. Qed.
Lemma d_look {A} h m a x f v (k : value -> prog A) l b h' : heap_is h m -> In (a, x) m -> get_field f x = Some v ->
  does (k v) h l b h' -> does (Look (Some a) f k) h (Reads a f :: l) b h'.
Proof.
  intros H I G (R & L). split; cbn [run log reads]; rewrite (load_is _ _ _ _ H I); cbn [bind]; rewrite G; cbn [as_outcome bind or_nil app]; [exact R|].
  now rewrite L.
Qed.
Lemma d_look_ptr h m a x f q : heap_is h m -> In (a, x) m -> get_field f x = Some (VPtr q) -> does (look_ptr (Some a) f) h [Reads a f] q h.
Proof. intros H I G. eapply d_look; eauto. cbv iota beta. apply d_ret. Qed.
Lemma d_look_int h m a x f q : heap_is h m -> In (a, x) m -> get_field f x = Some (VInt q) -> does (look_int (Some a) f) h [Reads a f] q h.
Proof. intros H I G. eapply d_look; eauto. cbv iota beta. apply d_ret. Qed.
Lemma d_look_chars h m a x f q : heap_is h m -> In (a, x) m -> get_field f x = Some (VChars q) -> does (look_chars (Some a) f) h [Reads a f] q h.
Proof. intros H I G. eapply d_look; eauto. cbv iota beta. apply d_ret. Qed.
Lemma d_make h m x : heap_is h m -> exists h', does (make x) h [] (next h) h' /\ heap_is h' ((next h, x) :: m).
Proof. intros H. destruct (malloc_is _ _ x H) as (h' & E & H' & _). exists h'. split; [|exact H']. split; cbn [make run log]; now rewrite E. Qed.
Lemma d_drop h m a x m' : heap_is h m -> Permutation m ((a, x) :: m') -> exists h', does (drop (Some a)) h [Frees a] tt h' /\ heap_is h' m'.
Proof.
  intros H P. destruct (free_at _ _ _ _ _ H P) as (h' & E & H' & _). exists h'. split; [|exact H'].
  split; cbn [drop run log frees]; rewrite E; reflexivity.
Qed.
Lemma d_change h m a x f v y m' : heap_is h m -> Permutation m ((a, x) :: m') -> set_field f v x = Some y ->
  exists h', does (Change (Some a) f v (retp tt)) h [Writes a f] tt h' /\ heap_is h' ((a, y) :: m').
Proof.
  intros H P S. destruct (store_at _ _ _ _ y _ H P) as (h' & E & H' & _). exists h'. split; [|exact H'].
  assert (I : In (a, x) m) by (eapply Permutation_in; [symmetry; exact P|now left]).
  split; cbn [run log writes]; rewrite (load_is _ _ _ _ H I); cbn [bind]; rewrite S; cbn [as_outcome bind]; rewrite E; reflexivity.
Qed.

(** ** Accesses to what was there before *)

Definition is_read (x : access) : bool := match x with Reads _ _ => true | _ => false end.
Definition at_old (old : list nat) (x : access) : bool :=
  match x with
  | Reads _ _ => false
  | Writes a _ | Frees a => if in_dec Nat.eq_dec a old then true else false
  end.

Lemma d_alive h m p : heap_is h m -> (forall a, p = Some a -> exists x, In (a, x) m) ->
  exists l, does (alive p) h l tt h /\ forallb is_read l = true.
Proof.
  intros H I. destruct p as [a|]; [|exists []; split; [apply d_ret|reflexivity]]. destruct (I a eq_refl) as (x & Ix).
  exists [Reads a Lifetime]. split; [|reflexivity]. unfold alive. eapply d_look; [exact H|exact Ix|reflexivity|apply d_ret].
Qed.
Lemma d_same_pointer h m p q : heap_is h m -> (forall a, p = Some a -> exists x, In (a, x) m) -> (forall a, q = Some a -> exists x, In (a, x) m) ->
  exists l, does (same_pointer_p p q) h l (ptr_eqb p q) h /\ forallb is_read l = true.
Proof.
  intros H I J. destruct (d_alive _ _ _ H I) as (l1 & D1 & F1), (d_alive _ _ _ H J) as (l2 & D2 & F2).
  exists (l1 ++ l2 ++ []). split.
  - unfold same_pointer_p. eapply d_bind; [exact D1|]. eapply d_bind; [exact D2|apply d_ret].
  - now rewrite !forallb_app, F1, F2.
Qed.

(** ** Frames *)

Lemma d_id_of h m l f : heap_is h m -> incl (frame_blocks l f) m ->
  does (id_of (Some (l_self l))) h [Reads (l_self l) FrameHead; Reads (l_header l) HeadId] (fh_id (f_hdr f)) h.
Proof.
  intros H I. unfold id_of. change [?x; ?y] with ([x] ++ [y]). eapply d_bind.
  - eapply d_look_ptr; [exact H|apply I; now left|reflexivity].
  - eapply d_look_chars; [exact H|apply I; right; now left|reflexivity].
Qed.
Lemma d_size_of h m l f : heap_is h m -> incl (frame_blocks l f) m ->
  does (size_of (Some (l_self l))) h [Reads (l_self l) FrameHead; Reads (l_header l) HeadSize] (fh_size (f_hdr f)) h.
Proof.
  intros H I. unfold size_of. change [?x; ?y] with ([x] ++ [y]). eapply d_bind.
  - eapply d_look_ptr; [exact H|apply I; now left|reflexivity].
  - eapply d_look_int; [exact H|apply I; right; now left|reflexivity].
Qed.
Lemma d_id_matches h m head p pl e arg id : heap_is h m -> incl (node_blocks head (p :: pl)) m -> incl (p_frame_blocks p) m ->
  n_frame (p_node p) = Some e -> sane (fp_frame e) -> points_to arg id -> length id = 4%nat ->
  does (id_matches_p (Some (p_addr p)) arg) h
    [Reads (p_addr p) NodeFrame; Reads (l_self (p_lay p)) FrameHead; Reads (l_header (p_lay p)) HeadId] (named id (fp_frame e)) h.
Proof.
  intros H I J F S P L. unfold id_matches_p. apply incl_nodes_cons in I as (I & _). unfold node_block in I.
  unfold p_frame in I. unfold p_frame_blocks in J. rewrite F in *.
  pose proof (id_matches_ok _ _ _ S P L) as E. unfold id_matches in E.
  change [?x; ?y; ?z] with ([x] ++ [y; z]). eapply d_bind; [eapply d_look_ptr; [exact H|exact I|reflexivity]|].
  rewrite <- (app_nil_r [Reads (l_self _) _; _]). eapply d_bind; [eapply d_id_of; eassumption|].
  destruct (deref arg) as [i| | |]; try discriminate E. cbn [bind bindp]. split; [cbn [run]; cbn [bind] in E; now rewrite E|reflexivity].
Qed.

(** Reading changes nothing. *)
Lemma d_last_node h m head q : heap_is h m -> forall pl fuel, incl (node_blocks head (pl ++ [q])) m -> (length pl < fuel)%nat ->
  exists l, does (last_node_p fuel (first_addr (pl ++ [q]))) h l (Some (p_addr q)) h /\ forallb is_read l = true.
Proof.
  intros H. induction pl as [|p pl IH]; intros fuel I L; (destruct fuel; [cbn [length] in L; lia|]).
  - cbn [app first_addr last_node_p]. apply incl_nodes_cons in I as (I & _).
    eexists. split; [eapply d_bind; [eapply d_look_ptr; [exact H|exact I|reflexivity]|apply d_ret]|reflexivity].
  - cbn [app] in I |- *. cbn [first_addr last_node_p]. apply incl_nodes_cons in I as (I & I'). cbn [length] in L.
    destruct (IH fuel I' ltac:(lia)) as (l & D & F).
    assert (E : exists n, first_addr (pl ++ [q]) = Some n) by (destruct pl; cbn; eauto). destruct E as (n & E).
    eexists. split.
    + eapply d_bind; [eapply d_look_ptr; [exact H|exact I|reflexivity]|]. rewrite E. cbv iota.
      eapply d_bind; [eapply d_look_ptr; [exact H|exact I|reflexivity]|]. exact D.
    + cbn [app forallb is_read andb]. exact F.
Qed.

(** The accesses of FrameList_get_frame_by_id, and what it finds. *)
Fixpoint get_log (id : list byte) (pl : list pnode) : list access :=
  match pl with
  | [] => []
  | p :: pl =>
      Reads (p_addr p) NodeFrame ::
      match n_frame (p_node p) with
      | None => []
      | Some e =>
          [Reads (p_addr p) NodeFrame; Reads (l_self (p_lay p)) FrameHead; Reads (l_header (p_lay p)) HeadId]
          ++ (if named id (fp_frame e) then [Reads (p_addr p) NodeFrame] else Reads (p_addr p) NodeNext :: get_log id pl)
      end
  end.
Fixpoint get_ptr (id : list byte) (pl : list pnode) : ptr :=
  match pl with
  | [] => None
  | p :: pl =>
      match n_frame (p_node p) with
      | None => None
      | Some e => if named id (fp_frame e) then Some (l_self (p_lay p)) else get_ptr id pl
      end
  end.
Lemma get_log_reads id pl : forallb is_read (get_log id pl) = true.
Proof.
  induction pl as [|p pl IH]; [reflexivity|]. cbn [get_log forallb is_read andb]. destruct (n_frame (p_node p)) as [e|]; [|reflexivity].
  cbn [app forallb is_read andb]. now destruct (named id (fp_frame e)).
Qed.

Definition pl_sane (pl : list pnode) : Prop :=
  forall p e, In p pl -> n_frame (p_node p) = Some e -> sane (fp_frame e).

Lemma d_get h m head arg id : heap_is h m -> points_to arg id -> length id = 4%nat ->
  forall pl fuel, incl (node_blocks head pl) m -> incl (all_frame_blocks pl) m -> pl_sane pl -> (length pl < fuel)%nat ->
  does (get_frame_by_id_p fuel (first_addr pl) arg) h (get_log id pl) (get_ptr id pl) h.
Proof.
  intros H P L4. induction pl as [|p pl IH]; intros fuel I J S L; (destruct fuel; [cbn [length] in L; lia|]).
  - apply d_ret.
  - cbn [first_addr get_frame_by_id_p get_log get_ptr]. pose proof I as I0. apply incl_nodes_cons in I as (I & I').
    apply incl_frames_cons in J as (J & J'). change (?x :: ?l) with ([x] ++ l) at 1.
    eapply d_bind; [eapply d_look_ptr; [exact H|exact I|reflexivity]|].
    assert (In p (p :: pl)) as Ip by now left. specialize (S p) as Sp. unfold node_block, p_frame in *.
    destruct (n_frame (p_node p)) as [e|] eqn:F; [|apply d_ret]. cbv iota.
    eapply d_bind; [eapply (d_id_matches _ _ head p pl e); eauto|].
    destruct (named id (fp_frame e)); [eapply d_look_ptr; [exact H|exact I|reflexivity]|].
    change (?x :: ?l) with ([x] ++ l) at 1.
    eapply d_bind; [eapply d_look_ptr; [exact H|exact I|reflexivity]|]. apply IH; auto; [|cbn [length] in L; lia].
    intros r e' Ir. apply S. now right.
Qed.
