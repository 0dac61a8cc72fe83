(** Blocks: loading, storing, freeing. *)
From Verif Require Import BaseFacts Heap SpecHeap.
From Coq Require Import Lia.

(** ** Permutations of concatenated lists *)

Lemma perm_here {A} (a r : list A) : Permutation (a ++ r) (a ++ r).
Proof. reflexivity. Qed.
Lemma perm_end {A} (a : list A) : Permutation a (a ++ []).
Proof. now rewrite app_nil_r. Qed.
Lemma perm_next {A} (a b r r' : list A) : Permutation r (a ++ r') -> Permutation (b ++ r) (a ++ b ++ r').
Proof. intros H. rewrite H, !app_assoc. apply Permutation_app_tail, Permutation_app_comm. Qed.
Lemma perm_step {A} (a l r r' : list A) : Permutation r (a ++ r') -> Permutation l r' -> Permutation (a ++ l) r.
Proof. intros H1 H2. now rewrite H1, H2. Qed.
Lemma perm_last {A} (a r r' : list A) : Permutation r (a ++ r') -> Permutation [] r' -> Permutation a r.
Proof. intros H1 H2. rewrite H1, <- H2. now rewrite app_nil_r. Qed.
Lemma cons_is_app {A} (x : A) l : x :: l = [x] ++ l.
Proof. reflexivity. Qed.

Ltac split_cons :=
  repeat match goal with
  | |- context [?x :: ?l] => lazymatch l with nil => fail | _ => rewrite (cons_is_app x l) end
  end.
Ltac bring := first [ apply perm_here | apply perm_end | apply perm_next; bring ].
Ltac perm_go :=
  match goal with
  | |- Permutation [] [] => constructor
  | |- Permutation (_ ++ _) _ => eapply perm_step; [bring|perm_go]
  | |- Permutation _ _ => eapply perm_last; [bring|perm_go]
  end.
Ltac perm := split_cons; repeat rewrite <- app_assoc; rewrite ?app_nil_r; cbn [app]; split_cons; perm_go.

Goal forall (a b c : list nat) x y, Permutation (x :: a ++ b ++ y :: c) (c ++ y :: b ++ x :: a).
Proof. intros. perm. Qed.

(** ** Lookups *)

Lemma lookup_in a x l : lookup a l = Some x -> In (a, x) l.
Proof.
  induction l as [|[b y] l IH]; [discriminate|]. cbn [lookup]. destruct (Nat.eqb_spec b a) as [->|]; [|right; auto].
  intros E. injection E as ->. now left.
Qed.

Lemma lookup_found a x l : NoDup (map fst l) -> In (a, x) l -> lookup a l = Some x.
Proof.
  induction l as [|[b y] l IH]; intros D I; [destruct I|]. cbn [map fst] in D. inversion D as [|? ? N D']; subst.
  cbn [lookup]. destruct I as [E|I]; [injection E as -> ->; now rewrite Nat.eqb_refl|].
  destruct (Nat.eqb_spec b a) as [->|]; [|auto]. destruct N. change a with (fst (a, x)). now apply in_map.
Qed.

Lemma discard_perm a x l m : NoDup (map fst l) -> Permutation l ((a, x) :: m) -> Permutation (discard a l) m.
Proof.
  revert m. induction l as [|[b y] l IH]; intros m D P.
  - apply Permutation_length in P. discriminate P.
  - cbn [map fst] in D. inversion D as [|? ? N D']; subst. cbn [discard]. destruct (Nat.eqb_spec b a) as [->|Ne].
    + assert (E : (a, y) = (a, x)).
      { assert (I : In (a, x) ((a, y) :: l)) by (eapply Permutation_in; [symmetry; exact P|now left]).
        destruct I as [E|I]; [exact E|]. destruct N. change a with (fst (a, x)). now apply in_map. }
      rewrite E in P. now apply Permutation_cons_inv in P.
    + assert (I : In (b, y) m).
      { assert (I : In (b, y) ((a, x) :: m)) by (eapply Permutation_in; [exact P|now left]).
        destruct I as [E|I]; [congruence|exact I]. }
      destruct (in_split _ _ I) as (m1 & m2 & ->).
      rewrite (IH (m1 ++ m2) D').
      * apply Permutation_middle.
      * apply (Permutation_cons_inv (a := (b, y))). rewrite P. perm.
Qed.

Lemma update_perm a x y l m : NoDup (map fst l) -> Permutation l ((a, x) :: m) ->
  Permutation (update a y l) ((a, y) :: m).
Proof.
  revert m. induction l as [|[b z] l IH]; intros m D P.
  - apply Permutation_length in P. discriminate P.
  - cbn [map fst] in D. inversion D as [|? ? N D']; subst. cbn [update]. destruct (Nat.eqb_spec b a) as [->|Ne].
    + assert (E : (a, z) = (a, x)).
      { assert (I : In (a, x) ((a, z) :: l)) by (eapply Permutation_in; [symmetry; exact P|now left]).
        destruct I as [E|I]; [exact E|]. destruct N. change a with (fst (a, x)). now apply in_map. }
      rewrite E in P. apply Permutation_cons_inv in P. now rewrite P.
    + assert (I : In (b, z) m).
      { assert (I : In (b, z) ((a, x) :: m)) by (eapply Permutation_in; [exact P|now left]).
        destruct I as [E|I]; [congruence|exact I]. }
      destruct (in_split _ _ I) as (m1 & m2 & ->).
      rewrite (IH (m1 ++ m2) D').
      * perm.
      * apply (Permutation_cons_inv (a := (b, z))). rewrite P. perm.
Qed.

(** ** heap_is *)

Lemma heap_perm h m m' : heap_is h m -> Permutation m m' -> heap_is h m'.
Proof.
  intros (P & D & B) Q. split; [now rewrite P|]. split.
  - eapply Permutation_NoDup; [apply Permutation_map; exact Q|exact D].
  - eapply Permutation_Forall; [apply Permutation_map; exact Q|exact B].
Qed.

Lemma heap_live h m : heap_is h m -> NoDup (map fst (live h)).
Proof. intros (P & D & _). eapply Permutation_NoDup; [apply Permutation_map; symmetry; exact P|exact D]. Qed.

Lemma load_is h m a x : heap_is h m -> In (a, x) m -> load (Some a) h = Ok x.
Proof.
  intros H I. pose proof (heap_live _ _ H) as D. destruct H as (P & _). unfold load. cbn [deref bind].
  rewrite (lookup_found a x); [reflexivity|exact D|]. eapply Permutation_in; [symmetry; exact P|exact I].
Qed.

Lemma load_gone h m a : heap_is h m -> ~ In a (map fst m) -> load (Some a) h = Ub UseAfterFree.
Proof.
  intros (P & _) N. unfold load. cbn [deref bind]. destruct (lookup a (live h)) as [x|] eqn:E; [|reflexivity].
  destruct N. apply lookup_in in E. apply (in_map fst) in E. eapply Permutation_in; [apply Permutation_map; exact P|exact E].
Qed.

Lemma free_gone h m a : heap_is h m -> ~ In a (map fst m) -> free (Some a) h = Ub BadFree.
Proof.
  intros (P & _) N. unfold free. destruct (lookup a (live h)) as [x|] eqn:E; [|reflexivity].
  destruct N. apply lookup_in in E. apply (in_map fst) in E. eapply Permutation_in; [apply Permutation_map; exact P|exact E].
Qed.

Lemma store_is h m a x y : heap_is h ((a, x) :: m) ->
  exists h', store (Some a) y h = Ok h' /\ heap_is h' ((a, y) :: m) /\ next h' = next h.
Proof.
  intros H. pose proof (load_is _ _ a x H (or_introl eq_refl)) as L. pose proof (heap_live _ _ H) as Dl.
  destruct H as (P & D & B). unfold store. rewrite L. cbn [bind deref]. eexists. split; [reflexivity|].
  split; [|reflexivity]. split; [|split; [exact D|exact B]]. cbn [live]. eapply update_perm; eauto.
Qed.

Lemma free_is h m a x : heap_is h ((a, x) :: m) ->
  exists h', free (Some a) h = Ok h' /\ heap_is h' m /\ next h' = next h.
Proof.
  intros H. pose proof (load_is _ _ a x H (or_introl eq_refl)) as L. pose proof (heap_live _ _ H) as Dl.
  destruct H as (P & D & B). unfold free. unfold load in L. cbn [bind deref] in L.
  destruct (lookup a (live h)); [|discriminate L]. eexists. split; [reflexivity|]. split; [|reflexivity].
  cbn [map fst] in D, B. inversion D; subst. inversion B; subst.
  split; [|auto]. cbn [live]. eapply discard_perm; eauto.
Qed.

Lemma malloc_is h m x : heap_is h m ->
  exists h', malloc x h = (next h, h') /\ heap_is h' ((next h, x) :: m) /\ next h' = S (next h).
Proof.
  intros (P & D & B). unfold malloc. eexists. split; [reflexivity|]. split; [|reflexivity]. split; [|split].
  - cbn [live]. now rewrite P.
  - cbn [map fst]. constructor; [|exact D]. intros I. eapply Forall_forall in B; [|exact I]. lia.
  - cbn [map fst next]. constructor; [lia|]. eapply Forall_impl; [|exact B]. cbn. lia.
Qed.

Lemma heap_size h m : heap_is h m -> length (live h) = length m.
Proof. intros (P & _). now apply Permutation_length. Qed.

Lemma heap_disjoint h a x m : heap_is h ((a, x) :: m) -> ~ In a (map fst m).
Proof. intros (_ & D & _). now inversion D. Qed.
