(** Programs left alone until they stop: their result, and what they access. *)
From Verif Require Import BaseFacts HeapFacts SpecShared SharedFacts.
From Coq Require Import Lia.

Fixpoint run {A} (p : prog A) (h : heap) : outcome (A * heap) :=
  match p with
  | Stop o => let* a := o in Ok (a, h)
  | Look q f k => let* b := load q h in let* v := as_outcome (get_field f b) in run (k v) h
  | Change q f v k =>
      let* b := load q h in let* b := as_outcome (set_field f v b) in let* h := store q b h in run k h
  | Make x k => let (a, h) := malloc x h in run (k a) h
  | Drop q k => let* h := free q h in run k h
  end.

Definition or_nil {B} (o : outcome B) (k : B -> list access) : list access :=
  match o with Ok b => k b | _ => [] end.
Definition reads (q : ptr) (f : field) : list access := match q with Some a => [Reads a f] | None => [] end.
Definition writes (q : ptr) (f : field) : list access := match q with Some a => [Writes a f] | None => [] end.
Definition frees (q : ptr) : list access := match q with Some a => [Frees a] | None => [] end.

Fixpoint log {A} (p : prog A) (h : heap) : list access :=
  match p with
  | Stop o => []
  | Look q f k => reads q f ++ or_nil (let* b := load q h in as_outcome (get_field f b)) (fun v => log (k v) h)
  | Change q f v k =>
      writes q f ++
      or_nil (let* b := load q h in let* b := as_outcome (set_field f v b) in store q b h) (fun h => log k h)
  | Make x k => let (a, h) := malloc x h in log (k a) h
  | Drop q k => frees q ++ or_nil (free q h) (fun h => log k h)
  end.

Lemma bind_assoc {A B C} (o : outcome A) (f : A -> outcome B) (g : B -> outcome C) :
  (let* b := (let* a := o in f a) in g b) = (let* a := o in let* b := f a in g b).
Proof. now destruct o. Qed.
Lemma bind_ext {A B} (o : outcome A) (f g : A -> outcome B) : (forall a, f a = g a) -> (let* a := o in f a) = (let* a := o in g a).
Proof. intros E. destruct o; cbn; auto. Qed.

Lemma run_bind {A B} (p : prog A) (f : A -> prog B) : forall h,
  run (bindp p f) h = (let* (a, h) := run p h in run (f a) h).
Proof.
  induction p as [o|q g k IH|q g v k IH|x k IH|q k IH]; intros h.
  - destruct o; reflexivity.
  - cbn [bindp run]. rewrite !bind_assoc. apply bind_ext. intros b. rewrite bind_assoc. apply bind_ext. auto.
  - cbn [bindp run]. rewrite !bind_assoc. apply bind_ext. intros b. rewrite bind_assoc. apply bind_ext. intros y.
    rewrite bind_assoc. apply bind_ext. auto.
  - cbn [bindp run malloc]. auto.
  - cbn [bindp run]. rewrite !bind_assoc. apply bind_ext. auto.
Qed.

Lemma log_bind {A B} (p : prog A) (f : A -> prog B) : forall h,
  log (bindp p f) h = log p h ++ or_nil (run p h) (fun x => log (f (fst x)) (snd x)).
Proof.
  induction p as [o|q g k IH|q g v k IH|x k IH|q k IH]; intros h.
  - destruct o; reflexivity.
  - cbn [bindp run log]. rewrite <- app_assoc. f_equal. destruct (load q h) as [b| | |]; try reflexivity. cbn [bind].
    destruct (get_field g b); [|reflexivity]. cbn [as_outcome bind or_nil]. apply IH.
  - cbn [bindp run log]. rewrite <- app_assoc. f_equal. destruct (load q h) as [b| | |]; try reflexivity. cbn [bind].
    destruct (set_field g v b) as [y|]; [|reflexivity]. cbn [as_outcome bind or_nil].
    destruct (store q y h); try reflexivity. cbn [bind or_nil]. apply IH.
  - cbn [bindp run log malloc]. apply IH.
  - cbn [bindp run log]. rewrite <- app_assoc. f_equal. destruct (free q h) as [h'| | |]; try reflexivity. apply IH.
Qed.

(** ** Step by step *)

Lemma alone_stop {A} (o : outcome A) h k : alone k (Stop o, h) = (Stop o, h).
Proof. induction k as [|k IH]; [reflexivity|]. cbn [alone]. now rewrite IH. Qed.
Lemma alone_S {A} (x : prog A * heap) k : alone (S k) x = alone k (advance x).
Proof. induction k as [|k IH]; [reflexivity|]. cbn [alone] in *. now rewrite IH. Qed.

(** The same for what is left after one access. *)
Lemma touches_next {A} (x : prog A * heap) y : touches x y <-> pending (fst x) = Some y \/ touches (advance x) y.
Proof.
  split.
  - intros ([|k] & P); [now left|]. right. exists k. now rewrite <- alone_S.
  - intros [P|(k & P)]; [now exists O|]. exists (S k). now rewrite alone_S.
Qed.

Lemma touches_stop {A} (o : outcome A) h y : ~ touches (Stop o, h) y.
Proof. intros (k & P). rewrite alone_stop in P. discriminate P. Qed.

Lemma touches_log {A} (p : prog A) : forall h y, touches (p, h) y <-> In y (log p h).
Proof.
  assert (D : forall (B : Type) (o : outcome B) h (k : B -> prog A * heap) (l : B -> list access) z,
     (forall b, o = Ok b -> touches (k b) z <-> In z (l b)) ->
     touches (next_step o h k) z <-> In z (or_nil o l)).
  { intros B o h k l z H. destruct o; cbn [next_step or_nil]; [now apply H| | |];
      (split; [intros T; now apply touches_stop in T|intros []]). }
  induction p as [o|q g k IH|q g v k IH|x k IH|q k IH]; intros h y; rewrite touches_next.
  - cbn [advance log fst pending]. split; [intros [E|T]; [discriminate E|now apply touches_stop in T]|intros []].
  - cbn [advance log fst]. rewrite in_app_iff.
    rewrite (D _ _ _ _ (fun v => log (k v) h)) by (intros; apply IH).
    apply or_iff_compat_r. destruct q; cbn [pending reads In]; intuition congruence.
  - cbn [advance log fst]. rewrite in_app_iff.
    rewrite (D _ _ _ _ (fun h => log k h)) by (intros; apply IH).
    apply or_iff_compat_r. destruct q; cbn [pending writes In]; intuition congruence.
  - cbn [advance log fst pending malloc]. rewrite IH. intuition congruence.
  - cbn [advance log fst]. rewrite in_app_iff.
    rewrite (D _ _ _ _ (fun h => log k h)) by (intros; apply IH).
    apply or_iff_compat_r. destruct q; cbn [pending frees In]; intuition congruence.
Qed.

Lemma ends_next {A} (x : prog A * heap) o : ends (advance x) o -> ends x o.
Proof. intros (k & E). exists (S k). now rewrite alone_S. Qed.

Definition result {A} (o : outcome (A * heap)) : outcome A := let* x := o in Ok (fst x).

Lemma run_ends {A} (p : prog A) : forall h, ends (p, h) (result (run p h)).
Proof.
  assert (D : forall (B : Type) (o : outcome B) h (k : B -> prog A * heap) (r : B -> outcome (A * heap)),
     (forall b, o = Ok b -> ends (k b) (result (r b))) -> ends (next_step o h k) (result (let* b := o in r b))).
  { intros B o h k r H. destruct o; cbn [next_step bind]; [now apply H| | |]; exists O; reflexivity. }
  induction p as [o|q g k IH|q g v k IH|x k IH|q k IH]; intros h.
  - exists O. cbn [alone fst run]. now destruct o.
  - apply ends_next. cbn [advance run]. rewrite <- bind_assoc. apply D. auto.
  - apply ends_next. cbn [advance run].
    replace (let* b := load q h in let* b := as_outcome (set_field g v b) in let* h0 := store q b h in run k h0)
      with (let* h0 := (let* b := load q h in let* b := as_outcome (set_field g v b) in store q b h) in run k h0)
      by (rewrite bind_assoc; apply bind_ext; intros b; now rewrite bind_assoc).
    apply D. auto.
  - apply ends_next. cbn [advance run malloc]. apply IH.
  - apply ends_next. cbn [advance run]. apply D. auto.
Qed.

Lemma stopped {A} (x : prog A * heap) k o : fst (alone k x) = Stop o -> forall m, (k <= m)%nat -> fst (alone m x) = Stop o.
Proof.
  intros E m L. induction L as [|m L IH]; [exact E|]. cbn [alone]. rewrite (pair_eta (alone m x)), IH. reflexivity.
Qed.

Lemma ends_fine {A} (x : prog A * heap) o : ends x o -> (forall u, o <> Ub u) -> fine x.
Proof.
  intros (k & E) N m u F. destruct (Nat.le_ge_cases k m) as [L|L].
  - rewrite (stopped _ _ _ E m L) in F. injection F as F. exact (N u F).
  - rewrite (stopped _ _ _ F k L) in E. injection E as E. exact (N u (eq_sym E)).
Qed.

Lemma run_fine {A} (p : prog A) h a h' : run p h = Ok (a, h') -> fine (p, h).
Proof. intros E. eapply ends_fine; [apply run_ends|]. rewrite E. discriminate. Qed.

Lemma ends_unique {A} (x : prog A * heap) o o' : ends x o -> ends x o' -> o = o'.
Proof.
  intros (k & E) (m & F). destruct (Nat.le_ge_cases k m) as [L|L].
  - rewrite (stopped _ _ _ E m L) in F. congruence.
  - rewrite (stopped _ _ _ F k L) in E. congruence.
Qed.

(** The heap at the end. *)
Lemma run_heap {A} (p : prog A) : forall h a h', run p h = Ok (a, h') -> exists k, alone k (p, h) = (Stop (Ok a), h').
Proof.
  assert (K : forall x y : prog A * heap, (exists k, alone k (advance x) = y) -> exists k, alone k x = y).
  { intros x y (k & E). exists (S k). now rewrite alone_S. }
  induction p as [o|q g k IH|q g v k IH|x k IH|q k IH]; intros h a h' E; cbn [run] in E.
  - exists O. destruct o; try discriminate E. injection E as -> ->. reflexivity.
  - apply K. cbn [advance]. destruct (load q h) as [b| | |]; try discriminate E. cbn [bind] in *.
    destruct (get_field g b); [|discriminate E]. cbn in *. eauto.
  - apply K. cbn [advance]. destruct (load q h) as [b| | |]; try discriminate E. cbn [bind] in *.
    destruct (set_field g v b); [|discriminate E]. cbn [bind as_outcome] in *. destruct (store q b0 h); try discriminate E.
    cbn in *. eauto.
  - apply K. cbn [advance malloc] in *. eauto.
  - apply K. cbn [advance] in *. destruct (free q h); try discriminate E. cbn in *. eauto.
Qed.

Lemma run_allocates {A} (p : prog A) h a h' x : run p h = Ok (a, h') -> allocates (p, h) x -> (next h <= x < next h')%nat.
Proof.
  intros E (L & k & U). cbn [snd] in L. split; [exact L|]. destruct (run_heap _ _ _ _ E) as (m & Em).
  pose proof (run_fine _ _ _ _ E) as F. destruct (Nat.le_ge_cases k m) as [Lk|Lk].
  - pose proof (alone_next _ F _ _ Lk) as N. rewrite Em in N. cbn [snd] in N. lia.
  - assert (Es : alone k (p, h) = (Stop (Ok a), h')).
    { clear U. induction Lk as [|k Lk IH]; [exact Em|]. cbn [alone]. now rewrite IH. }
    rewrite Es in U. exact U.
Qed.
