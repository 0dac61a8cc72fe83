(** Facts about Stdio.v. *)
From Coq Require Import Lia.
From Verif Require Import SpecStdio.
Local Open Scope nat_scope.

(** ** Parts of lists *)
Lemma part_refl A (l : list A) : part_of l l.
Proof. induction l; constructor; auto. Qed.
Lemma part_trans A (a b c : list A) : part_of a b -> part_of b c -> part_of a c.
Proof.
  intros H K. revert a H. induction K; intros a0 H.
  - inversion H; constructor.
  - inversion H; subst; constructor; auto.
  - constructor; auto.
Qed.
Lemma part_app A (a b c d : list A) : part_of a b -> part_of c d -> part_of (a ++ c) (b ++ d).
Proof.
  intros H K. induction H; cbn [app].
  - induction l; cbn [app]; auto. constructor; auto.
  - constructor; auto.
  - constructor; auto.
Qed.
Lemma part_left A (a b : list A) : part_of a (a ++ b).
Proof. rewrite <- (app_nil_r a) at 1. apply part_app; [apply part_refl|constructor]. Qed.
Lemma part_firstn A n (l : list A) : part_of (firstn n l) l.
Proof. rewrite <- (firstn_skipn n l) at 2. apply part_left. Qed.

(** ** Answers and streams *)
Definition later (s s' : sys) : Prop := exists l, s_answers s = l ++ s_answers s'.
Lemma later_calm s s' : later s s' -> calm s -> calm s'.
Proof. intros [l E] C n I. apply (C n). rewrite E. apply in_or_app; auto. Qed.

(** Only these streams may have changed. *)
Definition run (K : list nat) (s s' : sys) : Prop :=
  (forall j, ~ In j K -> s_open s' j = s_open s j) /\ s_next s' = s_next s /\ later s s'.
Lemma run_refl K s : run K s s.
Proof. repeat split; auto. exists []; auto. Qed.
Lemma run_trans K s s1 s2 : run K s s1 -> run K s1 s2 -> run K s s2.
Proof.
  intros (A & B & l & C) (A' & B' & l' & C'). repeat split.
  - intros j I. rewrite A', A; auto.
  - congruence.
  - exists (l ++ l'). rewrite C, C', app_assoc; auto.
Qed.
Lemma run_sub K L s s' : incl K L -> run K s s' -> run L s s'.
Proof. intros I (A & B & C). repeat split; auto. Qed.

(** ** The disk *)

(** Only [t] has changed, which had [c] and got [x] in addition, bit by bit. *)
Definition grows (t : target) (c x : list byte) (s s' : sys) : Prop :=
  s_disk s t = Some c /\ s_disk s' t = Some (c ++ x) /\
  (forall u, u <> t -> s_disk s' u = s_disk s u) /\
  exists l, s_log s' = l ++ s_log s /\
    Forall (fun d => (forall u, u <> t -> d u = s_disk s u) /\
                     exists y z, d t = Some (c ++ y) /\ x = y ++ z) l.

Lemma grows_refl t c s : s_disk s t = Some c -> grows t c [] s s.
Proof. intros H. rewrite <- (app_nil_r c) in H. repeat split; auto; [now rewrite app_nil_r in H|]. exists []; auto. Qed.

Lemma grows_trans t c x y s s1 s2 :
  grows t c x s s1 -> grows t (c ++ x) y s1 s2 -> grows t c (x ++ y) s s2.
Proof.
  intros (A & B & C & l & D & E) (A' & B' & C' & l' & D' & E'). repeat split; auto.
  - rewrite B', app_assoc; auto.
  - intros u N. rewrite C', C; auto.
  - exists (l' ++ l). split; [rewrite D', D, app_assoc; auto|]. apply Forall_app; split.
    + revert E'. apply Forall_impl. intros d (P & y0 & z & Q & R). split.
      * intros u N. rewrite P, C; auto.
      * exists (x ++ y0), z. rewrite Q, R, !app_assoc; auto.
    + revert E. apply Forall_impl. intros d (P & y0 & z & Q & R). split; auto.
      exists y0, (z ++ y). rewrite Q, R, app_assoc; auto.
Qed.

Lemma untouched_refl s : untouched s s.
Proof. split; auto. Qed.
Lemma untouched_trans s s1 s2 : untouched s s1 -> untouched s1 s2 -> untouched s s2.
Proof. intros [A B] [C D]. split; [intros t; rewrite C; auto|congruence]. Qed.
Lemma untouched_grows t c s s' : s_disk s t = Some c -> untouched s s' -> grows t c [] s s'.
Proof.
  intros H [A B]. repeat split; auto.
  - rewrite A, app_nil_r; auto.
  - exists []; auto.
Qed.


Lemma untouched_then t c x s s1 s2 : untouched s s1 -> grows t c x s1 s2 -> grows t c x s s2.
Proof.
  intros U G. change x with ([] ++ x). apply (grows_trans t c [] x s s1 s2); [|now rewrite app_nil_r].
  apply untouched_grows; auto. destruct G as (G & _). destruct U as [U _]. now rewrite <- U.
Qed.
Lemma then_untouched t c x s s1 s2 : grows t c x s s1 -> untouched s1 s2 -> grows t c x s s2.
Proof.
  intros G U. rewrite <- (app_nil_r x). apply (grows_trans t c x [] s s1 s2); [auto|].
  apply untouched_grows; auto. apply G.
Qed.

(** ** Single calls *)
Ltac cj := repeat match goal with |- _ /\ _ => split end.

Lemma set_stream_ok k o s : exists s', set_stream k o s = (Ok tt, s') /\ run [k] s s' /\ untouched s s' /\
  s_open s' k = o.
Proof.
  eexists. split; [reflexivity|]. cj; cbn.
  - split; [|split; auto; exists []; auto]. intros j N. cbn. destruct (Nat.eqb_spec j k); auto.
    subst; destruct N; left; auto.
  - apply untouched_refl || (split; auto).
  - now rewrite Nat.eqb_refl.
Qed.

Lemma set_disk_ok t f s : exists s', set_disk t f s = (Ok tt, s') /\ run [] s s' /\
  (forall u, u <> t -> s_disk s' u = s_disk s u) /\ s_disk s' t = f /\ s_log s' = s_disk s' :: s_log s.
Proof.
  eexists. split; [reflexivity|]. cj; cbn; auto.
  - apply run_refl || (split; [auto|split; auto; exists []; auto]).
  - intros u N. destruct (target_dec u t); congruence.
  - destruct (target_dec t t); congruence.
Qed.

Lemma ask_ok s : exists a s', ask s = (Ok a, s') /\ run [] s s' /\ untouched s s' /\
  (calm s -> forall n, a <> Refuse n).
Proof.
  unfold ask. destruct (s_answers s) as [|a r] eqn:E; eexists _, _; (split; [reflexivity|]); cj.
  - apply run_refl.
  - apply untouched_refl.
  - congruence.
  - split; [auto|split; auto]. exists [a]; auto.
  - split; auto.
  - intros C n ->. apply (C n). rewrite E. left; auto.
Qed.

Lemma run_open K s s' j : run K s s' -> ~ In j K -> s_open s' j = s_open s j.
Proof. intros (A & _) N. auto. Qed.
Lemma run_calm K s s' : run K s s' -> calm s -> calm s'.
Proof. intros (_ & _ & L). now apply later_calm. Qed.
Lemma run_nil K s s' : run [] s s' -> run K s s'.
Proof. apply run_sub. intros j []. Qed.

Lemma write_at_end c l : write_at (length c) l c = c ++ l.
Proof.
  unfold write_at. rewrite firstn_all, Nat.sub_diag, skipn_all2 by lia. cbn [repeat app]. now rewrite app_nil_r.
Qed.

Lemma bind_ok {A B} (m : io A) (f : A -> io B) s a s' : m s = (Ok a, s') -> bindio m f s = f a s'.
Proof. intros E. unfold bindio. now rewrite E. Qed.

(** Writing out at the end of a file. *)
Lemma flush_ok k t c q a s : s_disk s t = Some c ->
  exists s' x y, flush k (mkStream t (length c) q) a s = (Ok (mkStream t (length (c ++ x)) []), s') /\
  q = x ++ y /\ ((forall n, a <> Refuse n) -> y = []) /\ grows t c x s s' /\ run [k] s s' /\
  s_open s' k = Some (mkStream t (length (c ++ x)) []).
Proof.
  intros H. unfold flush. cbn [st_pending st_target st_pos].
  set (x := match a with Refuse n => firstn n q | _ => q end).
  assert (Y : exists y, q = x ++ y /\ ((forall n, a <> Refuse n) -> y = [])).
  { subst x. destruct a as [| |n].
    - exists []. rewrite app_nil_r; auto.
    - exists []. rewrite app_nil_r; auto.
    - exists (skipn n q). rewrite firstn_skipn. split; auto. intros N. destruct (N n); auto. }
  destruct Y as (y & Y & Y'). clearbody x. rewrite <- app_length.
  destruct x as [|b x].
  - destruct (set_stream_ok k (Some (mkStream t (length (c ++ [])) [])) s) as (s1 & E & R & U & O).
    exists s1, [], y. cj; auto; [now rewrite (bind_ok _ _ _ _ _ E)|now apply untouched_grows].
  - destruct (set_disk_ok t (Some (c ++ b :: x)) s) as (s1 & E1 & R1 & V1 & D1 & L1).
    destruct (set_stream_ok k (Some (mkStream t (length (c ++ b :: x)) [])) s1) as (s2 & E2 & R2 & U2 & O2).
    exists s2, (b :: x), y. cj; auto.
    + unfold bindio at 1, contents. rewrite H, write_at_end.
      now rewrite (bind_ok _ _ _ _ _ E1), (bind_ok _ _ _ _ _ E2).
    + eapply then_untouched, U2. split; [auto|split; [auto|split; auto]]. exists [s_disk s1].
      split; [exact L1|]. constructor; auto. split; auto. exists (b :: x), []. now rewrite app_nil_r.
    + eapply run_trans, R2. now apply run_nil.
Qed.

Lemma flush_none k t p a s :
  exists s', flush k (mkStream t p []) a s = (Ok (mkStream t p []), s') /\ untouched s s' /\ run [k] s s' /\
  s_open s' k = Some (mkStream t p []).
Proof.
  unfold flush. cbn [st_pending st_target st_pos].
  replace (match a with Refuse n => firstn n [] | _ => [] end) with (@nil byte) by (destruct a; auto; now rewrite firstn_nil).
  cbn [length]. rewrite Nat.add_0_r.
  destruct (set_stream_ok k (Some (mkStream t p [])) s) as (s1 & E & R & U & O).
  exists s1. cj; auto. now rewrite (bind_ok _ _ _ _ _ E).
Qed.

Lemma stream_of_ok k st s : s_open s k = Some st -> stream_of (Some k) s = (Ok (k, st), s).
Proof. intros E. unfold stream_of. now rewrite E. Qed.

(** A stream at the end of its file: [v] is the file once all is written out. *)
Definition at_end (k : nat) (t : target) (v : list byte) (s : sys) : Prop :=
  exists c q, v = c ++ q /\ s_open s k = Some (mkStream t (length c) q) /\ s_disk s t = Some c.

(** Only [t] has changed; it has become longer, bit by bit. *)
Definition longer (t : target) (s s' : sys) : Prop := exists c x, grows t c x s s'.
Lemma longer_trans t s s1 s2 : longer t s s1 -> longer t s1 s2 -> longer t s s2.
Proof.
  intros (c & x & G) (c' & x' & G'). exists c, (x ++ x'). eapply grows_trans; eauto.
  replace (c ++ x) with c'; auto. destruct G as (_ & E & _), G' as (E' & _). congruence.
Qed.
Lemma longer_untouched t s s' : s_disk s t <> None -> untouched s s' -> longer t s s'.
Proof. intros N U. destruct (s_disk s t) as [c|] eqn:E; [|congruence]. exists c, []. now apply untouched_grows. Qed.
Lemma longer_other t u s s' : longer t s s' -> u <> t -> s_disk s' u = s_disk s u.
Proof. intros (c & x & _ & _ & G & _) N. auto. Qed.

Lemma putc_ok b k t v s : at_end k t v s ->
  exists s' v', putc b (Some k) s = (Ok tt, s') /\ at_end k t v' s' /\ part_of v' (v ++ [b]) /\
  (calm s -> v' = v ++ [b]) /\ longer t s s' /\ run [k] s s'.
Proof.
  intros (c & q & -> & O & D). unfold putc. rewrite (bind_ok _ _ _ _ _ (stream_of_ok _ _ _ O)).
  cbn [st_target st_pos st_pending].
  destruct (ask_ok s) as (a & s1 & E1 & R1 & U1 & C1). rewrite (bind_ok _ _ _ _ _ E1).
  assert (D1 : s_disk s1 t = Some c) by (destruct U1 as [U _]; rewrite U; auto).
  assert (L1 : longer t s s1) by (apply longer_untouched; congruence || auto).
  destruct (flush_ok k t c (q ++ [b]) a s1 D1) as (s2 & x & y & F & Q & Y & G & R2 & O2).
  destruct (set_stream_ok k (Some (mkStream t (length c) (q ++ [b]))) s1) as (s3 & E3 & R3 & U3 & O3).
  assert (Out : exists s' v', bindio (flush k (mkStream t (length c) (q ++ [b])) a) (fun _ => ret tt) s1 = (Ok tt, s') /\
    at_end k t v' s' /\ part_of v' ((c ++ q) ++ [b]) /\
    (calm s -> v' = (c ++ q) ++ [b]) /\ longer t s s' /\ run [k] s s').
  { exists s2, (c ++ x). rewrite <- (app_assoc c q). cj.
    - now rewrite (bind_ok _ _ _ _ _ F).
    - exists (c ++ x), []. rewrite app_nil_r. cj; auto. apply G.
    - rewrite Q. apply part_app; [apply part_refl|apply part_left].
    - intros C. rewrite Q. now rewrite Y, app_nil_r by auto.
    - eapply longer_trans; [exact L1|]. now exists c, x.
    - eapply run_trans, R2. now apply run_nil. }
  destruct a as [| |n]; [exact Out| |exact Out].
  exists s3, (c ++ q ++ [b]). rewrite <- (app_assoc c q). cj; auto.
  - exists c, (q ++ [b]). cj; auto. destruct U3 as [U _]; rewrite U; auto.
  - apply part_refl.
  - eapply longer_trans; [exact L1|]. apply longer_untouched; congruence || auto.
  - eapply run_trans, R3. now apply run_nil.
Qed.

(** A stream that is only read. *)
Definition reading (k : nat) (t : target) (p : nat) (s : sys) : Prop :=
  s_open s k = Some (mkStream t p []).

Lemma getc_ok k t p c s : reading k t p s -> s_disk s t = Some c ->
  exists s' o, getc (Some k) s = (Ok o, s') /\ untouched s s' /\ run [k] s s' /\
  match o with
  | None => reading k t p s' /\ (calm s -> length c <= p)
  | Some b => reading k t (S p) s' /\ nth_error c p = Some b
  end.
Proof.
  intros O D. unfold getc. rewrite (bind_ok _ _ _ _ _ (stream_of_ok _ _ _ O)). cbn [st_pending st_target st_pos].
  destruct (ask_ok s) as (a & s1 & E1 & R1 & U1 & C1). rewrite (bind_ok _ _ _ _ _ E1).
  assert (D1 : s_disk s1 t = Some c) by (destruct U1 as [U _]; rewrite U; auto).
  assert (O1 : reading k t p s1) by (unfold reading; rewrite (run_open _ _ _ k R1); auto).
  assert (R1' : run [k] s s1) by now apply run_nil.
  assert (Look : exists s' o,
    bindio (contents t) (fun content => match nth_error content p with
      | None => ret None
      | Some c => bindio (set_stream k (Some (mkStream t (S p) []))) (fun _ => ret (Some c)) end) s1 = (Ok o, s') /\
    untouched s s' /\ run [k] s s' /\
    match o with
    | None => reading k t p s' /\ (calm s -> length c <= p)
    | Some b => reading k t (S p) s' /\ nth_error c p = Some b
    end).
  { unfold bindio at 1, contents. rewrite D1. destruct (nth_error c p) as [b|] eqn:N.
    - destruct (set_stream_ok k (Some (mkStream t (S p) [])) s1) as (s3 & E3 & R3 & U3 & O3).
      exists s3, (Some b). rewrite (bind_ok _ _ _ _ _ E3). cj; auto.
      + eapply untouched_trans; eauto.
      + eapply run_trans; eauto.
    - exists s1, None. cj; auto. intros _. now apply nth_error_None. }
  destruct a as [| |n]; [exact Look|exact Look|].
  exists s1, None. cj; auto. intros C. destruct (C1 C n); auto.
Qed.

Lemma nth_skipn {A} (c : list A) p b : nth_error c p = Some b -> skipn p c = b :: skipn (S p) c.
Proof.
  revert p. induction c as [|a c IH]; intros [|p] H; cbn in H |- *; try congruence.
  apply IH in H. exact H.
Qed.

Lemma fread_loop_ok n k t c : forall p s, reading k t p s -> s_disk s t = Some c ->
  exists s' j p', fread_loop n (Some k) s = (Ok (firstn j (skipn p c)), s') /\ j <= n /\
  untouched s s' /\ run [k] s s' /\ reading k t p' s' /\
  (calm s -> firstn j (skipn p c) = firstn n (skipn p c)).
Proof.
  induction n as [|n IH]; intros p s O D; cbn [fread_loop].
  - exists s, 0, p. cj; auto; [apply untouched_refl|apply run_refl].
  - destruct (getc_ok k t p c s O D) as (s1 & o & E & U & R & H). rewrite (bind_ok _ _ _ _ _ E).
    destruct o as [b|].
    + destruct H as [O1 N]. destruct (IH (S p) s1 O1) as (s2 & j & p' & E2 & J & U2 & R2 & O2 & C2).
      { destruct U as [U _]; rewrite U; auto. }
      exists s2, (S j), p'. rewrite (bind_ok _ _ _ _ _ E2). rewrite (nth_skipn _ _ _ N). cbn [firstn].
      cj; auto; try lia.
      * eapply untouched_trans; eauto.
      * eapply run_trans; eauto.
      * intros C. f_equal. apply C2. eapply run_calm; eauto.
    + destruct H as [O1 L]. exists s1, 0, p. cj; auto; try lia. intros C.
      rewrite skipn_all2 by auto. now rewrite firstn_nil.
Qed.

Lemma fread_ok n k t p c s : reading k t p s -> s_disk s t = Some c ->
  exists s' j p', fread n (Some k) s = (Ok (firstn j (skipn p c)), s') /\ j <= n /\
  untouched s s' /\ run [k] s s' /\ reading k t p' s' /\
  (calm s -> firstn j (skipn p c) = firstn n (skipn p c)).
Proof.
  intros O D. unfold fread. rewrite (bind_ok _ _ _ _ _ (stream_of_ok _ _ _ O)). now apply fread_loop_ok.
Qed.

(** ** Opening *)
Definition opened (k : nat) (t : target) (s s' : sys) : Prop :=
  reading k t 0 s' /\ k = s_next s /\ s_next s' = S k /\ later s s' /\
  forall j, j <> k -> s_open s' j = s_open s j.

Lemma open_stream_ok t s : exists s', open_stream t s = (Ok (Some (s_next s)), s') /\
  opened (s_next s) t s s' /\ untouched s s'.
Proof.
  eexists. split; [reflexivity|]. split; [|split; auto]. split; [|split; [|split; [|split]]]; auto.
  - unfold reading. cbn. now rewrite Nat.eqb_refl.
  - exists []; auto.
  - intros j N. cbn. destruct (Nat.eqb_spec j (s_next s)); congruence.
Qed.

Lemma opened_after k t s s1 s2 : run [] s s1 -> opened k t s1 s2 -> opened k t s s2.
Proof.
  intros (A & B & l & C) (O & K & N & (l' & L) & J). split; [auto|split; [congruence|split; [auto|split]]].
  - exists (l ++ l'). now rewrite C, L, app_assoc.
  - intros j Nj. now rewrite J, A.
Qed.

Lemma fopen_existing_ok n s : exists s' o, fopen_existing n s = (Ok o, s') /\ untouched s s' /\
  match o with
  | None => run [] s s' /\ (calm s -> s_disk s (Named n) = None)
  | Some k => opened k (Named n) s s' /\ exists c, s_disk s (Named n) = Some c
  end.
Proof.
  unfold fopen_existing. destruct (ask_ok s) as (a & s1 & E1 & R1 & U1 & C1). rewrite (bind_ok _ _ _ _ _ E1).
  assert (Go : exists s' o, (match s_disk s1 (Named n) with None => (Ok None, s1) | Some _ => open_stream (Named n) s1 end)
     = (Ok o, s') /\ untouched s s' /\
     match o with
     | None => run [] s s' /\ (calm s -> s_disk s (Named n) = None)
     | Some k => opened k (Named n) s s' /\ exists c, s_disk s (Named n) = Some c
     end).
  { destruct U1 as [U L]. rewrite U. destruct (s_disk s (Named n)) as [c|] eqn:D.
    - destruct (open_stream_ok (Named n) s1) as (s2 & E2 & O2 & U2). exists s2, (Some (s_next s1)). cj; auto.
      + eapply untouched_trans; [split; eauto|auto].
      + eapply opened_after; eauto.
      + eauto.
    - exists s1, None. cj; auto. split; auto. }
  destruct a as [| |m]; [exact Go|exact Go|]. exists s1, None. cj; auto. intros C. destruct (C1 C m); auto.
Qed.

(** ** More calls *)
Lemma at_end_keep k t v s s' : at_end k t v s -> s_open s' k = s_open s k -> s_disk s' t = s_disk s t -> at_end k t v s'.
Proof. intros (c & q & V & O & D) E F. exists c, q. rewrite E, F. auto. Qed.
Lemma untouched_disk s s' t : untouched s s' -> s_disk s' t = s_disk s t.
Proof. intros [U _]. auto. Qed.

Ltac notin := cbn [In]; intuition congruence.

Lemma copy_rounds_ok k1 t1 c k2 t2 : k1 <> k2 -> t1 <> t2 -> forall fuel p v s,
  reading k1 t1 p s -> s_disk s t1 = Some c -> at_end k2 t2 v s -> length c - p < fuel ->
  exists s' v' p', copy_rounds fuel (Some k1) (Some k2) s = (Ok tt, s') /\ at_end k2 t2 v' s' /\
  reading k1 t1 p' s' /\ part_of v' (v ++ skipn p c) /\ (calm s -> v' = v ++ skipn p c) /\
  longer t2 s s' /\ run [k1; k2] s s'.
Proof.
  intros K T. induction fuel as [|fuel IH]; intros p v s O D A F; [lia|]. cbn [copy_rounds].
  destruct (getc_ok k1 t1 p c s O D) as (s1 & o & E1 & U1 & R1 & H). rewrite (bind_ok _ _ _ _ _ E1).
  assert (A1 : at_end k2 t2 v s1).
  { eapply at_end_keep; eauto; [apply (run_open [k1]); auto; notin|now apply untouched_disk]. }
  assert (N2 : s_disk s t2 <> None) by (destruct A as (? & ? & _ & _ & ->); congruence).
  assert (L1 : longer t2 s s1) by now apply longer_untouched.
  destruct o as [b|].
  - destruct H as [O1 N].
    destruct (putc_ok b k2 t2 v s1 A1) as (s2 & v2 & E2 & A2 & P2 & C2 & L2 & R2).
    rewrite (bind_ok _ _ _ _ _ E2).
    destruct (IH (S p) v2 s2) as (s3 & v3 & p3 & E3 & A3 & O3 & P3 & C3 & L3 & R3).
    + unfold reading. rewrite (run_open [k2] s1 s2); auto; notin.
    + rewrite (longer_other t2 t1 s1 s2), (untouched_disk s s1); auto.
    + auto.
    + apply nth_error_Some_length in N || (assert (p < length c) by (apply nth_error_Some; congruence); lia).
    + exists s3, v3, p3. rewrite (nth_skipn _ _ _ N). cj; auto.
      * eapply part_trans; [exact P3|]. change (b :: skipn (S p) c) with ([b] ++ skipn (S p) c).
        rewrite app_assoc. apply part_app; [auto|apply part_refl].
      * intros C. assert (calm s1) by (eapply run_calm; eauto). assert (calm s2) by (eapply run_calm; eauto).
        rewrite C3, C2, <- app_assoc; auto.
      * eapply longer_trans; [exact L1|eapply longer_trans; eauto].
      * eapply run_trans; [eapply run_sub, R1; intros j; notin|].
        eapply run_trans; [eapply run_sub, R2; intros j; notin|auto].
  - destruct H as [O1 L]. exists s1, v, p. cj; auto.
    + apply part_left.
    + intros C. rewrite skipn_all2, app_nil_r; auto.
    + eapply run_sub, R1. intros j; notin.
Qed.

Lemma copy_stream_ok k1 t1 c p k2 t2 v s : k1 <> k2 -> t1 <> t2 ->
  reading k1 t1 p s -> s_disk s t1 = Some c -> at_end k2 t2 v s ->
  exists s' v' p', copy_stream (Some k1) (Some k2) s = (Ok tt, s') /\ at_end k2 t2 v' s' /\
  reading k1 t1 p' s' /\ part_of v' (v ++ skipn p c) /\ (calm s -> v' = v ++ skipn p c) /\
  longer t2 s s' /\ run [k1; k2] s s'.
Proof.
  intros K T O D A. unfold copy_stream. rewrite (bind_ok _ _ _ _ _ (stream_of_ok _ _ _ O)).
  cbn [st_target]. unfold bindio at 1, contents. rewrite D. apply copy_rounds_ok; auto. lia.
Qed.

(** Copying to NULL. *)
Lemma copy_null k1 t1 c p s : reading k1 t1 p s -> s_disk s t1 = Some c ->
  exists s' o, copy_stream (Some k1) None s = (o, s') /\ untouched s s' /\ run [k1] s s' /\
  (o = Ub NullDeref \/ o = Ok tt /\ reading k1 t1 p s').
Proof.
  intros O D. unfold copy_stream. rewrite (bind_ok _ _ _ _ _ (stream_of_ok _ _ _ O)).
  cbn [st_target]. unfold bindio at 1, contents. rewrite D. cbn [copy_rounds].
  destruct (getc_ok k1 t1 p c s O D) as (s1 & o & E1 & U1 & R1 & H). rewrite (bind_ok _ _ _ _ _ E1).
  destruct o as [b|].
  - exists s1, (Ub NullDeref). cj; auto.
  - exists s1, (Ok tt). destruct H. cj; auto.
Qed.

Lemma fwrite_loop_ok k t m : forall v s, at_end k t v s ->
  match fwrite_bytes m with
  | Ok l => exists s' v', fwrite_loop m (Some k) s = (Ok tt, s') /\ at_end k t v' s' /\
      part_of v' (v ++ l) /\ (calm s -> v' = v ++ l) /\ longer t s s' /\ run [k] s s'
  | Ub u => exists s', fwrite_loop m (Some k) s = (Ub u, s') /\ longer t s s' /\ run [k] s s'
  | _ => False
  end.
Proof.
  induction m as [|[b|] m IH]; intros v s A; cbn [fwrite_bytes fwrite_loop].
  - exists s, v. rewrite app_nil_r. cj; auto; try apply part_refl; try apply run_refl.
    apply longer_untouched; [|apply untouched_refl]. destruct A as (? & ? & _ & _ & ->). congruence.
  - destruct (putc_ok b k t v s A) as (s1 & v1 & E1 & A1 & P1 & C1 & L1 & R1).
    specialize (IH v1 s1 A1). unfold bind. destruct (fwrite_bytes m) as [l|u|n|]; auto.
    + destruct IH as (s2 & v2 & E2 & A2 & P2 & C2 & L2 & R2). exists s2, v2.
      rewrite (bind_ok _ _ _ _ _ E1). cj; auto.
      * eapply part_trans; [exact P2|]. change (b :: l) with ([b] ++ l). rewrite app_assoc.
        apply part_app; [auto|apply part_refl].
      * intros C. rewrite C2, C1, <- app_assoc; auto. eapply run_calm; eauto.
      * eapply longer_trans; eauto.
      * eapply run_trans; eauto.
    + destruct IH as (s2 & E2 & L2 & R2). exists s2. rewrite (bind_ok _ _ _ _ _ E1). cj; auto.
      * eapply longer_trans; eauto.
      * eapply run_trans; eauto.
  - exists s. cj; auto; [|apply run_refl].
    apply longer_untouched; [|apply untouched_refl]. destruct A as (? & ? & _ & _ & ->). congruence.
Qed.

Lemma fwrite_ok k t m v s : at_end k t v s ->
  match fwrite_bytes m with
  | Ok l => exists s' v', fwrite m (Some k) s = (Ok tt, s') /\ at_end k t v' s' /\
      part_of v' (v ++ l) /\ (calm s -> v' = v ++ l) /\ longer t s s' /\ run [k] s s'
  | Ub u => exists s', fwrite m (Some k) s = (Ub u, s') /\ longer t s s' /\ run [k] s s'
  | _ => False
  end.
Proof.
  intros A. pose proof A as (c & q & _ & O & _). unfold fwrite.
  rewrite (bind_ok _ _ _ _ _ (stream_of_ok _ _ _ O)). now apply fwrite_loop_ok.
Qed.

(** Going back to the start of what was written. *)
Lemma fseek_back k t v s : at_end k t v s ->
  exists s' v' p, fseek 0 (Some k) s = (Ok tt, s') /\ reading k t p s' /\ s_disk s' t = Some v' /\
  part_of v' v /\ (calm s -> v' = v /\ p = 0) /\ longer t s s' /\ run [k] s s'.
Proof.
  intros (c & q & -> & O & D). unfold fseek. rewrite (bind_ok _ _ _ _ _ (stream_of_ok _ _ _ O)).
  destruct (ask_ok s) as (a & s1 & E1 & R1 & U1 & C1). rewrite (bind_ok _ _ _ _ _ E1).
  assert (D1 : s_disk s1 t = Some c) by (rewrite (untouched_disk s s1); auto).
  assert (L1 : longer t s s1) by (apply longer_untouched; congruence || auto).
  destruct (flush_ok k t c q a s1 D1) as (s2 & x & y & F & Q & Y & G & R2 & O2).
  rewrite (bind_ok _ _ _ _ _ F). cbn [st_target].
  destruct (set_stream_ok k (Some (mkStream t (Z.to_nat 0) [])) s2) as (s3 & E3 & R3 & U3 & O3).
  assert (P : part_of (c ++ x) (c ++ q)) by (rewrite Q; apply part_app; [apply part_refl|apply part_left]).
  assert (L2 : longer t s s2) by (eapply longer_trans; [exact L1|now exists c, x]).
  assert (R : run [k] s s2) by (eapply run_trans, R2; now apply run_nil).
  assert (D2 : s_disk s2 t = Some (c ++ x)) by apply G.
  assert (Ok3 : (forall n, a <> Refuse n) -> exists s' v' p, set_stream k (Some (mkStream t (Z.to_nat 0) [])) s2 = (Ok tt, s') /\
    reading k t p s' /\ s_disk s' t = Some v' /\ part_of v' (c ++ q) /\ (calm s -> v' = c ++ q /\ p = 0) /\
    longer t s s' /\ run [k] s s').
  { intros N. exists s3, (c ++ x), 0. cj; auto.
    - now rewrite (untouched_disk s2 s3).
    - intros _. rewrite Q, Y, app_nil_r; auto.
    - eapply longer_trans; [exact L2|]. apply longer_untouched; congruence || auto.
    - eapply run_trans; eauto. }
  destruct a as [| |n]; [apply Ok3; congruence|apply Ok3; congruence|].
  exists s2, (c ++ x), (length (c ++ x)). cj; auto; intros C; now destruct (C1 C n).
Qed.

(** Moving in a file that is read. *)
Lemma fseek_reading n k t p s : reading k t p s ->
  exists s' p', fseek n (Some k) s = (Ok tt, s') /\ reading k t p' s' /\ untouched s s' /\ run [k] s s' /\
  (p' = p \/ p' = Z.to_nat n) /\ (calm s -> p' = if (n <? 0)%Z then p else Z.to_nat n).
Proof.
  intros O. unfold fseek. rewrite (bind_ok _ _ _ _ _ (stream_of_ok _ _ _ O)).
  destruct (ask_ok s) as (a & s1 & E1 & R1 & U1 & C1). rewrite (bind_ok _ _ _ _ _ E1).
  destruct (flush_none k t p a s1) as (s2 & F & U2 & R2 & O2). rewrite (bind_ok _ _ _ _ _ F). cbn [st_target].
  destruct (set_stream_ok k (Some (mkStream t (Z.to_nat n) [])) s2) as (s3 & E3 & R3 & U3 & O3).
  assert (U : untouched s s2) by (eapply untouched_trans; eauto).
  assert (R : run [k] s s2) by (eapply run_trans, R2; now apply run_nil).
  destruct a as [| |m].
  - destruct (n <? 0)%Z; [exists s2, p; cj; auto|exists s3, (Z.to_nat n); cj; auto].
    + eapply untouched_trans; eauto.
    + eapply run_trans; eauto.
  - destruct (n <? 0)%Z; [exists s2, p; cj; auto|exists s3, (Z.to_nat n); cj; auto].
    + eapply untouched_trans; eauto.
    + eapply run_trans; eauto.
  - exists s2, p. cj; auto. intros C; now destruct (C1 C m).
Qed.

Lemma fseek_end_ok k t p c s : reading k t p s -> s_disk s t = Some c ->
  exists s' p', fseek_end (Some k) s = (Ok tt, s') /\ reading k t p' s' /\ untouched s s' /\ run [k] s s' /\
  (p' = p \/ p' = length c) /\ (calm s -> p' = length c).
Proof.
  intros O D. unfold fseek_end. rewrite (bind_ok _ _ _ _ _ (stream_of_ok _ _ _ O)).
  destruct (ask_ok s) as (a & s1 & E1 & R1 & U1 & C1). rewrite (bind_ok _ _ _ _ _ E1).
  destruct (flush_none k t p a s1) as (s2 & F & U2 & R2 & O2). rewrite (bind_ok _ _ _ _ _ F). cbn [st_target].
  destruct (set_stream_ok k (Some (mkStream t (length c) [])) s2) as (s3 & E3 & R3 & U3 & O3).
  assert (U : untouched s s2) by (eapply untouched_trans; eauto).
  assert (R : run [k] s s2) by (eapply run_trans, R2; now apply run_nil).
  assert (D2 : s_disk s2 t = Some c) by (rewrite (untouched_disk s s2); auto).
  destruct a as [| |m].
  - unfold bindio, contents. rewrite D2. exists s3, (length c). cj; auto;
    [eapply untouched_trans; eauto|eapply run_trans; eauto].
  - unfold bindio, contents. rewrite D2. exists s3, (length c). cj; auto;
    [eapply untouched_trans; eauto|eapply run_trans; eauto].
  - exists s2, p. cj; auto. intros C; now destruct (C1 C m).
Qed.

Lemma ftell_ok k t p s : reading k t p s ->
  exists s' z, ftell (Some k) s = (Ok z, s') /\ untouched s s' /\ run [] s s' /\
  (z = (-1)%Z \/ z = Z.of_nat p) /\ (calm s -> z = Z.of_nat p).
Proof.
  intros O. unfold ftell. rewrite (bind_ok _ _ _ _ _ (stream_of_ok _ _ _ O)).
  destruct (ask_ok s) as (a & s1 & E1 & R1 & U1 & C1). rewrite (bind_ok _ _ _ _ _ E1).
  cbn [st_pos st_pending length]. rewrite Nat.add_0_r.
  destruct a as [| |m]; eexists _, _; (split; [reflexivity|]); cj; auto.
  intros C; now destruct (C1 C m).
Qed.

(** ** Closing *)
Lemma fclose_read k n p s : reading k (Named n) p s ->
  exists s', fclose (Some k) s = (Ok tt, s') /\ untouched s s' /\ run [k] s s' /\ s_open s' k = None.
Proof.
  intros O. unfold fclose. rewrite (bind_ok _ _ _ _ _ (stream_of_ok _ _ _ O)).
  destruct (ask_ok s) as (a & s1 & E1 & R1 & U1 & C1). rewrite (bind_ok _ _ _ _ _ E1).
  destruct (flush_none k (Named n) p a s1) as (s2 & F & U2 & R2 & O2). rewrite (bind_ok _ _ _ _ _ F). cbn [st_target].
  destruct (set_stream_ok k None s2) as (s3 & E3 & R3 & U3 & O3). rewrite (bind_ok _ _ _ _ _ E3).
  exists s3. cj; auto.
  - eapply untouched_trans, U3. eapply untouched_trans; eauto.
  - eapply run_trans, R3. eapply run_trans, R2. now apply run_nil.
Qed.

Lemma fclose_temp k i p s : reading k (Temp i) p s ->
  exists s', fclose (Some k) s = (Ok tt, s') /\ run [k] s s' /\ s_open s' k = None /\
  s_disk s' (Temp i) = None /\ (forall u, u <> Temp i -> s_disk s' u = s_disk s u) /\
  s_log s' = s_disk s' :: s_log s.
Proof.
  intros O. unfold fclose. rewrite (bind_ok _ _ _ _ _ (stream_of_ok _ _ _ O)).
  destruct (ask_ok s) as (a & s1 & E1 & R1 & U1 & C1). rewrite (bind_ok _ _ _ _ _ E1).
  destruct (flush_none k (Temp i) p a s1) as (s2 & F & U2 & R2 & O2). rewrite (bind_ok _ _ _ _ _ F). cbn [st_target].
  destruct (set_stream_ok k None s2) as (s3 & E3 & R3 & U3 & O3). rewrite (bind_ok _ _ _ _ _ E3).
  destruct (set_disk_ok (Temp i) None s3) as (s4 & E4 & R4 & V4 & D4 & L4).
  assert (U : untouched s s3) by (eapply untouched_trans, U3; eapply untouched_trans; eauto).
  exists s4. cj; auto.
  - eapply run_trans; [eapply run_nil, R1|]. eapply run_trans; [exact R2|]. eapply run_trans; [exact R3|]. now apply run_nil.
  - rewrite (run_open [] s3 s4); auto.
  - intros u N. rewrite V4; auto. now apply untouched_disk.
  - rewrite L4. f_equal. apply U.
Qed.

Lemma fclose_written k n v s : at_end k (Named n) v s ->
  exists s' v', fclose (Some k) s = (Ok tt, s') /\ s_disk s' (Named n) = Some v' /\ part_of v' v /\
  (calm s -> v' = v) /\ longer (Named n) s s' /\ run [k] s s' /\ s_open s' k = None.
Proof.
  intros (c & q & -> & O & D). unfold fclose. rewrite (bind_ok _ _ _ _ _ (stream_of_ok _ _ _ O)).
  destruct (ask_ok s) as (a & s1 & E1 & R1 & U1 & C1). rewrite (bind_ok _ _ _ _ _ E1).
  assert (D1 : s_disk s1 (Named n) = Some c) by (rewrite (untouched_disk s s1); auto).
  assert (L1 : longer (Named n) s s1) by (apply longer_untouched; congruence || auto).
  destruct (flush_ok k (Named n) c q a s1 D1) as (s2 & x & y & F & Q & Y & G & R2 & O2).
  rewrite (bind_ok _ _ _ _ _ F). cbn [st_target].
  destruct (set_stream_ok k None s2) as (s3 & E3 & R3 & U3 & O3). rewrite (bind_ok _ _ _ _ _ E3).
  assert (D2 : s_disk s2 (Named n) = Some (c ++ x)) by apply G.
  exists s3, (c ++ x). cj; auto.
  - now rewrite (untouched_disk s2 s3).
  - rewrite Q. apply part_app; [apply part_refl|apply part_left].
  - intros C. rewrite Q, Y, app_nil_r; auto.
  - eapply longer_trans; [exact L1|]. eapply longer_trans; [exists c, x; exact G|].
    apply longer_untouched; congruence || auto.
  - eapply run_trans, R3. eapply run_trans, R2. now apply run_nil.
Qed.

(** ** New files *)
Lemma opened_end k t s' : reading k t 0 s' -> s_disk s' t = Some [] -> at_end k t [] s'.
Proof. intros R D. exists [], []. auto. Qed.

Lemma fopen_new_ok n s : exists s' o, fopen_new n s = (Ok o, s') /\
  match o with
  | None => untouched s s' /\ run [] s s' /\ ~ calm s
  | Some k => opened k (Named n) s s' /\ at_end k (Named n) [] s' /\ s_disk s' (Named n) = Some [] /\
      (forall u, u <> Named n -> s_disk s' u = s_disk s u) /\ s_log s' = s_disk s' :: s_log s
  end.
Proof.
  unfold fopen_new. destruct (ask_ok s) as (a & s1 & E1 & R1 & U1 & C1). rewrite (bind_ok _ _ _ _ _ E1).
  destruct (set_disk_ok (Named n) (Some []) s1) as (s2 & E2 & R2 & V2 & D2 & L2).
  destruct (open_stream_ok (Named n) s2) as (s3 & E3 & O3 & U3).
  assert (Go : exists s' o, bindio (set_disk (Named n) (Some [])) (fun _ => open_stream (Named n)) s1 = (Ok o, s') /\
    match o with
    | None => untouched s s' /\ run [] s s' /\ ~ calm s
    | Some k => opened k (Named n) s s' /\ at_end k (Named n) [] s' /\ s_disk s' (Named n) = Some [] /\
        (forall u, u <> Named n -> s_disk s' u = s_disk s u) /\ s_log s' = s_disk s' :: s_log s
    end).
  { exists s3, (Some (s_next s2)). rewrite (bind_ok _ _ _ _ _ E2).
    assert (D3 : s_disk s3 (Named n) = Some []) by (rewrite (untouched_disk s2 s3); auto).
    cj; auto.
    - eapply opened_after; [|exact O3]. eapply run_trans; eauto.
    - eapply opened_end; eauto. apply O3.
    - intros u N. rewrite (untouched_disk s2 s3), V2, (untouched_disk s s1); auto.
    - inversion E3; subst s3. cbn. rewrite L2. f_equal. apply U1. }
  destruct a as [| |m]; [exact Go|exact Go|]. exists s1, None. cj; auto. intros C; now destruct (C1 C m).
Qed.

Lemma tmpfile_ok s : exists s' o, tmpfile s = (Ok o, s') /\
  match o with
  | None => untouched s s' /\ run [] s s' /\ ~ calm s
  | Some k => opened k (Temp k) s s' /\ at_end k (Temp k) [] s' /\
      (forall u, u <> Temp k -> s_disk s' u = s_disk s u) /\ s_log s' = s_disk s' :: s_log s
  end.
Proof.
  unfold tmpfile. destruct (ask_ok s) as (a & s1 & E1 & R1 & U1 & C1). rewrite (bind_ok _ _ _ _ _ E1).
  destruct (set_disk_ok (Temp (s_next s1)) (Some []) s1) as (s2 & E2 & R2 & V2 & D2 & L2).
  destruct (open_stream_ok (Temp (s_next s1)) s2) as (s3 & E3 & O3 & U3).
  assert (Go : exists s' o, bindio (set_disk (Temp (s_next s1)) (Some [])) (fun _ => open_stream (Temp (s_next s1))) s1 = (Ok o, s') /\
    match o with
    | None => untouched s s' /\ run [] s s' /\ ~ calm s
    | Some k => opened k (Temp k) s s' /\ at_end k (Temp k) [] s' /\
        (forall u, u <> Temp k -> s_disk s' u = s_disk s u) /\ s_log s' = s_disk s' :: s_log s
    end).
  { exists s3, (Some (s_next s2)). rewrite (bind_ok _ _ _ _ _ E2).
    assert (N : s_next s1 = s_next s2) by (symmetry; apply R2). rewrite <- N in *.
    assert (D3 : s_disk s3 (Temp (s_next s1)) = Some []) by (rewrite (untouched_disk s2 s3); auto).
    cj; auto.
    - eapply opened_after; [|exact O3]. eapply run_trans; eauto.
    - eapply opened_end; eauto. apply O3.
    - intros u Nu. rewrite (untouched_disk s2 s3), V2, (untouched_disk s s1); auto.
    - inversion E3; subst s3. cbn. rewrite L2. f_equal. apply U1. }
  destruct a as [| |m]; [exact Go|exact Go|]. exists s1, None. cj; auto. intros C; now destruct (C1 C m).
Qed.
