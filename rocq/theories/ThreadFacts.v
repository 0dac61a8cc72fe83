(** Facts about Threads.v. *)
From Coq Require Import Lia.
From Verif Require Import SpecThreads SysFacts.
Local Open Scope nat_scope.

(** ** The programs are the functions of Stdio.v *)
Lemma perform_bind A B (p : prog A) (f : A -> prog B) : forall s,
  perform (bindp p f) s = bindio (perform p) (fun a => perform (f a)) s.
Proof.
  induction p as [[a|u|n|]|C c k IH]; intros s; cbn [bindp perform]; try reflexivity.
  rewrite bind_assoc. apply bind_ext. intros b s1. apply IH.
Qed.
Lemma perform_one (B : Set) (c : op B) s : perform (one c) s = do_op c s.
Proof. cbn [one perform]. unfold bindio, lift. destruct (do_op c s) as [[]]; reflexivity. Qed.
Lemma bind_eq A B (m m' : io A) (f f' : A -> io B) s :
  m s = m' s -> (forall a s, f a s = f' a s) -> bindio m f s = bindio m' f' s.
Proof. intros E F. unfold bindio. rewrite E. destruct (m' s) as [[]]; auto. Qed.

Ltac both :=
  cbv zeta;
  repeat match goal with
  | |- perform (bindp _ _) _ = bindio _ _ _ =>
      rewrite perform_bind; apply bind_eq; [try apply perform_one; try reflexivity|intros; cbv zeta]
  | |- perform (match ?x with _ => _ end) _ = _ => destruct x
  end; try reflexivity; try apply perform_one.

Lemma same_fread_loop n p : forall s, perform (fread_loop_p n p) s = fread_loop n p s.
Proof. induction n; intros s; cbn [fread_loop_p fread_loop]; both. apply IHn. Qed.
Lemma same_fread n p s : perform (fread_p n p) s = fread n p s.
Proof.
  unfold fread_p, fread. rewrite perform_bind. unfold bindio. rewrite perform_one. cbn [do_op].
  unfold bindio. destruct (stream_of p s) as [[x|u|x|] s1]; try reflexivity. apply same_fread_loop.
Qed.
Lemma same_fwrite_loop m p : forall s, perform (fwrite_loop_p m p) s = fwrite_loop m p s.
Proof. induction m as [|[c|] m IH]; intros s; cbn [fwrite_loop_p fwrite_loop]; both. apply IH. Qed.
Lemma same_fwrite n p s : perform (fwrite_p n p) s = fwrite n p s.
Proof.
  unfold fwrite_p, fwrite. rewrite perform_bind. unfold bindio. rewrite perform_one. cbn [do_op].
  unfold bindio. destruct (stream_of p s) as [[x|u|x|] s1]; try reflexivity. apply same_fwrite_loop.
Qed.
Lemma same_copy_rounds n p q : forall s, perform (copy_rounds_p n p q) s = copy_rounds n p q s.
Proof. induction n; intros s; cbn [copy_rounds_p copy_rounds]; both. apply IHn. Qed.
Lemma same_copy p q s : perform (copy_stream_p p q) s = copy_stream p q s.
Proof.
  unfold copy_stream_p, copy_stream. rewrite perform_bind. unfold bindio at 1. rewrite perform_one. cbn [do_op].
  unfold bindio. destruct (stream_of p s) as [[[k st]|u|x|] s1]; try reflexivity.
  cbn [contents ret]. apply same_copy_rounds.
Qed.

Ltac same :=
  both; repeat match goal with
  | |- perform (fread_p _ _) _ = _ => apply same_fread
  | |- perform (fwrite_p _ _) _ = _ => apply same_fwrite
  | |- perform (copy_stream_p _ _) _ = _ => apply same_copy
  end.

Lemma same_header n s : perform (ID3v2_read_tag_header_p n) s = ID3v2_read_tag_header_s n s.
Proof. unfold ID3v2_read_tag_header_p, ID3v2_read_tag_header_s. same. Qed.
Lemma same_read n s : perform (ID3v2_read_tag_p n) s = ID3v2_read_tag_s n s.
Proof. unfold ID3v2_read_tag_p, ID3v2_read_tag_s. same. apply same_header. Qed.
Lemma same_write n t s : perform (ID3v2_write_tag_p n t) s = ID3v2_write_tag_s n t s.
Proof. unfold ID3v2_write_tag_p, ID3v2_write_tag_s. same. apply same_header. Qed.
Lemma same_delete n s : perform (ID3v2_delete_tag_p n) s = ID3v2_delete_tag_s n s.
Proof. unfold ID3v2_delete_tag_p, ID3v2_delete_tag_s. same. apply same_header. Qed.
Lemma same_load n s : perform (load_tag_p n) s = load_tag_s n s.
Proof. unfold load_tag_p, load_tag_s. same. apply same_header. Qed.
Lemma same_set n t s : perform (set_tag_p n t) s = set_tag_s n t s.
Proof. unfold set_tag_p, set_tag_s. same. apply same_write. Qed.
Lemma same_remove n s : perform (remove_tag_p n) s = remove_tag_s n s.
Proof. apply same_delete. Qed.
Lemma same_cover f n t s : perform (tag_set_album_cover_p f n t) s = tag_set_album_cover_s f n t s.
Proof. unfold tag_set_album_cover_p, tag_set_album_cover_s. same. Qed.

Lemma same_result c s : perform (result_p c) s = result_s c s.
Proof.
  destruct c; cbn [result_p result_s]; both;
    auto using same_header, same_read, same_write, same_delete, same_load, same_set, same_remove, same_cover.
Qed.
Lemma same_results l : forall s, perform (results_p l) s = results_s l s.
Proof. induction l; intros s; cbn [results_p results_s]; both; [apply same_result|apply IHl]. Qed.

(** ** Programs that are left alone *)
Lemma advance_stop A k (o : outcome A) s : alone k (Stop o, s) = (Stop o, s).
Proof. induction k; cbn [alone]; [reflexivity|]. now rewrite IHk. Qed.
Lemma alone_first A k (x : prog A * sys) : alone (S k) x = alone k (advance x).
Proof. induction k; [reflexivity|]. cbn [alone] in *. now rewrite IHk. Qed.
Lemma alone_plus A j k (x : prog A * sys) : alone (j + k) x = alone j (alone k x).
Proof. induction j; cbn [alone Nat.add]; [reflexivity|]. now rewrite IHj. Qed.

Lemma alone_ends A (p : prog A) : forall s,
  exists k, alone k (p, s) = (Stop (fst (perform p s)), snd (perform p s)).
Proof.
  induction p as [o|B c k IH]; intros s.
  - exists 0. reflexivity.
  - cbn [perform]. unfold bindio. destruct (do_op c s) as [[b|u|n|] s1] eqn:E.
    + destruct (IH b s1) as [j J]. exists (S j). rewrite alone_first. cbn [advance]. rewrite E. exact J.
    + exists 1. cbn [alone advance]. rewrite E. reflexivity.
    + exists 1. cbn [alone advance]. rewrite E. reflexivity.
    + exists 1. cbn [alone advance]. rewrite E. reflexivity.
Qed.
Lemma alone_after A (p : prog A) s : exists k, forall j, k <= j ->
  alone j (p, s) = (Stop (fst (perform p s)), snd (perform p s)).
Proof.
  destruct (alone_ends A p s) as [k E]. exists k. intros j L.
  replace j with ((j - k) + k) by lia. rewrite alone_plus, E. apply advance_stop.
Qed.
Lemma alone_stop A (p : prog A) s j o s' : alone j (p, s) = (Stop o, s') -> perform p s = (o, s').
Proof.
  intros E. destruct (alone_after A p s) as [k H].
  assert (X : alone (k + j) (p, s) = (Stop o, s')) by (rewrite alone_plus, E; apply advance_stop).
  rewrite H in X by lia. destruct (perform p s). cbn [fst snd] in X. congruence.
Qed.

(** ** The disk of every moment is in the log *)
Definition traced (s s' : sys) : Prop :=
  exists l, s_log s' = l ++ s_log s /\
  exists d, In d (s_disk s :: l) /\ forall t, s_disk s' t = d t.
Lemma traced_refl s : traced s s.
Proof. exists []. split; [reflexivity|]. exists (s_disk s). split; [now left|auto]. Qed.
Lemma traced_trans s s1 s2 : traced s s1 -> traced s1 s2 -> traced s s2.
Proof.
  intros (l & L & d & I & D) (l' & L' & d' & I' & D'). exists (l' ++ l).
  split; [rewrite L', L, app_assoc; reflexivity|].
  destruct I' as [<-|I'].
  - exists d. split; [|intros t; now rewrite D', D].
    destruct I as [<-|I]; [now left|right; apply in_or_app; auto].
  - exists d'. split; [right; apply in_or_app; auto|auto].
Qed.
Definition traces {A} (m : io A) : Prop := forall s, traced s (snd (m s)).
Lemma traces_bind A B (m : io A) (f : A -> io B) : traces m -> (forall a, traces (f a)) -> traces (bindio m f).
Proof.
  intros M F s. specialize (M s). unfold bindio. destruct (m s) as [[a|u|n|] s1]; try exact M.
  eapply traced_trans; [exact M|]. apply F.
Qed.
Lemma traces_pure A (m : io A) : (forall s, s_disk (snd (m s)) = s_disk s /\ s_log (snd (m s)) = s_log s) -> traces m.
Proof.
  intros H s. destruct (H s) as [D L]. exists []. split; [exact L|]. exists (s_disk s).
  split; [now left|]. intros t. now rewrite D.
Qed.
Lemma traces_disk t f : traces (set_disk t f).
Proof.
  intros s. unfold set_disk. cbn [snd s_disk s_log].
  eexists [_]. split; [reflexivity|]. eexists. split; [right; left; reflexivity|reflexivity].
Qed.
Lemma traces_ret A (a : A) : traces (ret a). Proof. apply traces_pure. auto. Qed.
Lemma traces_lift A (a : outcome A) : traces (lift a). Proof. apply traces_pure. auto. Qed.
Lemma traces_ask : traces ask.
Proof. apply traces_pure. intros s. unfold ask. destruct (s_answers s); auto. Qed.
Lemma traces_stream k st : traces (set_stream k st). Proof. apply traces_pure. auto. Qed.
Lemma traces_stream_of p : traces (stream_of p).
Proof.
  apply traces_pure. intros s. unfold stream_of. destruct p as [k|]; auto. destruct (s_open s k); auto.
Qed.
Lemma traces_contents t : traces (contents t). Proof. apply traces_pure. auto. Qed.
Lemma traces_open t : traces (open_stream t). Proof. apply traces_pure. auto. Qed.
Lemma traces_state A (f : sys -> io A) : (forall s, traces (f s)) -> traces (fun s => f s s).
Proof. intros H s. apply H. Qed.

Create HintDb traces.
#[local] Hint Resolve traces_bind traces_disk traces_ret traces_lift traces_ask traces_stream traces_stream_of
  traces_contents traces_open : traces.
Ltac trace :=
  repeat match goal with
  | |- traces (bindio _ _) => apply traces_bind; [|intros]
  | |- traces (match ?x with _ => _ end) => destruct x
  | |- _ => solve [auto with traces]
  end.
Lemma traces_flush k st a : traces (flush k st a).
Proof. unfold flush. cbv zeta. trace. Qed.
#[local] Hint Resolve traces_flush : traces.
Lemma traces_op (B : Set) (c : op B) : traces (do_op c).
Proof.
  destruct c; cbn [do_op];
    unfold fopen_existing, fopen_new, tmpfile, putc, getc, fseek, fseek_end, ftell, fclose, malloc_succeeds; trace.
  all: intros s.
  all: try (destruct (s_disk s (Named n)); [apply traces_open|apply traced_refl]).
  all: match goal with |- traced ?s (snd (bindio ?m ?f ?s)) => change (traced s (snd ((bindio m f) s))); enough (T : traces (bindio m f)) by apply T end.
  all: trace.
Qed.

(** ** A call depends on the files of its thread only *)
Definition local {A} (R : list byte -> Prop) (Q : A -> Prop) (m : io A) : Prop :=
  forall s1 s2, agree R s1 s2 -> owns R s1 ->
  fst (m s1) = fst (m s2) /\ agree R (snd (m s1)) (snd (m s2)) /\ owns R (snd (m s1)) /\
  (forall n, R n \/ s_disk (snd (m s1)) (Named n) = s_disk s1 (Named n)) /\
  (forall a, fst (m s1) = Ok a -> Q a).
Definition yes {A} (_ : A) : Prop := True.

Lemma local_bind A B R (Q : A -> Prop) (Q' : B -> Prop) m f :
  local R Q m -> (forall a, Q a -> local R Q' (f a)) -> local R Q' (bindio m f).
Proof.
  intros M F s1 s2 G O. destruct (M s1 s2 G O) as (E & G' & O' & U & P). unfold bindio.
  destruct (m s1) as [o1 t1], (m s2) as [o2 t2]. cbn [fst snd] in *. subst o2.
  destruct o1 as [a|u|n|]; cbn [fst snd]; try (do 4 (split; [solve [auto]|]); now intros).
  destruct (F a (P a eq_refl) t1 t2 G' O') as (E2 & G2 & O2 & U2 & P2).
  split; [exact E2|]. split; [exact G2|]. split; [exact O2|]. split; [|exact P2].
  intros n. destruct (U n) as [r|r]; [now left|]. destruct (U2 n) as [r2|r2]; [now left|right; congruence].
Qed.
Lemma local_ret A R (Q : A -> Prop) a : Q a -> local R Q (ret a).
Proof. intros H s1 s2 G O. cbn. do 4 (split; [solve [auto]|]). now intros a0 [= <-]. Qed.
Lemma local_lift A R (Q : A -> Prop) o : (forall a, o = Ok a -> Q a) -> local R Q (lift o).
Proof. intros H s1 s2 G O. cbn. do 4 (split; [solve [auto]|]). auto. Qed.
Lemma local_ask R : local R yes ask.
Proof.
  intros s1 s2 (D & S & N & W) O. unfold ask. rewrite <- W.
  destruct (s_answers s1) as [|a l] eqn:E; cbn [fst snd s_disk].
  - repeat (split; [reflexivity|]). split; [repeat split; auto|]; [congruence|]. split; [exact O|]. split; [auto|now intros].
  - repeat (split; [reflexivity|]). split; [repeat split; auto|]. split; [exact O|]. split; [auto|now intros].
Qed.
Lemma local_disk R t f : among R t -> local R yes (set_disk t f).
Proof.
  intros T s1 s2 (D & S & N & W) O. unfold set_disk. cbn [fst snd s_disk].
  split; [reflexivity|]. split; [repeat split; auto|]. 
  - cbn [s_disk]. intros u U. destruct (target_dec u t); auto.
  - split; [exact O|]. split; [|now intros]. intros n. destruct (target_dec (Named n) t) as [<-|]; [now left|now right].
Qed.
Lemma local_stream R k st : (forall x, st = Some x -> among R (st_target x)) -> local R yes (set_stream k st).
Proof.
  intros T s1 s2 (D & S & N & W) O. unfold set_stream. cbn [fst snd s_disk].
  split; [reflexivity|]. split; [repeat split; auto|].
  - cbn [s_open]. intros j. now rewrite S.
  - split; [|split; [auto|now intros]]. intros j x. cbn [s_open]. destruct (Nat.eqb j k); [apply T|apply O].
Qed.
Lemma local_stream_of R p : local R (fun x => among R (st_target (snd x))) (stream_of p).
Proof.
  intros s1 s2 G O. destruct G as (D & S & N & W). unfold stream_of. destruct p as [k|].
  - rewrite <- S. destruct (s_open s1 k) as [st|] eqn:E; cbn [fst snd].
    + split; [reflexivity|]. split; [repeat split; auto|]. split; [exact O|]. split; [auto|].
      intros a [= <-]. exact (O _ _ E).
    + split; [reflexivity|]. split; [repeat split; auto|]. split; [exact O|]. split; [auto|now intros].
  - cbn [fst snd]. split; [reflexivity|]. split; [repeat split; auto|]. split; [exact O|]. split; [auto|now intros].
Qed.
Lemma local_contents R t : among R t -> local R yes (contents t).
Proof.
  intros T s1 s2 G O. unfold contents. cbn [fst snd]. destruct G as (D & S & N & W). rewrite (D t T).
  split; [reflexivity|]. split; [repeat split; auto|]. split; [exact O|]. split; [auto|now intros].
Qed.
Lemma local_open R t : among R t -> local R yes (open_stream t).
Proof.
  intros T s1 s2 (D & S & N & W) O. unfold open_stream. cbn [fst snd s_disk]. rewrite <- N.
  split; [reflexivity|]. split; [repeat split; auto|].
  - cbn [s_open]. intros j. now rewrite S.
  - split; [|split; [auto|now intros]]. intros j x. cbn [s_open].
    destruct (Nat.eqb j (s_next s1)); [intros [= <-]; exact T|apply O].
Qed.
Lemma local_weaken A R (Q Q' : A -> Prop) m : (forall a, Q a -> Q' a) -> local R Q m -> local R Q' m.
Proof. intros H L s1 s2 G O. destruct (L s1 s2 G O) as (E & G' & O' & U & P). repeat (split; [assumption|]). auto. Qed.
Lemma local_flush R k st a : among R (st_target st) -> local R (fun x => st_target x = st_target st) (flush k st a).
Proof.
  intros T. unfold flush. cbv zeta.
  destruct (match a with Refuse n => firstn n (st_pending st) | _ => st_pending st end).
  - eapply local_bind; [apply local_stream; now intros x [= <-]|]. intros _ _. now apply local_ret.
  - eapply local_bind; [now apply local_contents|]. intros c _.
    eapply local_bind; [now apply local_disk|]. intros _ _.
    eapply local_bind; [apply local_stream; now intros x [= <-]|]. intros _ _. now apply local_ret.
Qed.

Ltac loc :=
  repeat match goal with
  | |- local _ _ (bindio (stream_of _) _) => eapply local_bind; [apply local_stream_of|intros [? ?] ?; cbn [snd] in *]
  | |- local _ _ (bindio ask _) => eapply local_bind; [apply local_ask|intros ? _]
  | |- local _ _ (bindio (flush _ _ _) _) => eapply local_bind; [apply local_flush; assumption|
        let x := fresh "x" in let T := fresh "T" in intros x T; cbn [st_target] in T;
        match goal with H : among ?R (st_target _) |- _ => rewrite <- T in H end]
  | |- local _ _ (bindio (contents _) _) => eapply local_bind; [apply local_contents; assumption|intros ? _]
  | |- local _ _ (bindio (set_disk _ _) _) => eapply local_bind; [apply local_disk; assumption|intros ? _]
  | |- local _ _ (bindio (set_stream _ _) _) =>
      eapply local_bind; [apply local_stream; first [intros ? [= <-]; assumption|discriminate]|intros ? _]
  | |- local _ _ (ret _) => now apply local_ret
  | |- local _ _ (lift _) => now apply local_lift
  | |- local _ _ (open_stream _) => now apply local_open
  | |- local _ _ (set_disk _ _) => apply local_disk; assumption
  | |- local _ _ (set_stream _ _) => apply local_stream; intros ? [= <-]; assumption
  | |- local _ _ (match ?x with _ => _ end) => destruct x eqn:?
  end.
Lemma local_state A B R (Q : B -> Prop) (g : sys -> A) (f : A -> io B) :
  (forall s1 s2, agree R s1 s2 -> g s1 = g s2) -> (forall a, local R Q (f a)) -> local R Q (fun s => f (g s) s).
Proof. intros E L s1 s2 G O. rewrite <- (E s1 s2 G). now apply L. Qed.
Lemma local_op R (B : Set) (c : op B) : op_opens R c -> local R yes (do_op c).
Proof.
  destruct c; cbn [do_op op_opens]; intros P;
    unfold fopen_existing, fopen_new, tmpfile, putc, getc, fseek, fseek_end, ftell, fclose, malloc_succeeds; loc.
  1-2: apply (local_state _ _ R yes (fun s => s_disk s (Named n))
      (fun f s => match f with Some _ => open_stream (Named n) s | None => (Ok None, s) end));
    [intros s1 s2 (D & _); apply D; exact P|];
    intros [f|]; [apply local_open; exact P|apply (local_ret _ R yes); exact I].
  1-2: apply (local_state _ _ R yes s_next (fun k => let! _ := set_disk (Temp k) (Some []) in open_stream (Temp k)));
    [intros s1 s2 (_ & _ & N & _); exact N|]; intros k;
    eapply local_bind; [apply local_disk; exact I|]; intros ? _; apply local_open; exact I.
Qed.

Lemma agree_refl R s : agree R s s.
Proof. repeat split; auto. Qed.
Lemma agree_trans R s1 s2 s3 : agree R s1 s2 -> agree R s2 s3 -> agree R s1 s3.
Proof.
  intros (A & B & C & D) (A' & B' & C' & D'). split; [|split; [|split]]; try congruence; intros; rewrite ?A, ?B; auto.
Qed.

(** One call, of a thread and of the same thread left alone. *)
Lemma advance_local A R (p : prog A) s1 s2 : opens R p -> agree R s1 s2 -> owns R s1 ->
  fst (advance (p, s1)) = fst (advance (p, s2)) /\
  agree R (snd (advance (p, s1))) (snd (advance (p, s2))) /\ owns R (snd (advance (p, s1))) /\
  (forall n, R n \/ s_disk (snd (advance (p, s1))) (Named n) = s_disk s1 (Named n)) /\
  opens R (fst (advance (p, s1))).
Proof.
  intros P G O. destruct P as [o|B c k C K]; cbn [advance].
  - cbn [fst snd]. do 4 (split; [auto|]). constructor.
  - destruct (local_op R B c C s1 s2 G O) as (E & G' & O' & U & _).
    destruct (do_op c s1) as [o1 t1], (do_op c s2) as [o2 t2]. cbn [fst snd] in *. subst o2.
    destruct o1; cbn [fst snd]; do 4 (split; [auto|]); auto; constructor.
Qed.

(** ** Threads that take turns *)
Lemma agree_view R s : agree R (view (named s) s) s.
Proof. split; [|auto]. intros [n|k] T; reflexivity. Qed.

Section Threads.
  Context {A : Type} (g : shared) (ts : nat -> prog A * sys) (R W : nat -> list byte -> Prop).
  Let start i := (fst (ts i), view g (snd (ts i))).
  Hypothesis apart : forall i j n, i <> j -> W i n -> ~ R j n.
  Hypothesis only : forall i, opens (R i) (fst (ts i)) /\ owns (R i) (snd (ts i)) /\
                              changes_only (W i) (fst (ts i)) (view g (snd (ts i))).

  Definition good (schedule : list nat) (w : world A) : Prop :=
    (forall i, let x := alone (turns_of i schedule) (start i) in
       fst (snd w i) = fst x /\ opens (R i) (fst x) /\
       agree (R i) (view (fst w) (snd (snd w i))) (snd x) /\ owns (R i) (snd (snd w i))) /\
    (forall n, (forall i, ~ W i n) -> fst w n = g n).

  Lemma good_turn schedule w i : good schedule w -> good (schedule ++ [i]) (turn w i).
  Proof.
    intros [T U]. destruct w as [g' ts']. cbn [fst snd] in *.
    pose proof (T i) as (E & P & G & O). cbv zeta in *. unfold turn.
    destruct (ts' i) as [p s] eqn:Ei. cbn [fst snd] in *.
    set (x := alone (turns_of i schedule) (start i)) in *.
    destruct x as [p0 s0] eqn:Ex. cbn [fst snd] in *. subst p.
    destruct (advance_local A (R i) p0 (view g' s) s0 P G O) as (E1 & G1 & O1 & U1 & P1).
    set (y := advance (p0, view g' s)) in *.
    assert (N : turns_of i (schedule ++ [i]) = S (turns_of i schedule)).
    { unfold turns_of. rewrite count_occ_app. cbn [count_occ]. destruct (Nat.eq_dec i i); lia. }
    assert (X : alone (turns_of i (schedule ++ [i])) (start i) = advance (p0, s0)).
    { rewrite N. cbn [alone]. fold x. now rewrite Ex. }
    destruct (only i) as (_ & _ & K).
    assert (Q : forall n, ~ W i n -> named (snd y) n = g' n).
    { intros n H. destruct (U1 n) as [r|r]; [|exact r].
      pose proof (K (turns_of i (schedule ++ [i])) n H) as K1.
      pose proof (K (turns_of i schedule) n H) as K0.
      fold (start i) in K0, K1. rewrite X in K1. fold x in K0. rewrite Ex in K0. cbn [snd] in K0.
      destruct G1 as (D1 & _), G as (D & _).
      unfold named in *. rewrite (D1 (Named n) r), K1, <- K0. symmetry. exact (D (Named n) r). }
    split; cbn [fst snd].
    - intros j. cbv zeta. destruct (Nat.eqb_spec j i) as [->|J].
      + rewrite X, <- E1. cbn [fst snd]. split; [reflexivity|]. split; [exact P1|]. split; [|exact O1].
        eapply agree_trans; [apply agree_view|exact G1].
      + destruct (T j) as (Ej & Pj & Gj & Oj). cbv zeta in *.
        assert (N' : turns_of j (schedule ++ [i]) = turns_of j schedule).
        { unfold turns_of. rewrite count_occ_app. cbn [count_occ]. destruct (Nat.eq_dec i j); [congruence|lia]. }
        rewrite N'. split; [exact Ej|]. split; [exact Pj|]. split; [|exact Oj].
        eapply agree_trans; [|exact Gj]. split; [|auto]. intros [n|k] Rn; cbn [view s_disk]; [|reflexivity].
        apply Q. intros Wn. exact (apart i j n (not_eq_sym J) Wn Rn).
    - intros n H. rewrite Q by apply H. apply U, H.
  Qed.

  Lemma good_turns schedule : good schedule (turns (g, ts) schedule).
  Proof.
    induction schedule as [|i schedule IH] using rev_ind.
    - split; [|auto]. intros i. destruct (only i) as (P & O & _). cbn. unfold start. cbn [fst snd].
      split; [reflexivity|]. split; [exact P|]. split; [apply agree_refl|exact O].
    - unfold turns in *. rewrite fold_left_app. apply good_turn, IH.
  Qed.
End Threads.

Lemma threads_apart A (g : shared) (ts : nat -> prog A * sys) (R W : nat -> list byte -> Prop) :
  (forall i j n, i <> j -> W i n -> ~ R j n) ->
  (forall i, opens (R i) (fst (ts i)) /\ owns (R i) (snd (ts i)) /\
             changes_only (W i) (fst (ts i)) (view g (snd (ts i)))) ->
  forall schedule,
  let w := turns (g, ts) schedule in
  (forall i, let x := alone (turns_of i schedule) (fst (ts i), view g (snd (ts i))) in
     fst (snd w i) = fst x /\ agree (R i) (view (fst w) (snd (snd w i))) (snd x)) /\
  (forall n, (forall i, ~ W i n) -> fst w n = g n).
Proof.
  intros H K schedule w. destruct (good_turns g ts R W H K schedule) as [T U]. split; [|exact U].
  intros i x. destruct (T i) as (E & _ & G & _). auto.
Qed.

(** ** Threads that make calls *)
Lemma opens_bind A B R (p : prog A) (f : A -> prog B) :
  opens R p -> (forall a, opens R (f a)) -> opens R (bindp p f).
Proof.
  intros P F. induction P as [o|C c k K _ IH]; cbn [bindp].
  - destruct o; [apply F|constructor..].
  - constructor; [exact K|]. exact IH.
Qed.
Lemma opens_one R (B : Set) (c : op B) : op_opens R c -> opens R (one c).
Proof. intros P. constructor; [exact P|]. constructor. Qed.
Lemma opens_more A (R R' : list byte -> Prop) (p : prog A) : (forall n, R n -> R' n) -> opens R p -> opens R' p.
Proof.
  intros I P. induction P as [o|C c k K _ IH]; constructor; [|exact IH].
  destruct c; cbn [op_opens] in *; auto.
Qed.

Ltac open1 :=
  cbv zeta;
  repeat match goal with
  | |- opens _ (bindp _ _) => apply opens_bind; [|intros; cbv zeta]
  | |- opens _ (match ?x with _ => _ end) => destruct x
  | |- opens _ (one _) => apply opens_one; cbn [op_opens]; solve [exact I|reflexivity]
  | |- opens _ (Stop _) => constructor
  | |- opens _ (retp _) => constructor
  end.
Lemma opens_fread R n p : opens R (fread_p n p).
Proof.
  unfold fread_p. open1. induction n as [|n IH]; cbn [fread_loop_p]; open1. exact IH.
Qed.
Lemma opens_fwrite R m p : opens R (fwrite_p m p).
Proof. unfold fwrite_p. open1. induction m as [|[c|] m IH]; cbn [fwrite_loop_p]; open1. exact IH. Qed.
Lemma opens_copy R p q : opens R (copy_stream_p p q).
Proof. unfold copy_stream_p. open1. rename a into n. induction n as [|n IH]; cbn [copy_rounds_p]; open1. exact IH. Qed.
Ltac open2 := open1; auto using opens_fread, opens_fwrite, opens_copy.
Lemma opens_header n : opens (eq n) (ID3v2_read_tag_header_p n).
Proof. unfold ID3v2_read_tag_header_p. open2. Qed.
Lemma opens_read n : opens (eq n) (ID3v2_read_tag_p n).
Proof. unfold ID3v2_read_tag_p. open2. apply opens_header. Qed.
Lemma opens_write n t : opens (eq n) (ID3v2_write_tag_p n t).
Proof. unfold ID3v2_write_tag_p. open2. apply opens_header. Qed.
Lemma opens_delete n : opens (eq n) (ID3v2_delete_tag_p n).
Proof. unfold ID3v2_delete_tag_p. open2. apply opens_header. Qed.
Lemma opens_load n : opens (eq n) (load_tag_p n).
Proof. unfold load_tag_p. open2. apply opens_header. Qed.
Lemma opens_set n t : opens (eq n) (set_tag_p n t).
Proof. unfold set_tag_p. open2. apply opens_write. Qed.
Lemma opens_cover f n t : opens (eq n) (tag_set_album_cover_p f n t).
Proof. unfold tag_set_album_cover_p. open2. Qed.

Lemma opens_result c : opens (uses c) (result_p c).
Proof.
  destruct c; cbn [result_p]; open1.
  all: match goal with |- opens (uses (SetCover _ ?n _)) _ => apply (opens_more _ (eq n))
       | |- opens (uses (_ ?n)) _ => apply (opens_more _ (eq n))
       | |- opens (uses (_ ?n _)) _ => apply (opens_more _ (eq n)) end; [intros m <-; reflexivity|].
  all: auto using opens_header, opens_read, opens_write, opens_delete, opens_load, opens_set, opens_cover.
Qed.
Lemma opens_results l : opens (any uses l) (results_p l).
Proof.
  induction l as [|c l IH]; cbn [results_p]; open1.
  - eapply opens_more; [|apply opens_result]. intros n U. exists c. split; [now left|exact U].
  - eapply opens_more; [|apply IH]. intros n (c' & I & U). exists c'. split; [now right|exact U].
Qed.

Lemma result_call c s : snd (result_s c s) = snd (call_file c s) /\
  (forall r, fst (result_s c s) = Ok r -> fst (call_file c s) = Ok tt) /\
  (fst (call_file c s) = Ok tt -> exists r, fst (result_s c s) = Ok r).
Proof.
  destruct c; cbn [result_s call_file]; unfold done, bindio, ret;
  match goal with |- context [match ?m s with _ => _ end] => destruct (m s) as [[x|u|x|] s1] end;
  cbn [fst snd]; repeat split; try discriminate; try (intros; eexists; reflexivity); destruct x; auto.
Qed.
Lemma results_calls l : forall s, snd (results_s l s) = snd (call_files l s) /\
  (forall r, fst (results_s l s) = Ok r -> fst (call_files l s) = Ok tt).
Proof.
  induction l as [|c l IH]; intros s; [split; reflexivity|].
  destruct (result_call c s) as (E & F & G). cbn [results_s call_files]. unfold bindio.
  destruct (result_s c s) as [o s1], (call_file c s) as [o' s1']. cbn [fst snd] in *. subst s1'.
  destruct (IH s1) as [E2 F2].
  destruct o as [r|u|x|].
  - rewrite (F r eq_refl). destruct (results_s l s1) as [[rs|u|x|] s2]; cbn [fst snd ret] in *;
      (split; [exact E2|]); intros y Y; try discriminate Y. eapply F2; reflexivity.
  - destruct o' as [[]|? |?|]; [destruct (G eq_refl) as [r X]; discriminate X|cbn [fst snd]; split; [reflexivity|discriminate]..].
  - destruct o' as [[]|? |?|]; [destruct (G eq_refl) as [r X]; discriminate X|cbn [fst snd]; split; [reflexivity|discriminate]..].
  - destruct o' as [[]|? |?|]; [destruct (G eq_refl) as [r X]; discriminate X|cbn [fst snd]; split; [reflexivity|discriminate]..].
Qed.

Lemma advance_traced A (x : prog A * sys) : traced (snd x) (snd (advance x)).
Proof.
  destruct x as [[o|B c k] s]; cbn [advance snd]; [apply traced_refl|].
  pose proof (traces_op B c s) as T. destruct (do_op c s) as [[b|u|n|] s1]; exact T.
Qed.
Lemma alone_traced A k (x : prog A * sys) : traced (snd x) (snd (alone k x)).
Proof.
  induction k; [apply traced_refl|]. eapply traced_trans; [exact IHk|]. apply advance_traced.
Qed.

Lemma results_only l s : sound s -> changes_only (any changes l) (results_p l) s.
Proof.
  intros S k n N. destruct (alone_after _ (results_p l) s) as [j J].
  pose proof (J (j + k) ltac:(lia)) as E. rewrite alone_plus in E.
  pose proof (alone_traced _ k (results_p l, s)) as (l1 & L1 & d & I & D).
  pose proof (alone_traced _ j (alone k (results_p l, s))) as (l2 & L2 & _).
  rewrite E in L2. cbn [snd] in *. rewrite same_results in L2.
  destruct (results_calls l s) as [X _]. rewrite X in L2.
  destruct (call_files l s) as [o s'] eqn:C. cbn [snd] in L2.
  destruct (session_sys l s s' o S C) as [M _].
  destruct (M n) as (h & H & K); [intros c Ic Hc; apply N; now exists c|].
  assert (h = l2 ++ l1) as ->.
  { unfold since in H. rewrite L2, L1, app_assoc in H. symmetry. eapply app_inv_tail. exact H. }
  unfold named. rewrite D. destruct I as [<-|I]; [reflexivity|]. apply K. right. apply in_or_app. auto.
Qed.

Lemma threads_calls (g : shared) (ls : nat -> list file_call) (locals : nat -> sys) :
  (forall i j c c' n, i <> j -> In c (ls i) -> changes c n -> In c' (ls j) -> ~ uses c' n) ->
  (forall i, sound (locals i) /\ owns (any uses (ls i)) (locals i)) ->
  (forall schedule n, (forall i c, In c (ls i) -> ~ changes c n) ->
     fst (turns (g, fun i => (results_p (ls i), locals i)) schedule) n = g n) /\
  (forall i, exists o s' k, results_s (ls i) (view g (locals i)) = (o, s') /\
     (forall r, o = Ok r -> tidy (view g (locals i)) s') /\
     forall schedule,
     let w := turns (g, fun i => (results_p (ls i), locals i)) schedule in
     (forall o', fst (snd w i) = Stop o' -> o' = o) /\
     ((k <= turns_of i schedule)%nat ->
      fst (snd w i) = Stop o /\ agree (any uses (ls i)) (view (fst w) (snd (snd w i))) s')).
Proof.
  intros H K.
  assert (S : forall i, sound (view g (locals i))) by (intros i k L; exact (proj1 (K i) k L)).
  assert (T := threads_apart (list result) g (fun i => (results_p (ls i), locals i))
                 (fun i => any uses (ls i)) (fun i => any changes (ls i))).
  cbn [fst snd] in T. specialize (T ltac:(intros i j n N (c & I & C) (c' & I' & C'); exact (H i j c c' n N I C I' C'))).
  specialize (T ltac:(intros i; split; [apply opens_results|split; [apply K|apply results_only, S]])).
  split.
  - intros schedule n N. apply (T schedule). intros i (c & I & C). exact (N i c I C).
  - intros i. destruct (alone_after _ (results_p (ls i)) (view g (locals i))) as [k J].
    destruct (results_s (ls i) (view g (locals i))) as [o s'] eqn:E. exists o, s', k.
    split; [reflexivity|]. split.
    { intros r ->. destruct (results_calls (ls i) (view g (locals i))) as [X Y].
      rewrite E in X, Y. cbn [fst snd] in *. specialize (Y r eq_refl).
      destruct (call_files (ls i) (view g (locals i))) as [o2 s2] eqn:C. cbn [fst snd] in *. subst o2 s2.
      exact (proj2 (session_sys _ _ _ _ (S i) C) eq_refl). }
    intros schedule w. destruct (T schedule) as [Ti _]. specialize (Ti i). cbv zeta in Ti. fold w in Ti.
    destruct Ti as [F G]. split.
    + intros o' X. rewrite F in X.
      destruct (alone (turns_of i schedule) (results_p (ls i), view g (locals i))) as [p s1] eqn:Z.
      cbn [fst] in X. subst p. apply alone_stop in Z. rewrite same_results, E in Z. congruence.
    + intros L. rewrite (J _ L) in F, G. cbn [fst snd] in F, G. rewrite same_results, E in F, G. auto.
Qed.
