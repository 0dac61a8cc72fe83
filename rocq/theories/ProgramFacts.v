(** Programs on the heap do what they do on values. *)
From Verif Require Import Spec TagFacts Heap HeapIO SpecHeap Program SpecHeapIO Tidy HeapFacts HeapFrameFacts HeapListFacts HeapTagFacts HeapLifeFacts HeapPtrFacts
  HeapReadFacts HeapWriteFacts.
From Coq Require Import Lia.

Lemma tag_of_at h a t b m : tag_of a t b -> heap_is h (b ++ m) -> tag_at h a t m.
Proof. intros ((ah & head & l & -> & R) & _) H. exists l, ah, head. now split. Qed.

Lemma at_tag_of h a t m : tag_at h a t m -> kinds_ok (t_frames t) -> exists b, tag_of a t b /\ heap_is h (b ++ m).
Proof.
  intros (l & ah & head & H & R) K. exists (tag_blocks a ah head t l). split; [|exact H].
  split; [|exact K]. exists ah, head, l. now split.
Qed.

Lemma owned_get ts ps bs i : owned ts ps bs ->
  match nth i ts None with
  | None => nth i ps None = None
  | Some t => exists a b bs', nth i ps None = Some a /\ tag_of a t b /\ Permutation bs (b ++ bs')
      /\ (forall t' b', tag_of a t' b' -> exists bs2, owned (assign ts i (Some t')) ps bs2 /\ Permutation bs2 (b' ++ bs'))
      /\ owned (assign ts i None) (assign ps i None) bs'
  end.
Proof.
  intros H. revert i. induction H as [|ts ps bs H IH|t ts a ps b bs T H IH]; intros i.
  - destruct i; reflexivity.
  - destruct i as [|i]; [reflexivity|]. cbn [nth assign]. specialize (IH i).
    destruct (nth i ts None) as [t|]; [|exact IH]. destruct IH as (a & b & bs' & E & T & P & F & N).
    exists a, b, bs'. split; [exact E|]. split; [exact T|]. split; [exact P|]. split; [|now constructor].
    intros t' b' T'. destruct (F t' b' T') as (bs2 & H2 & P2). exists bs2. split; [now constructor|exact P2].
  - destruct i as [|i]; cbn [nth assign].
    + exists a, b, bs. split; [reflexivity|]. split; [exact T|]. split; [reflexivity|]. split; [|now constructor].
      intros t' b' T'. exists (b' ++ bs). split; [now constructor|reflexivity].
    + specialize (IH i). destruct (nth i ts None) as [t0|]; [|exact IH]. destruct IH as (a0 & b0 & bs' & E & T0 & P & F & N).
      exists a0, b0, (b ++ bs'). split; [exact E|]. split; [exact T0|].
      split; [rewrite P; perm|]. split; [|now constructor].
      intros t' b' T'. destruct (F t' b' T') as (bs2 & H2 & P2). exists (b ++ bs2). split; [now constructor|].
      rewrite P2. perm.
Qed.

Lemma owned_null ts ps bs : owned ts ps bs -> owned (ts ++ [None]) (ps ++ [None]) bs.
Proof. induction 1; cbn [app]; [repeat constructor|now constructor|now constructor]. Qed.
Lemma owned_new ts ps bs t a b : owned ts ps bs -> tag_of a t b ->
  exists bs', owned (ts ++ [Some t]) (ps ++ [Some a]) bs' /\ Permutation bs' (b ++ bs).
Proof.
  intros H T. induction H as [|ts ps bs H (bs' & IH & P)|t1 ts a1 ps b1 bs T1 H (bs' & IH & P)]; cbn [app].
  - exists (b ++ []). split; [apply OwnedTag; [exact T|constructor]|reflexivity].
  - exists bs'. split; [now constructor|exact P].
  - exists (b1 ++ bs'). split; [now constructor|rewrite P; perm].
Qed.

Definition steps_to (m : list (nat * block)) (k : nat) (w : world) (x : machine) : Prop :=
  exists lost, length lost = k /\ shows_world w x (lost ++ m).

Lemma same_steps w x m : shows_world w x m -> steps_to m 0 w x.
Proof. intros S. now exists []. Qed.

Lemma loaded_steps w x m t r bs : m_disk x = w_disk w -> owned (w_tags w) (m_tags x) bs -> loaded (bs ++ m) t r ->
  (forall t', t = Some t' -> kinds_ok (t_frames t')) -> steps_to m 0 (new_tag w t) (new_ptr x r).
Proof.
  intros D H L K. apply same_steps. split; [exact D|]. cbn [new_tag new_ptr w_tags m_tags m_heap].
  destruct t as [t|]; cbn [loaded] in L.
  - destruct L as (a & -> & T). apply at_tag_of in T as (b & T & Hb); [|now apply K].
    destruct (owned_new _ _ _ t a b H T) as (bs' & H' & P). exists bs'. split; [exact H'|].
    eapply heap_perm; [exact Hb|]. rewrite P. perm.
  - destruct L as (-> & Hb). exists bs. split; [now apply owned_null|exact Hb].
Qed.

Lemma get_frames_unlinked h a t rest id : tag_at h a t rest ->
  agrees (fun _ h' => tag_at h' a t rest) (ID3v2_Tag_get_frames (Some t) id)
    (let* (list, h1) := ID3v2_Tag_get_frames_h (Some a) id h in ID3v2_FrameList_unlink list h1).
Proof.
  intros T. destruct (ID3v2_Tag_get_frames (Some t) id) as [v| | |] eqn:E.
  { destruct (get_frames_unlink h a t rest id v T E) as (list & h1 & h2 & -> & E2 & T2). cbn [bind]. rewrite E2.
    exists h2. now split. }
  all: destruct T as (pl & ah & head & R); assert (G := get_frames_beside h a ah head t pl rest id R);
    destruct R as (H & _); cbn [ID3v2_Tag_get_frames] in E; rewrite E in G; cbn [agrees] in *;
    unfold ID3v2_Tag_get_frames_h; unfold tag_blocks in H; cbn [app] in H;
    rewrite (frames_of_is _ _ a ah head (t_padding t) H) by is_in; cbn [bind]; rewrite G; reflexivity.
Qed.

Lemma assign_same {A} (l : list A) i (x d : A) : nth i l d = x -> x <> d -> assign l i x = l.
Proof. revert i. induction l as [|y l IH]; intros [|i] E N; cbn in *; subst; try congruence. now rewrite IH. Qed.

(** A step that changes one tag. *)
Lemma tag_step w x m bs i t : m_disk x = w_disk w -> owned (w_tags w) (m_tags x) bs -> heap_is (m_heap x) (bs ++ m) ->
  nth i (w_tags w) None = Some t ->
  exists a bs', nth i (m_tags x) None = Some a /\ tag_at (m_heap x) a t (bs' ++ m) /\ kinds_ok (t_frames t)
    /\ (forall t' h' lost d, tag_at h' a t' (lost ++ bs' ++ m) -> kinds_ok (t_frames t') ->
          steps_to m (length lost) (mkWorld d (assign (w_tags w) i (Some t'))) (mkMachine d (m_tags x) h'))
    /\ (forall h' lost, heap_is h' (lost ++ bs' ++ m) -> steps_to m (length lost) (set_tag w i None) (set_ptr x i None h')).
Proof.
  intros D H Hh E. assert (G := owned_get _ _ _ i H). rewrite E in G. destruct G as (a & b & bs' & Ea & T & P & F & N).
  exists a, bs'. split; [exact Ea|]. split.
  { eapply tag_of_at; [exact T|]. eapply heap_perm; [exact Hh|]. rewrite P. perm. }
  split; [apply T|]. split.
  - intros t' h' lost d T' K'. apply at_tag_of in T' as (b' & T' & H'); [|exact K']. destruct (F t' b' T') as (bs2 & H2 & P2).
    exists lost. split; [reflexivity|]. split; [reflexivity|]. exists bs2. split; [exact H2|]. eapply heap_perm; [exact H'|]. rewrite P2. perm.
  - intros h' lost H'. exists lost. split; [reflexivity|]. split; [exact D|]. exists bs'. split; [exact N|].
    eapply heap_perm; [exact H'|]. perm.
Qed.

Lemma null_get ts ps bs i : owned ts ps bs -> nth i ts None = None -> nth i ps None = None.
Proof. intros H E. assert (G := owned_get _ _ _ i H). now rewrite E in G. Qed.

Lemma bind_pair {A B C D} (o : outcome (A * B)) (k : A -> B -> outcome C) (f : C -> outcome D) :
  bind (let* (a, b) := o in k a b) f = let* (a, b) := o in let* c := k a b in f c.
Proof. now destruct o as [[a b]| | |]. Qed.

Lemma written_frames f t st t' : ID3v2_write_tag_states f (Some t) = Ok (st, Some t') -> t_frames t' = t_frames t.
Proof.
  intros E. unfold ID3v2_write_tag_states in E. binvs E. destruct f as [content|]; [|discriminate E]. now injection E as <- <-.
Qed.

Lemma step_is w x m s : shows_world w x m -> step_ok s ->
  agrees (steps_to m (step_leak w s)) (run_step w s) (run_step_h x s).
Proof.
  intros (D & bs & H & Hh) C. destruct s; cbn [run_step run_step_h step_leak]; try rewrite D.
  - (* NewTag *)
    destruct (new_is _ _ Hh) as (a & h' & -> & T & K). apply agrees_ok.
    apply (loaded_steps w x m _ (Some a, h') bs D H); [now exists a|]. intros t' [= <-]. exact K.
  - (* ReadTag *)
    assert (R := read_tag_is _ _ (w_disk w name) Hh).
    destruct (ID3v2_read_tag (w_disk w name)) as [t| | |] eqn:E; cbn [agrees bind] in *; try (rewrite R; reflexivity).
    destruct R as (r & -> & L). eexists. split; [reflexivity|]. apply (loaded_steps w x m t r bs D H L).
    intros t' ->. eapply read_tag_kinds; exact E.
  - (* ReadBuffer *)
    assert (R := read_buffer_is _ _ p size Hh).
    destruct (ID3v2_read_tag_from_buffer p size) as [t| | |] eqn:E; cbn [agrees bind] in *; try (rewrite R; reflexivity).
    destruct R as (r & -> & L). eexists. split; [reflexivity|]. apply (loaded_steps w x m t r bs D H L).
    intros t' ->. eapply read_buffer_kinds; [|exact E]. exact C.
  - (* ReadHeader *)
    eapply agrees_bind; [apply header_file_loaded, Hh|]. intros v [p h1] L. cbn [fst snd] in *.
    destruct v as [th|]; cbn [header_loaded fst snd] in L.
    + destruct L as (a & -> & H1). unfold ID3v2_TagHeader_free.
      destruct (free_at _ _ a (BTagHeader th) (bs ++ m) H1 ltac:(perm)) as (h2 & -> & H2 & _). cbn [bind].
      apply agrees_ok, same_steps. split; [exact D|]. exists bs. now split.
    + destruct L as (-> & H1). cbn [bind]. apply agrees_ok, same_steps. split; [exact D|]. exists bs. now split.
  - (* GetFrame *)
    unfold with_tag, with_ptr. destruct (nth i (w_tags w) None) as [t|] eqn:E; [|rewrite (null_get _ _ _ _ H E); apply agrees_ok, same_steps; split; [exact D|now exists bs]].
    destruct (tag_step w x m bs i t D H Hh E) as (a & bs' & -> & (pl & T) & _).
    eapply agrees_bind; [apply (get_pointer _ _ _ _ _ id T)|]. intros v r _.
    apply agrees_ok, same_steps. split; [exact D|now exists bs].
  - (* GetFrames *)
    unfold with_tag, with_ptr. destruct (nth i (w_tags w) None) as [t|] eqn:E; [|rewrite (null_get _ _ _ _ H E); apply agrees_ok, same_steps; split; [exact D|now exists bs]].
    destruct (tag_step w x m bs i t D H Hh E) as (a & bs' & -> & T & K & F & _).
    rewrite <- bind_pair. eapply agrees_bind; [apply (get_frames_unlinked _ _ _ _ id T)|]. intros v h1 T1. apply agrees_ok.
    specialize (F t h1 [] (w_disk w) T1 K). rewrite (assign_same _ _ _ _ E) in F by discriminate.
    destruct w as [d ts], x as [d' ps h]. cbn in *. subst d'. exact F.
  - (* Call *)
    unfold with_tag, with_ptr. destruct (nth i (w_tags w) None) as [t|] eqn:E; [|rewrite (null_get _ _ _ _ H E); apply agrees_ok, same_steps; split; [exact D|now exists bs]].
    destruct (tag_step w x m bs i t D H Hh E) as (a & bs' & -> & T & K & F & _).
    eapply agrees_bind; [apply (call_at _ _ _ _ c T K C)|]. intros t1 h1 (lost & L & T1 & K1 & _). apply agrees_ok. rewrite <- L.
    unfold set_tag, set_heap. rewrite D. now apply F.
  - (* WriteTag *)
    unfold with_tag, with_ptr, tag_frames. destruct (nth i (w_tags w) None) as [t|] eqn:E; [|rewrite (null_get _ _ _ _ H E); apply agrees_ok, same_steps; split; [exact D|now exists bs]].
    destruct (tag_step w x m bs i t D H Hh E) as (a & bs' & -> & (pl & T) & K & F & _).
    assert (W := write_tag_is _ _ _ _ _ (w_disk w name) T K).
    destruct (ID3v2_write_tag_states (w_disk w name) (Some t)) as [[st t1]| | |] eqn:Ew; cbn [agrees bind] in *; try (rewrite W; reflexivity).
    destruct W as ((st' & h1) & Eh & Es & t2 & lost & E2 & T2 & L). cbn [fst snd] in *. subst t1 st'. rewrite Eh. cbn [bind].
    eexists. split; [reflexivity|]. rewrite <- L.
    unfold set_tag, set_file, set_file_h. cbn [w_disk w_tags]. rewrite D. apply F; [now exists pl|].
    rewrite (written_frames _ _ _ _ Ew). exact K.
  - (* DeleteTag *)
    eapply agrees_bind; [apply delete_tag_is, Hh|]. intros v [st h1] (-> & H1). cbn [fst snd] in *.
    apply agrees_ok, same_steps. split; [cbn; now rewrite D|]. exists bs. now split.
  - (* FreeTag *)
    unfold with_tag, with_ptr, tag_frames. destruct (nth i (w_tags w) None) as [t|] eqn:E; [|rewrite (null_get _ _ _ _ H E); apply agrees_ok, same_steps; split; [exact D|now exists bs]].
    destruct (tag_step w x m bs i t D H Hh E) as (a & bs' & -> & T & K & _ & F).
    destruct (free_is_all _ _ _ _ T K) as (h1 & lost & -> & H1 & L & _). cbn [bind]. apply agrees_ok. rewrite <- L. now apply F.
Qed.

Lemma run_is prog : forall w x m, shows_world w x m -> Forall step_ok prog ->
  agrees (steps_to m (leaks w prog)) (run w prog) (run_h x prog).
Proof.
  induction prog as [|s prog IH]; intros w x m S C; cbn [run run_h leaks]; [apply agrees_ok, same_steps, S|].
  inversion C; subst. assert (A := step_is w x m s S H1).
  destruct (run_step w s) as [w1| | |]; cbn [agrees bind] in *; try (rewrite A; reflexivity).
  destruct A as (x1 & -> & lost & L & S1). cbn [bind]. eapply agrees_weaken; [apply (IH _ _ _ S1 H2)|].
  intros w2 x2 (lost2 & L2 & S2). exists (lost2 ++ lost). split; [rewrite app_length; lia|]. now rewrite <- app_assoc.
Qed.

(** ** Programs are tidy *)

Lemma owned_kinds ts ps bs : owned ts ps bs -> forall i t, nth i ts None = Some t -> kinds_ok (t_frames t).
Proof. intros H i t E. assert (G := owned_get _ _ _ i H). rewrite E in G. destruct G as (a & b & bs' & _ & T & _). apply T. Qed.

Lemma tidy_step w x m s : shows_world w x m -> tidy (run_step w s).
Proof.
  intros (_ & bs & H & _). assert (K := owned_kinds _ _ _ H).
  destruct s; cbn [run_step]; unfold with_tag; try (destruct (nth i (w_tags w) None) as [t|] eqn:E; [|exact I]); tid.
  apply tidy_write_tag. eauto.
Qed.

Lemma tidy_agrees {A B} (R : A -> B -> Prop) o o' : agrees R o o' -> tidy o -> tidy o'.
Proof. destruct o; cbn [agrees]; intros H T; [destruct H as (b & -> & _); exact I|rewrite H..]; exact T. Qed.

Lemma run_tidy prog : forall w x m, shows_world w x m -> Forall step_ok prog -> tidy (run_h x prog).
Proof.
  induction prog as [|s prog IH]; intros w x m S C; cbn [run_h]; [exact I|]. inversion C; subst.
  assert (A := step_is w x m s S H1). assert (T := tidy_agrees _ _ _ A (tidy_step w x m s S)).
  apply tidy_bind; [exact T|]. intros x1 E. destruct (run_step w s) as [w1| | |]; cbn [agrees] in A; rewrite E in A; try discriminate A.
  destruct A as (x2 & [= <-] & lost & _ & S1). exact (IH _ _ _ S1 H2).
Qed.

(** ** The end of a program *)

Lemma owned_none ts ps bs : owned ts ps bs -> Forall (fun t => t = None) ts -> bs = [].
Proof.
  induction 1 as [| |t ts a ps b bs T H IH]; intros F; [reflexivity| |]; inversion F; subst; auto. discriminate.
Qed.

Lemma run_ends prog w x m w' : shows_world w x m -> Forall step_ok prog ->
  run w prog = Ok w' -> Forall (fun t => t = None) (w_tags w') ->
  exists x' lost, run_h x prog = Ok x' /\ m_disk x' = w_disk w' /\ heap_is (m_heap x') (lost ++ m)
    /\ length lost = leaks w prog.
Proof.
  intros S C E N. assert (A := run_is prog w x m S C). rewrite E in A.
  destruct A as (x' & E' & lost & L & D & bs & H & Hh). rewrite (owned_none _ _ _ H N) in Hh. eauto 7.
Qed.
