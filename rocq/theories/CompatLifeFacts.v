(** Saving and freeing a version 1 tag, and the contents of its frames. *)
From Verif Require Import Compat CompatHeap Spec SpecEdit SpecCompat TagFacts WriteFacts KindFacts SpecHeap SpecHeapIO SpecCompatHeap
  HeapFacts HeapFrameFacts HeapListFacts HeapTagFacts HeapLifeFacts HeapPtrFacts HeapReadFacts HeapWriteFacts CompatHeapFacts CompatSetFacts.
From Coq Require Import Lia.

(** ** Saving *)

Lemma write_frames_kept f t states v : ID3v2_write_tag_states f (Some t) = Ok (states, v) ->
  exists t', v = Some t' /\ t_frames t' = t_frames t /\ t_fresh t' = t_fresh t.
Proof.
  unfold ID3v2_write_tag_states. intros E. repeat (binv E). destruct f; [|discriminate E]. injection E as _ <-. eauto.
Qed.

Lemma set_tag_is h a c pl cl R f : ctag_laid h a c pl cl R ->
  agrees (v1_saved a pl cl f (written_leak (t_frames (ct_tag c))) R) (set_tag f (Some c)) (set_tag_h f (Some a) h).
Proof.
  intros (ia & ah & ar & T & Ef & Nc & F & K). unfold set_tag, set_tag_h, ID3v2_write_tag. cbn [deref bind].
  assert (T0 := T). destruct T0 as (th & head & H & _). unfold compat_blocks in H. cbn [app] in H.
  erewrite (load_ctag_is _ _ _ _ _ _ _ H) by (rewrite !in_app_iff; right; now left). cbn [bind].
  rewrite bind_assoc.
  eapply agrees_tail_l; [apply agrees_eq, (write_tag_is h ia (ct_tag c) pl _ f T K)|].
  intros (states & v) (st & h1) ((Es & t' & lost & Ev & T' & L) & Ew). cbn [fst snd] in *. subst. cbn [bind deref].
  apply write_frames_kept in Ew as (t & [= <-] & Et & _).
  apply agrees_ok. split; [reflexivity|]. exists lost. split; [|exact L]. cbn [fst snd].
  exists ia, ah, ar. repeat apply conj; cbn [ct_tag ct_frames]; auto; [|now rewrite Et].
  destruct T' as (th' & head' & H' & X). exists th', head'. split; [|exact X].
  refine (heap_perm _ _ _ H' _). unfold compat_blocks. cbn [ct_raw ct_header]. perm.
Qed.

(** ** Freeing *)

Lemma free_inner h ia t pl R : tag_laid h ia t pl R -> kinds_ok (t_frames t) ->
  exists h', ID3v2_Tag_free (Some ia) h = Ok h' /\ heap_is h' (flat_map p_leak pl ++ R).
Proof.
  intros (ah & head & H & Et & Fh & _) K. unfold ID3v2_Tag_free, tag_blocks in *. cbn [app] in H. ld H.
  set (T1 := (ia, BTag (Some ah) (Some head) (t_padding t))) in *.
  destruct (free_at _ _ ah (BTagHeader (t_header t)) (T1 :: (node_blocks head pl ++ all_frame_blocks pl) ++ R) H ltac:(perm))
    as (h1 & -> & H1 & _). cbn [bind]. unfold T1 in H1. ld H1. fold T1 in H1.
  assert (H2 : heap_is h1 (node_blocks head pl ++ all_frame_blocks pl ++ T1 :: R)) by (eapply heap_perm; [exact H1|perm]).
  destruct (free_list_is head pl (enough h1) h1 (T1 :: R) H2) as (h2 & E2 & H3).
  { now rewrite <- Et. } { eapply enough_for. exact H2. }
  unfold ID3v2_FrameList_free. rewrite Fh in E2. rewrite E2. cbn [bind].
  destruct (free_at _ _ ia (BTag (Some ah) (Some head) (t_padding t)) (flat_map p_leak pl ++ R) H3) as (h3 & -> & H4 & _).
  { unfold T1. perm. }
  eauto.
Qed.

(** A list of nodes as the loop meets it: the fields it does not use are left open. *)
Fixpoint chain (l : list cpnode) (m : list (nat * block)) : Prop :=
  match l with
  | [] => m = []
  | p :: rest => exists s la m', m = (c_addr p, BCNode (c_frame p) s la (c_first rest)) :: m' /\ chain rest m'
  end.

Lemma c_tail_chain head l : chain l (c_tail head l).
Proof. induction l as [|p l IH]; [reflexivity|]. cbn [c_tail chain]. eauto. Qed.

Lemma c_nodes_chain l : chain l (c_nodes l).
Proof.
  destruct l as [|p l]; [reflexivity|]. cbn [c_nodes chain].
  destruct (cn_start (c_node p)); eauto using c_tail_chain.
Qed.

Lemma free_nodes_is : forall l m fuel h R, chain l m -> heap_is h (m ++ flat_map c_frame_blocks l ++ R) -> (length l < fuel)%nat ->
  agrees (fun _ h' => heap_is h' R) (free_nodes (map c_node l)) (free_nodes_h fuel (c_first l) h).
Proof.
  induction l as [|p l IH]; intros m fuel h R C H L; (destruct fuel; [cbn [length] in L; lia|]).
  - cbn [chain] in C. subst m. apply agrees_ok. exact H.
  - destruct C as (s & la & m' & -> & C). cbn [map free_nodes c_first free_nodes_h flat_map] in *.
    rewrite (load_cnode_is _ _ _ _ _ _ _ H) by now left. cbn [bind].
    unfold c_frame_blocks at 1 in H. unfold c_frame in *. destruct (cn_frame (c_node p)) as [f|]; cbn [deref bind]; [|reflexivity].
    unfold free_frame_h. cbn [app] in H.
    erewrite (load_cframe_is _ _ _ _ _ _ _ _ H) by (rewrite app_comm_cons, in_app_iff; right; now left). cbn [bind].
    set (N := (c_addr p, BCNode (Some (c_self p)) s la (c_first l))) in *.
    set (F := (c_self p, BCFrame (cf_id f) (cf_size f) (cf_flags f) (Some (c_data p)) (Some (c_points p)))) in *.
    destruct (free_at _ _ (c_data p) (BBytes (cf_data f)) (N :: F :: m' ++ flat_map c_frame_blocks l ++ R) H) as (h1 & -> & H1 & _).
    { unfold N, F. perm. }
    cbn [bind]. destruct (free_at _ _ (c_self p) (snd F) (N :: m' ++ flat_map c_frame_blocks l ++ R) H1) as (h2 & -> & H2 & _).
    { unfold N, F. cbn [snd]. perm. }
    cbn [bind]. unfold N in H2. rewrite (load_cnode_is _ _ _ _ _ _ _ H2) by now left. cbn [bind].
    destruct (free_is _ _ _ _ H2) as (h3 & -> & H3 & _). cbn [bind]. eapply IH; eauto. cbn [length] in L. lia.
Qed.

Lemma leaks_in pl x : In x (flat_map p_leak pl) -> In x (all_frame_blocks pl) /\ exists u v, snd x = BFrame u v.
Proof.
  intros I. apply in_flat_map in I as (p & I & J). unfold p_leak in J.
  destruct (n_frame (p_node p)) as [e|] eqn:E; [|destruct J]. split.
  - unfold all_frame_blocks. apply in_flat_map. exists p. split; [exact I|]. unfold p_frame_blocks. rewrite E. now apply leaked_incl.
  - unfold leaked_blocks in J. destruct (f_data (fp_frame e)); try now destruct J. destruct J as [<-|[]]. cbn [snd]. eauto.
Qed.

Lemma free_tag_is h a c pl cl R : ctag_laid h a c pl cl R ->
  agrees (fun _ h' => v1_freed h (list_leak (t_frames (ct_tag c))) R h') (free_tag (Some c)) (free_tag_h (Some a) h).
Proof.
  intros (ia & ah & ar & T & Ef & Nc & F & K). unfold free_tag, free_tag_h. cbn [deref bind].
  assert (T0 := T). destruct T0 as (th & head & H & X). unfold compat_blocks in H. cbn [app] in H.
  erewrite (load_ctag_is _ _ _ _ _ _ _ H) by (rewrite !in_app_iff; right; now left). cbn [bind].
  destruct (ct_raw c) as [raw|] eqn:Er; cbn [assigned bind]; [|reflexivity].
  set (B := BCTag (Some (Some ar)) (Some ah) (c_first cl) (Some ia)) in *.
  set (I := tag_blocks ia th head (ct_tag c) pl) in *. set (Rc := c_nodes cl ++ flat_map c_frame_blocks cl ++ R).
  destruct (free_at _ _ ar (BBytes raw) (I ++ (a, B) :: (ah, BCHeader (ct_header c)) :: Rc) H) as (h1 & -> & H1 & _).
  { unfold Rc. perm. }
  cbn [bind]. unfold B in H1. erewrite (load_ctag_is _ _ _ _ _ _ _ H1) by (rewrite !in_app_iff; right; now left). cbn [bind]. fold B in H1.
  destruct (free_at _ _ ah (BCHeader (ct_header c)) (I ++ (a, B) :: Rc) H1) as (h2 & -> & H2 & _).
  { perm. }
  cbn [bind]. unfold B in H2. erewrite (load_ctag_is _ _ _ _ _ _ _ H2) by (rewrite !in_app_iff; right; now left). cbn [bind]. fold B in H2.
  destruct (free_inner h2 ia (ct_tag c) pl ((a, B) :: Rc)) as (h3 & -> & H3); [|exact K|].
  { exists th, head. split; [exact H2|exact X]. }
  cbn [bind]. unfold B in H3. erewrite (load_ctag_is _ _ _ _ _ _ _ H3) by (rewrite !in_app_iff; right; now left). cbn [bind]. fold B in H3.
  rewrite Ef.
  assert (H4 : heap_is h3 (c_nodes cl ++ flat_map c_frame_blocks cl ++ (a, B) :: flat_map p_leak pl ++ R)).
  { refine (heap_perm _ _ _ H3 _). unfold Rc. perm. }
  eapply agrees_tail; [apply (free_nodes_is _ _ _ _ _ (c_nodes_chain cl) H4 (c_enough _ _ _ H4))|].
  intros [] h5 H5. cbn beta in H5. destruct (free_is _ _ _ _ H5) as (h6 & -> & H6 & _). apply agrees_ok.
  exists (flat_map p_leak pl). split; [exact H6|]. split.
  - destruct X as (Et & _). rewrite Et. unfold list_leak. clear. induction pl as [|p pl IH]; [reflexivity|].
    cbn [flat_map map list_sum]. rewrite app_length, IH. unfold p_leak. cbn [fold_right].
    destruct (n_frame (p_node p)); [rewrite leaked_length|]; reflexivity.
  - intros x b E N. assert (G : (exists u v, b = BFrame u v) \/ load (Some x) h6 = Ub UseAfterFree).
    { destruct (in_dec Nat.eq_dec x (map fst (flat_map p_leak pl))) as [J|J].
      - left. apply in_map_iff in J as (y & <- & J). apply leaks_in in J as (J & u & v & Ey). exists u, v.
        rewrite (load_is h _ (fst y) (snd y) H) in E; [now injection E as <-|].
        unfold I, tag_blocks. rewrite <- surjective_pairing, !in_app_iff. left. right. right. exact J.
      - right. apply (load_gone _ _ _ H6). rewrite map_app, in_app_iff. tauto. }
    destruct b; auto; destruct G as [(u & v & G)|G]; try discriminate; exact G.
Qed.

(** ** A tag that was loaded *)

Definition c_shown (n : cnode) : Prop := cn_frame n <> None.

Lemma load_frames_shown : forall l cs r, load_frames l cs = Ok r ->
  Forall c_shown cs \/ cs = [cempty_node] -> l <> [] \/ Forall c_shown cs -> Forall c_shown r.
Proof.
  induction l as [|n l IH]; intros cs r E C N; cbn [load_frames] in E.
  - injection E as <-. now destruct N.
  - binv E. binv E. assert (X : Forall c_shown v0).
    { unfold add_to_list in *. destruct cs as [|n0 cs]; [discriminate|]. destruct (cn_start n0) eqn:St; cbn [negb] in *.
      - match goal with H : Ok _ = Ok v0 |- _ => injection H as <- end.
        destruct C as [C|[= -> _]]; [|discriminate St]. apply (Forall_app c_shown (n0 :: cs)). split; [exact C|].
        constructor; [discriminate|constructor].
      - match goal with H : Ok _ = Ok v0 |- _ => injection H as <- end.
        constructor; [discriminate|]. destruct C as [C|[= _ ->]]; [now inversion C|constructor]. }
    eapply IH; eauto.
Qed.

Lemma buffer_shown p n c : load_tag_with_buffer p n = Ok c -> t_frames (ct_tag c) <> [] -> Forall c_shown (ct_frames c).
Proof.
  unfold load_tag_with_buffer. intros E N. repeat (binv E). injection E as <-. cbn [ct_frames ct_tag] in *.
  eapply load_frames_shown; eauto.
Qed.

Lemma load_shown f c : load_tag f = Ok c -> t_frames (ct_tag c) <> [] -> Forall c_shown (ct_frames c).
Proof. unfold load_tag. intros E N. do 3 binv E. eapply buffer_shown; eauto. Qed.

Lemma laid_frames h a c pl cl R : ctag_laid h a c pl cl R ->
  t_frames (ct_tag c) <> [] /\ (Forall c_shown (ct_frames c) -> written_leak (t_frames (ct_tag c)) = list_leak (t_frames (ct_tag c))).
Proof.
  intros (ia & ah & ar & (th & head & _ & Et & _) & Ef & Nc & F & _). rewrite Et, Ef. split.
  - destruct F; [congruence|discriminate].
  - clear -F. intros S. unfold written_leak, list_leak. induction F as [|q p pl cl L F IH]; [reflexivity|].
    cbn [map visible] in *. inversion S as [|? ? S1 S2]; subst. specialize (IH S2).
    unfold linked in L. destruct (n_frame (p_node q)) as [e|] eqn:Fe.
    + unfold list_sum in *. cbn [map fold_right]. cbn in *. rewrite IH. reflexivity.
    + destruct (cn_frame (c_node p)) eqn:Fc; [destruct L|]. now destruct S1.
Qed.

Lemma ops_is ops : forall h a c pl cl R, ctag_laid h a c pl cl R -> Forall c_shown (ct_frames c) ->
  agrees (v1_used a R ops c) (run_ops ops c) (run_ops_h ops (Some a) h).
Proof.
  induction ops as [|[cc|f] ops IH]; intros h a c pl cl R T S; cbn [run_ops run_ops_h].
  - apply agrees_ok. split; [reflexivity|]. exists []. repeat split. exists pl, cl. exact T.
  - eapply agrees_bind; [apply (run_ccall_is _ _ _ _ _ _ _ T)|].
    intros c' h' (pl' & cl' & u & q & w & x & T' & E1 & E2 & _ & (g & Bx & _) & _ & _ & _ & _ & Lk).
    eapply agrees_weaken; [apply (IH _ _ _ _ _ _ T')|].
    + destruct T as (? & ? & ? & _ & Ef & _), T' as (? & ? & ? & _ & Ef' & _). rewrite Ef, E1 in S. rewrite Ef', E2.
      rewrite map_app in *. apply Forall_app in S as (Su & S). cbn [map] in *. inversion S; subst. apply Forall_app. split; [auto|].
      constructor; [unfold c_shown; now rewrite Bx|auto].
    + intros v r (Ev & lost & A & L & K). split; [exact Ev|]. exists lost. split; [exact A|]. rewrite Lk in *. auto.
  - eapply agrees_bind; [apply (set_tag_is _ _ _ _ _ _ f T)|].
    intros [f' c'] [st h'] (Ef & lost & T' & L). cbn [fst snd] in *. rewrite Ef.
    destruct (laid_frames _ _ _ _ _ _ T) as (_ & W). rewrite (W S) in L.
    assert (Fr : ct_frames c' = ct_frames c) by (destruct T as (? & ? & ? & _ & X & _), T' as (? & ? & ? & _ & X' & _); congruence).
    assert (Ft : t_frames (ct_tag c') = t_frames (ct_tag c)).
    { destruct T as (? & ? & ? & (? & ? & _ & X & _) & _), T' as (? & ? & ? & (? & ? & _ & X' & _) & _). congruence. }
    eapply agrees_bind; [apply (IH _ _ _ _ _ _ T')|].
    { now rewrite Fr. }
    intros [fs v] [fs' r] (Ev & lost' & A & L' & K). cbn [fst snd] in *. subst fs'. apply agrees_ok. split; [reflexivity|].
    exists (lost' ++ lost). cbn [fst snd]. rewrite <- app_assoc. split; [exact A|]. rewrite Ft in *. split; [|exact K].
    rewrite app_length, L, L'. unfold saves. cbn [filter length]. lia.
Qed.

Lemma program_is h m f ops : heap_is h m -> agrees (v1_ended m ops) (v1_program f ops) (v1_program_h f ops h).
Proof.
  intros H. unfold v1_program, v1_program_h.
  eapply agrees_bind; [apply agrees_eq, (load_tag_is _ _ f H)|]. intros c [a h1] ((lost & (pl & cl & T) & L) & E). cbn [fst snd] in *.
  destruct (laid_frames _ _ _ _ _ _ T) as (N & _). assert (S := load_shown _ _ E N).
  eapply agrees_bind; [apply (ops_is ops _ _ _ _ _ _ T S)|].
  intros [fs c'] [fs' h2] (Ev & lost2 & (pl2 & cl2 & T2) & L2 & K2). cbn [fst snd] in *. subst fs'.
  eapply agrees_bind; [apply (free_tag_is _ _ _ _ _ _ T2)|]. intros [] h3 (lost3 & H3 & L3 & _).
  apply agrees_ok. split; [reflexivity|]. exists (lost3 ++ lost2 ++ lost). cbn [fst snd].
  split; [now rewrite <- !app_assoc|]. rewrite !app_length, L, L2, L3, K2. lia.
Qed.

(** ** Pointers *)

Lemma agrees_inv {A B} (R : A -> B -> Prop) o b : agrees R o (Ok b) -> exists a, o = Ok a /\ R a b.
Proof. destruct o; cbn [agrees]; intros H; try discriminate. destruct H as (b' & [= <-] & H). eauto. Qed.

Lemma get_first h m s cl p : In s known_ids -> heap_is h m -> incl (c_nodes cl) m -> incl (flat_map c_frame_blocks cl) m ->
  forall s2 s1 fuel, cl = s1 ++ s2 -> get_from_loop fuel (c_first s2) (clit s) h = Ok (Some p) ->
  exists u q w, s2 = u ++ q :: w /\ Forall (c_begins (lit s) false) u /\ c_begins (lit s) true q /\ p = c_self q.
Proof.
  intros I H In' If. destruct (known_id s I) as (L & N & Ec & _). rewrite Ec.
  induction s2 as [|q s2 IH]; intros s1 fuel El E; (destruct fuel; [discriminate E|]).
  - discriminate E.
  - cbn [c_first get_from_loop] in E. destruct (c_nodes_in _ _ _ _ _ El In') as (st & la & Iq).
    rewrite (load_cnode_is _ _ _ _ _ _ _ H Iq) in E. cbn [bind] in E. unfold c_frame in E.
    assert (Iq' : In q cl) by (rewrite El; apply in_elt).
    destruct (cn_frame (c_node q)) as [f|] eqn:F; [|discriminate E].
    destruct (c_frames_in _ _ _ _ Iq' If F) as (If1 & _).
    rewrite (load_cframe_is _ _ _ _ _ _ _ _ H If1) in E. cbn [bind deref] in E.
    destruct (strncmp_eq 4 (cf_id f) _) as [b| | |] eqn:M; cbn [bind] in E; try discriminate E.
    rewrite <- L in M. apply (strncmp_begins _ _ _ _ N) in M.
    assert (B : c_begins (lit s) b q) by (exists f; auto). destruct b.
    + injection E as <-. exists [], q, s2. auto.
    + destruct (IH (s1 ++ [q]) fuel) as (u & q' & w & -> & U & B' & ->); [now rewrite <- app_assoc|exact E|].
      exists (q :: u), q', w. auto.
Qed.

Lemma cells_inj s : forall s', cells s = cells s' -> s = s'.
Proof. induction s as [|x s IH]; intros [|y s'] E; try discriminate; [reflexivity|]. injection E as -> E. f_equal. now apply IH. Qed.

Lemma ccall_known c : exists s, In s known_ids /\ ccall_id c = lit s.
Proof. destruct c; eexists; (split; [|reflexivity]); cbn; tauto. Qed.

Lemma set_pointers h a c R cc h' s p : ctag_at h a c R -> run_ccall_h cc (Some a) h = Ok h' -> In s v1_ids ->
  get_compat_h (Some a) (clit s) h = Ok (Some p) ->
  (lit s = ccall_id cc -> load (Some p) h' = Ub UseAfterFree)
  /\ (lit s <> ccall_id cc -> load (Some p) h' = load (Some p) h).
Proof.
  intros (pl & cl & T) Er I Eg. assert (T0 := run_ccall_is _ _ _ _ _ _ cc T). rewrite Er in T0.
  apply agrees_inv in T0 as (c' & _ & pl' & cl' & u & q & w & x & T' & E1 & E2 & B & Bx & U & A & G1 & G2 & _).
  destruct (laid_parts _ _ _ _ _ _ T) as (m & r & hd & ia & H & It & In' & If & L & _).
  destruct (laid_parts _ _ _ _ _ _ T') as (m' & r' & hd' & ia' & H' & It' & In'' & If' & L' & _).
  unfold get_compat_h in Eg. rewrite (load_ctag_is _ _ _ _ _ _ _ H It) in Eg. cbn [bind] in Eg. unfold get_from_list_h in Eg.
  destruct (get_first h m s cl p I H In' If cl [] _ eq_refl Eg) as (u0 & q0 & w0 & E0 & U0 & B0 & ->).
  split; intros Es.
  - rewrite <- Es in *. assert (X : forall y, c_begins (lit s) false y -> c_begins (lit s) true y -> False).
    { intros y (g & F & Y) (g' & F' & Y'). congruence. }
    rewrite E1 in E0. destruct (first_unique _ _ X _ _ _ _ _ _ E0 U B U0 B0) as (_ & <- & _).
    apply (load_gone h' (live h')); [|exact G1]. destruct H' as (P & D & Bo). apply Permutation_sym in P. split; [reflexivity|].
    split; [eapply Permutation_NoDup; [apply Permutation_map; exact P|exact D]|eapply Permutation_Forall; [apply Permutation_map; exact P|exact Bo]].
  - assert (Nq : q0 <> q).
    { intros ->. apply Es. destruct B as (g & F & Y), B0 as (g' & F' & Y'). rewrite F in F'. injection F' as <-.
      destruct (ccall_known cc) as (s' & I' & Es'). rewrite Es' in *.
      destruct (known_id s I) as (Ls & _), (known_id s' I') as (Ls' & _).
      apply begins_cut in Y, Y'. rewrite Ls in Y'. rewrite Ls' in Y. apply cells_inj. congruence. }
    destruct B0 as (g & F & _).
    assert (I0 : In q0 cl) by (rewrite E0; apply in_elt).
    assert (I1 : In q0 cl').
    { rewrite E1 in I0. rewrite E2. apply in_app_or in I0 as [I0|[I0|I0]]; apply in_or_app; [now left| |right; now right].
      now destruct Nq. }
    destruct (c_frames_in _ _ _ _ I0 If F) as (J & _), (c_frames_in _ _ _ _ I1 If' F) as (J' & _).
    now rewrite (load_is _ _ _ _ H J), (load_is _ _ _ _ H' J').
Qed.

Lemma freed_end h a c R h' : ctag_at h a c R -> free_tag_h (Some a) h = Ok h' ->
  free_tag_h (Some a) h' = Ub UseAfterFree /\ (forall f, set_tag_h f (Some a) h' = Ub UseAfterFree)
  /\ (forall id, get_compat_h (Some a) id h' = Ub UseAfterFree).
Proof.
  intros (pl & cl & T) E. assert (F := free_tag_is _ _ _ _ _ _ T). rewrite E in F. apply agrees_inv in F as ([] & _ & lost & H' & _ & F).
  destruct (laid_parts _ _ _ _ _ _ T) as (m & r & hd & ia & H & It & _).
  specialize (F a _ (load_is _ _ _ _ H It)). cbv iota in F.
  assert (G : load (Some a) h' = Ub UseAfterFree).
  { apply F. destruct T as (ia' & ah & ar & (th & head & Hm & _) & _). unfold compat_blocks in Hm. cbn [app] in Hm.
    apply (heap_perm _ _ ((a, BCTag match ct_raw c with Some _ => Some (Some ar) | None => None end (Some ah) (c_first cl) (Some ia'))
       :: tag_blocks ia' th head (ct_tag c) pl ++ (ah, BCHeader (ct_header c)) :: (match ct_raw c with Some m => [(ar, BBytes m)] | None => [] end ++ c_nodes cl ++ flat_map c_frame_blocks cl) ++ R)) in Hm; [|perm].
    apply heap_disjoint in Hm. intros J. apply Hm. rewrite map_app, in_app_iff. right. right. rewrite map_app, in_app_iff. now right. }
  unfold free_tag_h, set_tag_h, get_compat_h, load_ctag. rewrite G. repeat split.
Qed.

(** ** Contents *)

Lemma frame_at_is l : forall e n, NoDup (addresses l) -> In n l -> n_frame n = Some e -> frame_at l (fp_addr e) = Ok (fp_frame e).
Proof.
  induction l as [|x l IH]; intros e n D I F; [destruct I|]. cbn [frame_at]. unfold addresses in D. cbn [flat_map] in D.
  destruct I as [->|I].
  - now rewrite F, Nat.eqb_refl.
  - destruct (n_frame x) as [ex|] eqn:Fx; [|now apply (IH e n)]. cbn [app] in D. inversion D as [|? ? N D']; subst.
    destruct (Nat.eqb (fp_addr ex) (fp_addr e)) eqn:X; [|now apply (IH e n)].
    apply Nat.eqb_eq in X. destruct N. rewrite X. apply in_flat_map. exists n. split; [exact I|]. rewrite F. now left.
Qed.

Lemma pointed h a c pl cl R q f : ctag_laid h a c pl cl R -> In q cl -> cn_frame (c_node q) = Some f ->
  exists l g M, frame_at (t_frames (ct_tag c)) (cf_frame f) = Ok g /\ heap_is h (R ++ M) /\ incl (frame_blocks l g) M
    /\ In (c_self q, BCFrame (cf_id f) (cf_size f) (cf_flags f) (Some (c_data q)) (Some (l_self l))) M
    /\ forall h' R', heap_is h' (R' ++ M) -> ctag_laid h' a c pl cl R'.
Proof.
  intros (ia & ah & ar & (th & head & H & X) & Y) I F.
  assert (Y0 := Y). destruct Y0 as (_ & _ & K & _).
  assert (G : exists x, In x pl /\ linked x q).
  { clear -K I. induction K as [|x y pl cl L K IH]; [destruct I|]. destruct I as [->|I]; [exists x; split; [now left|exact L]|].
    destruct (IH I) as (z & Iz & Lz). exists z. split; [now right|exact Lz]. }
  destruct G as (x & Ix & L). unfold linked in L. rewrite F in L. destruct (n_frame (p_node x)) as [e|] eqn:Fe; [|destruct L].
  destruct L as (Ea & Ep & _). exists (p_lay x), (fp_frame e), (tag_blocks ia th head (ct_tag c) pl ++ compat_blocks a ah ar ia c cl).
  split; [|split; [|split; [|split]]].
  - destruct X as (Et & _ & _ & D & _). rewrite Ea. apply (frame_at_is _ e (p_node x)); [exact D| |exact Fe]. rewrite Et. now apply in_map.
  - refine (heap_perm _ _ _ H _). perm.
  - intros z Iz. unfold tag_blocks. rewrite !in_app_iff. left. right. right. apply in_flat_map. exists x. split; [exact Ix|].
    unfold p_frame_blocks. now rewrite Fe.
  - rewrite <- Ep. apply (c_frames_in cl); [exact I| |exact F]. intros z Iz. unfold compat_blocks. rewrite !in_app_iff. cbn [In]. rewrite !in_app_iff. tauto.
  - intros h' R' H'. exists ia, ah, ar. split; [|exact Y]. exists th, head. split; [|exact X]. refine (heap_perm _ _ _ H' _). perm.
Qed.

Lemma of_tag_is h R M x b : heap_is h (R ++ M) -> In (x, b) M -> of_tag h R x b.
Proof.
  intros H I. split; [apply (load_is _ _ _ _ H); apply in_or_app; now right|].
  destruct H as (_ & D & _). rewrite map_app in D. intros J. apply (in_map fst) in I. cbn [fst] in I. revert D J I.
  generalize (map fst R), (map fst M). clear. intros l l'. induction l as [|y l IH]; [intros _ []|].
  cbn [app]. intros D [->|J] I; inversion D as [|? ? N D']; subst; [apply N, in_or_app; now right|auto].
Qed.

Lemma text_content_is h a c pl cl R f p : ctag_laid h a c pl cl R -> c_pointer cl f p ->
  agrees (text_copied a c pl cl R) (parse_text_frame_content (t_frames (ct_tag c)) f) (parse_text_frame_content_h p h).
Proof.
  intros T P. destruct f as [f|]; cbn [c_pointer] in P; [|subst p; reflexivity]. destruct P as (q & I & F & ->).
  destruct (pointed _ _ _ _ _ _ _ _ T I F) as (l & g & M & Ea & H & If & Ic & Back).
  unfold parse_text_frame_content, parse_text_frame_content_h. cbn [deref bind]. rewrite Ea. cbn [bind].
  rewrite (load_cframe_is _ _ _ _ _ _ _ _ H (in_or_app _ _ _ (or_intror Ic))). cbn [bind]. unfold text_data.
  assert (J : forall z, In z (frame_blocks l g) -> In z (R ++ M)) by (intros z Iz; apply in_or_app; right; now apply If).
  unfold frame_blocks in J. unfold load_frame. rewrite (load_is _ _ _ _ H (J _ (or_introl eq_refl))). cbn [bind].
  destruct (f_data g) as [d|d|d|d].
  all: erewrite (load_is h _ (l_data l)) by (try exact H; apply J; right; right; now left); cbn [bind]; try reflexivity.
  erewrite (load_bytes_is h _ (l_x l)) by (try exact H; apply J; right; right; right; now left). cbn [bind].
  apply agrees_same. intros data _. 
  destruct (malloc_is _ _ (BBytes data) H) as (h1 & -> & H1 & _).
  destruct (malloc_is _ _ (BTextContent (td_size d) (td_encoding d) (Some (next h))) H1) as (h2 & -> & H2 & _).
  apply agrees_ok. exists (next h). cbn [fst snd tc_size tc_encoding tc_data]. apply Back. exact H2.
Qed.

Lemma comment_content_is h a c pl cl R f p : ctag_laid h a c pl cl R -> c_pointer cl f p ->
  agrees (comment_shared a c pl cl R) (parse_comment_frame_content (t_frames (ct_tag c)) f) (parse_comment_frame_content_h p h).
Proof.
  intros T P. destruct f as [f|]; cbn [c_pointer] in P; [|subst p; reflexivity]. destruct P as (q & I & F & ->).
  destruct (pointed _ _ _ _ _ _ _ _ T I F) as (l & g & M & Ea & H & If & Ic & Back).
  unfold parse_comment_frame_content, parse_comment_frame_content_h. cbn [deref bind]. rewrite Ea. cbn [bind].
  rewrite (load_cframe_is _ _ _ _ _ _ _ _ H (in_or_app _ _ _ (or_intror Ic))). cbn [bind]. unfold comment_data, data_of.
  assert (J : forall z, In z (frame_blocks l g) -> In z (R ++ M)) by (intros z Iz; apply in_or_app; right; now apply If).
  unfold frame_blocks in J, If. unfold load_frame. rewrite (load_is _ _ _ _ H (J _ (or_introl eq_refl))). cbn [bind].
  destruct (f_data g) as [d|d|d|d].
  all: erewrite (load_is h _ (l_data l)) by (try exact H; apply J; right; right; now left); cbn [bind]; try reflexivity.
  destruct (malloc_is _ _ (BTextContent (cd_size d) (cd_encoding d) (Some (l_y l))) H) as (h1 & -> & H1 & _).
  destruct (malloc_is _ _ (BCommentContent (Some (l_data l)) (Some (l_x l)) (Some (next h))) H1) as (h2 & -> & H2 & _).
  apply agrees_ok. exists (l_data l), (l_x l), (next h), (l_y l). cbn [fst snd cc_text cc_short cc_language tc_size tc_encoding tc_data].
  rewrite !app_comm_cons in H2. split; [apply Back; exact H2|]. split; [|split].
  - eexists _, _, _, _. eapply of_tag_is; [exact H2|]. apply If. right. right. now left.
  - eapply of_tag_is; [exact H2|]. apply If. do 3 right. now left.
  - eapply of_tag_is; [exact H2|]. apply If. do 4 right. now left.
Qed.

Lemma apic_content_is h a c pl cl R f p : ctag_laid h a c pl cl R -> c_pointer cl f p ->
  agrees (apic_shared a c pl cl R) (parse_apic_frame_content (t_frames (ct_tag c)) f) (parse_apic_frame_content_h p h).
Proof.
  intros T P. destruct f as [f|]; cbn [c_pointer] in P; [|subst p; reflexivity]. destruct P as (q & I & F & ->).
  destruct (pointed _ _ _ _ _ _ _ _ T I F) as (l & g & M & Ea & H & If & Ic & Back).
  unfold parse_apic_frame_content, parse_apic_frame_content_h. cbn [deref bind]. rewrite Ea. cbn [bind].
  rewrite (load_cframe_is _ _ _ _ _ _ _ _ H (in_or_app _ _ _ (or_intror Ic))). cbn [bind]. unfold apic_data.
  assert (J : forall z, In z (frame_blocks l g) -> In z (R ++ M)) by (intros z Iz; apply in_or_app; right; now apply If).
  unfold frame_blocks in J, If. unfold load_frame. rewrite (load_is _ _ _ _ H (J _ (or_introl eq_refl))). cbn [bind].
  destruct (f_data g) as [d|d|d|d].
  all: erewrite (load_is h _ (l_data l)) by (try exact H; apply J; right; right; now left); cbn [bind]; try reflexivity.
  destruct (malloc_is _ _ (BApicContent (ad_encoding d) (Some (l_x l)) (ad_type d) (Some (l_y l)) (ad_picture_size d) (Some (l_z l))) H) as (h1 & -> & H1 & _).
  apply agrees_ok. exists (l_x l), (l_y l), (l_z l). cbn [fst snd ac_encoding ac_mime ac_type ac_desc ac_size ac_data].
  rewrite !app_comm_cons in H1. split; [apply Back; exact H1|]. split; [|split].
  - eapply of_tag_is; [exact H1|]. apply If. do 3 right. now left.
  - eapply of_tag_is; [exact H1|]. apply If. do 4 right. now left.
  - eapply of_tag_is; [exact H1|]. apply If. do 5 right. now left.
Qed.

Lemma freed_parts h a c pl cl R h' : ctag_laid h a c pl cl R -> free_tag_h (Some a) h = Ok h' ->
  (forall x b, In (x, b) R -> load (Some x) h' = Ok b)
  /\ forall x b, of_tag h R x b -> match b with BFrame _ _ => True | _ => load (Some x) h' = Ub UseAfterFree end.
Proof.
  intros T E. assert (F := free_tag_is _ _ _ _ _ _ T). rewrite E in F. apply agrees_inv in F as ([] & _ & lost & H' & _ & F). split.
  - intros x b I. apply (load_is _ _ _ _ H'). apply in_or_app. now right.
  - intros x b (L & N). now apply F.
Qed.

Lemma text_end a c pl cl R v p h h' : text_copied a c pl cl R v (p, h) -> free_tag_h (Some a) h = Ok h' -> text_stays h' p v.
Proof.
  intros (d & T) E. cbn [fst snd] in T. destruct (freed_parts _ _ _ _ _ _ _ T E) as (K & _).
  exists d. split; apply K; [now left|right; now left].
Qed.

Lemma comment_end a c pl cl R v p h h' : comment_shared a c pl cl R v (p, h) -> free_tag_h (Some a) h = Ok h' -> comment_dangles h' p.
Proof.
  intros (la & sh & t & d & T & (s & e & x & y & O1) & O2 & O3) E. cbn [fst snd] in *.
  destruct (freed_parts _ _ _ _ _ _ _ T E) as (K & G).
  exists la, sh, t, (tc_size (cc_text v)), (tc_encoding (cc_text v)), d.
  split; [apply K; now left|]. split; [apply K; right; now left|].
  split; [exact (G _ _ O1)|]. split; [exact (G _ _ O2)|exact (G _ _ O3)].
Qed.

Lemma apic_end a c pl cl R v p h h' : apic_shared a c pl cl R v (p, h) -> free_tag_h (Some a) h = Ok h' -> apic_dangles h' p.
Proof.
  intros (m & d & b & T & O1 & O2 & O3) E. cbn [fst snd] in *.
  destruct (freed_parts _ _ _ _ _ _ _ T E) as (K & G).
  exists (ac_encoding v), m, (ac_type v), d, (ac_size v), b.
  split; [apply K; now left|]. split; [exact (G _ _ O1)|]. split; [exact (G _ _ O2)|exact (G _ _ O3)].
Qed.

Lemma new_freed h m : heap_is h m -> exists a h', new_tag_h h = (a, h') /\ ctag_at h' a new_tag m
  /\ free_tag_h (Some a) h' = Ub UninitRead.
Proof.
  intros H. destruct (new_tag_is h m H) as (a & h' & E & pl & cl & T). exists a, h'. split; [exact E|]. split; [exists pl, cl; exact T|].
  exact (free_tag_is _ _ _ _ _ _ T).
Qed.

Lemma remove_tag_is h m f : heap_is h m ->
  agrees (fun v r => v = fst r /\ heap_is (snd r) m) (ID3v2_delete_tag_states f) (remove_tag_h f h).
Proof. exact (delete_tag_is h m f). Qed.
