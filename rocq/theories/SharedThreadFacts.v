(** Threads with requests on one tag. *)
From Verif Require Import BaseFacts Spec ListFacts FrameFacts EditFacts HeapFacts HeapFrameFacts HeapListFacts HeapTagFacts SpecShared SharedFacts SharedRunFacts SharedSameFacts SharedLikeFacts SharedLogFacts SharedChangeFacts SharedWalkFacts SharedTagFacts SharedOpFacts SharedSaveFacts SharedTableFacts.
From Coq Require Import Lia.

Lemma sane_list pl : Forall sane (fof pl) -> pl_sane pl.
Proof.
  intros S p e I F. rewrite Forall_forall in S. apply S. unfold fof. apply in_map_iff. exists (p_lay p, e). split; [reflexivity|].
  unfold listed. apply in_flat_map. exists p. split; [exact I|]. rewrite F. now left.
Qed.
Lemma kinds_list pl : Forall kind_ok (fof pl) -> kinds_ok (map p_node pl).
Proof.
  intros S. unfold kinds_ok. rewrite Forall_map, Forall_forall. intros p I. destruct (n_frame (p_node p)) as [e|] eqn:F; [|exact Logic.I].
  rewrite Forall_forall in S. apply S. unfold fof. apply in_map_iff. exists (p_lay p, e). split; [reflexivity|].
  unfold listed. apply in_flat_map. exists p. split; [exact I|]. rewrite F. now left.
Qed.
Lemma ptrs_frames pl : map snd (ptrs_of pl) = fof pl.
Proof. unfold ptrs_of, fof. now rewrite map_map. Qed.
Lemma ptrs_flat pl : flat_map (fun q => match n_frame (p_node q) with Some e => [(l_self (p_lay q), fp_frame e)] | None => [] end) pl = ptrs_of pl.
Proof.
  unfold ptrs_of. induction pl as [|p pl IH]; [reflexivity|]. rewrite listed_cons. cbn [flat_map]. rewrite IH, map_app. now destruct (n_frame (p_node p)).
Qed.
Lemma list_good ps pl : list_of ps = map p_node pl -> good pl.
Proof.
  destruct ps as [|p ps]; cbn [list_of]; intros E.
  - destruct pl as [|q [|r pl]]; try discriminate E. injection E as E. left. exists q. split; [reflexivity|now symmetry].
  - right. split; [intros ->; discriminate E|]. intros q I. apply (in_map p_node) in I. rewrite <- E in I. apply (in_map_iff (fun p => mkNode (Some p) true) (p :: ps)) in I.
    destruct I as (x & <- & _). eauto.
Qed.

(** The tag, as each thread finds it. *)
Lemma placed {A} (w : world A) a t ps : apart w -> pointers (snd (start w O)) a t ps -> Forall sane (map snd ps) -> Forall kind_ok (map snd ps) ->
  exists ah head pd th rest pl, good pl /\ ptrs_of pl = ps /\ (forall i, in_tag a ah head pd th rest (snd (start w i)) pl [])
    /\ (length pl <= S (length ps))%nat /\ olds (map fst (fst w)) a ah head pd th rest pl
    /\ NoDup (map fst (node_blocks head pl ++ all_frame_blocks pl ++ (a, BTag (Some ah) (Some head) pd) :: (ah, BTagHeader th) :: rest))
    /\ t_header t = th /\ t_padding t = pd /\ t_frames t = map p_node pl.
Proof.
  intros (Dw & Bw & _) (Th & pl & rest & (ah & head & H & Ef & Fa & _) & Fl) S K.
  rewrite ptrs_flat in Fl. subst ps. rewrite ptrs_frames in S, K.
  destruct Th as (fps & El & _). rewrite Ef in El. symmetry in El. apply list_good in El as G.
  assert (P : Permutation (fst w) (node_blocks head pl ++ all_frame_blocks pl ++ (a, BTag (Some ah) (Some head) (t_padding t)) :: (ah, BTagHeader (t_header t)) :: rest)).
  { destruct H as (P & _). cbn [start snd live] in P. etransitivity; [exact P|]. unfold tag_blocks. perm. }
  exists ah, head, (t_padding t), (t_header t), rest, pl.
  assert (Dp : NoDup (map fst (node_blocks head pl ++ all_frame_blocks pl ++ (a, BTag (Some ah) (Some head) (t_padding t)) :: (ah, BTagHeader (t_header t)) :: rest))).
  { eapply Permutation_NoDup; [apply Permutation_map; exact P|exact Dw]. }
  split; [exact G|]. split; [reflexivity|]. split; [|split; [|split; [|split; [exact Dp|auto]]]].
  - intros i. split; [|split; [exact Fa|split; [now apply sane_list|now apply kinds_list]]]. split; [exact P|]. split; [exact Dp|].
    eapply Permutation_Forall; [apply Permutation_map; exact P|apply Bw].
  - destruct (good_cases pl G) as [(p & -> & _ & _)|(Fu & _)]; [cbn; lia|]. unfold ptrs_of. rewrite map_length, listed_length by auto. lia.
  - intros x. split; intros I; (eapply Permutation_in; [|exact I]); apply Permutation_map; [exact P|symmetry; exact P].
Qed.

(** What one request does, alone. *)
Lemma request_does a ah head pd th rest pl old h n t r o : in_tag a ah head pd th rest h pl [] -> olds old a ah head pd th rest pl -> good pl ->
  (S (length pl) < n)%nat -> t_header t = th -> t_padding t = pd -> t_frames t = map p_node pl -> asks a t (ptrs_of pl) r o ->
  exists l h', does (request_p n r) h l (answer (ptrs_of pl) o) h' /\ accesses a ah pl old o l
    /\ (reads_only o = true -> in_tag a ah head pd th rest h' pl []).
Proof.
  intros T O G L Eh Ep Ef A. destruct A as [arg id P L4|arg id P L4|k p f d Nk Df|c e M Ok Dl| |f f' t' Ew].
  - assert (E : Found (get_ptr id pl) = answer (ptrs_of pl) (OGet id)).
    { cbn [answer]. f_equal. destruct (good_cases pl G) as [(p & -> & Np & _)|(Fu & _)].
      - cbn [get_ptr]. rewrite Np. unfold ptrs_of. rewrite listed_cons, Np. reflexivity.
      - clear -Fu. induction pl as [|p pl IH]; [reflexivity|]. apply full_cons in Fu as ((e & Ep) & Fu). unfold ptrs_of in *. rewrite listed_cons, Ep.
        cbn [get_ptr]. rewrite Ep. cbn [n_frame app map find fst snd]. destruct (named id (fp_frame e)); [reflexivity|auto]. }
    exists (Reads a TagFrames :: get_log id pl), h. rewrite <- E. split; [apply (get_does a ah head pd th rest); auto; lia|]. split; [reflexivity|]. intros _. exact T.
  - destruct (all_leads old a ah head pd th rest h pl n arg id T O G P L4 L) as (l & x & h' & Do & Se & R & -> & T').
    assert (E : FoundAll (map (fun x => Some (l_self (fst x))) (filter (wanted id) (listed pl))) = answer (ptrs_of pl) (OGetAll id)).
    { cbn [answer]. f_equal. unfold ptrs_of. clear. induction (listed pl) as [|x l IH]; [reflexivity|]. cbn [map filter]. unfold wanted at 1. cbn [fst snd].
      destruct (named id (fp_frame (snd x))); cbn [map fst]; now rewrite IH. }
    exists l, h'. rewrite <- E. split; [exact Do|]. split; [split; [exact Se|exact R]|]. intros _. exact T'.
  - unfold ptrs_of in Nk. rewrite nth_error_map in Nk. destruct (nth_error (listed pl) k) as [[la e]|] eqn:Nl; [|discriminate Nk]. injection Nk as <- <-. cbn [fst snd] in *.
    assert (exists q, nth_error pl k = Some q /\ n_frame (p_node q) = Some e /\ p_lay q = la) as (q & Nq & Fq & Lq).
    { destruct (good_cases pl G) as [(p & -> & Np & _)|(Fu & _)]; [rewrite listed_cons, Np in Nl; now destruct k|].
      clear -Fu Nl. revert k Nl. induction pl as [|p pl IH]; intros k Nl; [now destruct k|]. apply full_cons in Fu as ((x & Ep) & Fu). rewrite listed_cons, Ep in Nl.
      cbn [n_frame app] in Nl. destruct k as [|k]; [injection Nl as <- <-; exists p; now rewrite Ep|]. now apply IH. }
    assert (E : TextIs (td_text d) = answer (ptrs_of pl) (OText k)).
    { cbn [answer]. unfold ptrs_of. rewrite nth_error_map, Nl. cbn [option_map fst snd]. destruct (fp_frame e) as [hd da]. cbn in Df. now rewrite Df. }
    subst la. assert (Iq : In q pl) by now apply nth_error_In in Nq.
    eexists _, h. rewrite <- E. split; [eapply (text_does a ah head pd th rest h pl [] n q e d T Iq Fq Df)|]. split; [exists q, e, d; auto|].
    intros _. exact T.
  - rewrite ptrs_frames in Dl. destruct (edit_leads old a ah head pd th rest h pl n c e T O G M Ok Dl L) as (W & Sh & Le).
    destruct Le as (l & x & h' & (Er & El) & Se & R & _). exists l, h'. split.
    { cbn [request_p]. rewrite <- (app_nil_r l). eapply d_bind; [split; [exact Er|exact El]|apply d_ret]. }
    split; [|discriminate]. exists W. auto.
  - destruct (free_leads old a ah head pd th rest h pl n T ltac:(lia)) as (l & x & h' & Do & Se & _ & ->). exists l, h'. split; [exact Do|]. split; [exact Se|discriminate].
  - pose proof (save_does a ah head pd th rest old h pl t n f T (old_a a ah head pd th rest pl old O) G Eh Ef Ep ltac:(lia)) as S. rewrite Ew in S.
    destruct S as (l & h' & pd' & Do & Se & R & _). exists l, h'. split.
    { cbn [request_p]. rewrite <- (app_nil_r l). eapply d_bind; [exact Do|apply d_ret]. }
    split; [split; [exact Se|exact R]|discriminate].
Qed.

Lemma request_unpadded a t ps n r o h : asks a t ps r o -> unpadded o (log (request_p n r) h).
Proof.
  intros A. assert (N : match o with OSave _ => True | _ => forall tag f, r <> Save tag f end) by (destruct A; try exact I; discriminate).
  destruct o; try exact I; cbn [unpadded]; apply a_log, a_request, N.
Qed.

(** ** The programs are the functions of Heap.v *)

Lemma run_comes {A} (p : prog A) h : comes_to (p, h) (run p h).
Proof.
  pose proof (run_ends p h) as E. destruct (run p h) as [[x h']|u|n|] eqn:R; cbn [comes_to]; try exact E. now apply run_heap.
Qed.
Lemma like_comes {A} (P : nat -> prog A) F h : like P F -> F h <> NoFuel -> exists n0, forall n, (n0 <= n)%nat -> comes_to (P n, h) (F h).
Proof. intros L N. destruct (L h N) as (n0 & E). exists n0. intros n Le. rewrite <- (E n Le). apply run_comes. Qed.

Lemma same_call tag c h : run_call_h tag c h <> NoFuel ->
  exists n0, forall n, (n0 <= n)%nat -> comes_to (run_call_p n tag c, h) (let* h' := run_call_h tag c h in Ok (tt, h')).
Proof. intros N. apply (like_comes (fun n => run_call_p n tag c) (fun h => let* h' := run_call_h tag c h in Ok (tt, h'))); [apply l_run_call|]. now destruct (run_call_h tag c h). Qed.
Lemma same_free tag h : ID3v2_Tag_free tag h <> NoFuel ->
  exists n0, forall n, (n0 <= n)%nat -> comes_to (ID3v2_Tag_free_p n tag, h) (let* h' := ID3v2_Tag_free tag h in Ok (tt, h')).
Proof. intros N. apply (like_comes (fun n => ID3v2_Tag_free_p n tag) (fun h => let* h' := ID3v2_Tag_free tag h in Ok (tt, h'))); [apply l_Tag_free|]. now destruct (ID3v2_Tag_free tag h). Qed.
Lemma same_get tag id h : ID3v2_Tag_get_frame_h tag id h <> NoFuel ->
  exists n0, forall n, (n0 <= n)%nat -> comes_to (ID3v2_Tag_get_frame_p n tag id, h) (let* p := ID3v2_Tag_get_frame_h tag id h in Ok (p, h)).
Proof. intros N. apply (like_comes (fun n => ID3v2_Tag_get_frame_p n tag id) (fun h => let* p := ID3v2_Tag_get_frame_h tag id h in Ok (p, h))); [apply l_get|]. now destruct (ID3v2_Tag_get_frame_h tag id h). Qed.
Lemma same_all tag id h : ID3v2_Tag_get_frames_h tag id h <> NoFuel ->
  exists n0, forall n, (n0 <= n)%nat -> comes_to (ID3v2_Tag_get_frames_p n tag id, h) (ID3v2_Tag_get_frames_h tag id h).
Proof. intros N. apply (like_comes (fun n => ID3v2_Tag_get_frames_p n tag id) (ID3v2_Tag_get_frames_h tag id)); [apply l_get_all|exact N]. Qed.

(** ** Any threads *)

Lemma race_exactly {A} (w : world A) : apart w -> (forall i, fine (start w i)) ->
  can_race w <-> exists i j x y, i <> j /\ touches (start w i) x /\ touches (start w j) y /\ clash x y.
Proof. intros S F. exact (race_iff w S F). Qed.

Lemma quiet_alone {A} (w : world A) : apart w -> (forall i, fine (start w i)) ->
  (forall i j x y, i <> j -> touches (start w i) x -> touches (start w j) y -> ~ clash x y) ->
  forall s i, of_thread (turns w s) i = fst (alone (turns_of i s) (start w i)).
Proof.
  intros S F N s i. refine (proj1 (as_if_alone w S F _ s i)). intros (i' & j & x & y & Ne & Tx & Ty & C). exact (N i' j x y Ne Tx Ty C).
Qed.
Lemma quiet_memory {A} (w : world A) : apart w -> (forall i, fine (start w i)) ->
  (forall i j x y, i <> j -> touches (start w i) x -> touches (start w j) y -> ~ clash x y) ->
  forall s i a f, (forall j, j <> i -> ~ allocates (start w j) a) -> (forall j x, j <> i -> touches (start w j) x -> ~ changes x a f) ->
  cell (fst (turns w s)) a f = cell (live (snd (alone (turns_of i s) (start w i)))) a f.
Proof.
  intros S F N. apply (memory w S F). intros (i' & j & x & y & Ne & Tx & Ty & C). exact (N i' j x y Ne Tx Ty C).
Qed.

(** ** One request each *)

Section One.
  Variables (w : world reply) (a : nat) (t : Tag) (ps : list (nat * frame)) (n : nat) (os : nat -> option op).
  Hypothesis sep : apart w.
  Hypothesis there : pointers (snd (start w O)) a t ps.
  Hypothesis sn : Forall sane (map snd ps).
  Hypothesis kn : Forall kind_ok (map snd ps).
  Hypothesis enough : (length ps + 3 <= n)%nat.
  Hypothesis ask : each_asks n a t ps w os.

  Lemma table_clashing : (forall i, fine (start w i)) /\ (clashing w <-> exists i j o o', i <> j /\ os i = Some o /\ os j = Some o' /\ conflict (map snd ps) o o').
  Proof.
    destruct (placed w a t ps sep there sn kn) as (ah & head & pd & th & rest & pl & G & Ep & T & L & O & D & Eh & Epd & Ef').
    assert (Ef : map snd ps = fof pl) by (rewrite <- Ep; apply ptrs_frames). rewrite Ef.
    set (old := map fst (fst w)) in *.
    assert (Al : forall i, match os i with
        | Some o => exists l, accesses a ah pl old o l /\ unpadded o l /\ fine (start w i) /\ forall x, touches (start w i) x <-> In x l
        | None => fine (start w i) /\ forall x, ~ touches (start w i) x end).
    { intros i. specialize (ask i). unfold of_thread in ask. destruct (os i) as [o|].
      - destruct ask as (r & A & E). rewrite <- Ep in A.
        destruct (request_does a ah head pd th rest pl old (snd (start w i)) n t r o (T i) O G ltac:(lia) Eh Epd Ef' A) as (l & h' & (Er & El) & Ac & _).
        exists l. unfold start in *. cbn [snd] in *. rewrite E. split; [exact Ac|]. split; [rewrite <- El; eapply request_unpadded; exact A|]. split; [eapply run_fine; exact Er|]. intros y. rewrite touches_log, El. tauto.
      - destruct ask as (x & E). unfold start. rewrite E. split; [|intros y; apply touches_stop].
        intros k u. rewrite alone_stop. discriminate. }
    assert (F : forall i, fine (start w i)).
    { intros i. specialize (Al i). destruct (os i) as [o|]; [destruct Al as (l & _ & _ & F & _); exact F|apply Al]. }
    split; [exact F|]. split.
    - intros (i & j & x & y & N & Tx & Ty & C). pose proof (clash_old w sep F i j x y N Tx Ty C) as I.
      pose proof (Al i) as Ai. pose proof (Al j) as Aj.
      destruct (os i) as [o|] eqn:Ei; [|destruct Ai as (_ & Ai); now apply Ai in Tx]. destruct (os j) as [o'|] eqn:Ej; [|destruct Aj as (_ & Aj); now apply Aj in Ty].
      destruct Ai as (l & A & U & _ & Ti). destruct Aj as (l' & A' & U' & _ & Tj). exists i, j, o, o'. repeat split; auto.
      apply (meet_iff a ah head pd th rest pl old O D G o o' l l' A U A' U'). exists x, y. repeat split; auto; [now apply Ti|now apply Tj].
    - intros (i & j & o & o' & N & Ei & Ej & C). pose proof (Al i) as Ai. pose proof (Al j) as Aj. rewrite Ei in Ai. rewrite Ej in Aj.
      destruct Ai as (l & A & U & _ & Ti). destruct Aj as (l' & A' & U' & _ & Tj).
      apply (meet_iff a ah head pd th rest pl old O D G o o' l l' A U A' U') in C. destruct C as (x & y & Ix & Iy & C & _).
      exists i, j, x, y. repeat split; auto; [now apply Ti|now apply Tj].
  Qed.

  Theorem race_table : can_race w <-> exists i j o o', i <> j /\ os i = Some o /\ os j = Some o' /\ conflict (map snd ps) o o'.
  Proof. destruct table_clashing as (F & C). rewrite <- C. now apply race_iff. Qed.

  Theorem table_alone : (forall i j o o', i <> j -> os i = Some o -> os j = Some o' -> ~ conflict (map snd ps) o o') ->
    forall i, exists x m, match os i with Some o => x = answer ps o | None => of_thread w i = Stop (Ok x) end
      /\ ends (start w i) (Ok x) /\ forall schedule, (m <= turns_of i schedule)%nat -> of_thread (turns w schedule) i = Stop (Ok x).
  Proof.
    destruct table_clashing as (F & C). intros N i.
    assert (Q : ~ clashing w) by (rewrite C; intros (i' & j & o & o' & Ne & Ei & Ej & Cf); exact (N i' j o o' Ne Ei Ej Cf)).
    assert (E : exists x, match os i with Some o => x = answer ps o | None => of_thread w i = Stop (Ok x) end /\ ends (start w i) (Ok x)).
    { pose proof (ask i) as Ai. unfold of_thread in Ai. destruct (os i) as [o|].
      - destruct (placed w a t ps sep there sn kn) as (ah & head & pd & th & rest & pl & G & Ep & T & L & O & D & Eh & Epd & Ef'). destruct Ai as (r & A & E). rewrite <- Ep in A.
        destruct (request_does a ah head pd th rest pl _ (snd (start w i)) n t r o (T i) O G ltac:(lia) Eh Epd Ef' A) as (l & h' & (Er & El) & _).
        rewrite Ep in Er. exists (answer ps o). split; [reflexivity|]. pose proof (run_ends (request_p n r) (snd (start w i))) as En. rewrite Er in En. unfold start in *. cbn [snd] in *. rewrite E. exact En.
      - destruct Ai as (x & E). exists x. split; [exact E|]. exists O. cbn [alone start fst]. exact E. }
    destruct E as (x & Ex & m & Em). exists x, m. split; [exact Ex|]. split; [now exists m|]. intros s Le. destruct (as_if_alone w sep F Q s i) as (-> & _). eapply stopped; eauto.
  Qed.
End One.

(** ** Any number of requests, of which one thread may save *)

Definition olds_of (old : list nat) a ah head th rest pl : Prop := forall pd, olds old a ah head pd th rest pl.

Lemma listed_does a ah head th rest pl old n : olds_of old a ah head th rest pl -> good pl -> (S (length pl) < n)%nat ->
  forall t rs os, asks_all a (ptrs_of pl) t rs os -> forall h pd, t_header t = th -> t_padding t = pd -> t_frames t = map p_node pl -> in_tag a ah head pd th rest h pl [] ->
  exists l h', does (requests_p n rs) h l (map (answer (ptrs_of pl)) os) h' /\ (forall x, In x (filter (at_old old) l) -> x = Writes a TagPadding)
    /\ (forallb reads_only os = true -> filter (at_old old) l = [] /\ forall x, In x l -> ~ on_field TagPadding x).
Proof.
  intros O G L t rs os A. induction A as [t|t r o rs os A R _ IH|t f f' t' rs os E _ IH]; intros h pd Eh Ep Ef T.
  - exists [], h. split; [apply d_ret|]. split; [intros x []|]. intros _. split; [reflexivity|intros x []].
  - destruct (request_does a ah head pd th rest pl old h n t r o T (O pd) G L Eh Ep Ef A) as (l & h1 & Do & Ac & Re). specialize (Re R).
    destruct (IH h1 pd Eh Ep Ef Re) as (l2 & h2 & D2 & S2 & N2).
    assert (S1 : filter (at_old old) l = []).
    { destruct o as [id|id|k|e| |f]; try discriminate R; cbn [accesses] in Ac.
      - subst l. apply seen_reads. cbn [forallb is_read andb]. apply get_log_reads.
      - apply Ac.
      - destruct Ac as (q & y & d & _ & _ & _ & ->). reflexivity. }
    exists (l ++ l2 ++ []), h2. split; [cbn [requests_p map]; eapply d_bind; [exact Do|]; eapply d_bind; [exact D2|apply d_ret]|].
    rewrite app_nil_r, filter_app, S1. split; [exact S2|]. cbn [forallb]. rewrite R. intros N. destruct (N2 N) as (S2' & U2). split; [exact S2'|].
    intros x I. apply in_app_or in I as [I|I]; [|now apply U2]. destruct Do as (_ & El). rewrite <- El in I.
    pose proof (request_unpadded a t (ptrs_of pl) n r o h A) as U. destruct o; try discriminate R; exact (U x I).
  - pose proof (save_does a ah head pd th rest old h pl t n f T (old_a a ah head pd th rest pl old (O pd)) G Eh Ef Ep ltac:(lia)) as S. rewrite E in S.
    destruct S as (l & h1 & pd' & Do & Se & _ & Et & T1). injection Et as ->.
    destruct (IH h1 pd' eq_refl eq_refl Ef T1) as (l2 & h2 & D2 & S2 & _).
    exists ((l ++ []) ++ l2 ++ []), h2. split; [cbn [requests_p map]; eapply d_bind; [cbn [request_p]; eapply d_bind; [exact Do|apply d_ret]|]; eapply d_bind; [exact D2|apply d_ret]|].
    rewrite !app_nil_r, filter_app, Se. split; [|discriminate]. intros x [<-|I]; auto.
Qed.

Section OneSaver.
  Variables (w : world (list reply)) (a : nat) (t : Tag) (ps : list (nat * frame)) (n saver : nat) (rs : nat -> list request) (os : nat -> list op).
  Hypothesis sep : apart w.
  Hypothesis there : pointers (snd (start w O)) a t ps.
  Hypothesis sn : Forall sane (map snd ps).
  Hypothesis kn : Forall kind_ok (map snd ps).
  Hypothesis enough : (length ps + 3 <= n)%nat.
  Hypothesis ask : forall i, of_thread w i = requests_p n (rs i) /\ asks_all a ps t (rs i) (os i) /\ (i <> saver -> forallb reads_only (os i) = true).

  Lemma saver_quiet : (forall i, fine (start w i)) /\ ~ clashing w /\ forall i, ends (start w i) (Ok (map (answer ps) (os i))).
  Proof.
    destruct (placed w a t ps sep there sn kn) as (ah & head & pd & th & rest & pl & G & Ep & T & L & O & D & Eh & Epd & Ef). subst ps.
    set (old := map fst (fst w)) in *. assert (O' : olds_of old a ah head th rest pl) by (intros pd' x; specialize (O x); rewrite !map_app in *; exact O).
    assert (Al : forall i, fine (start w i) /\ ends (start w i) (Ok (map (answer (ptrs_of pl)) (os i)))
      /\ (forall x, touches (start w i) x -> In (acc_addr x) old -> (exists b f, x = Reads b f) \/ (i = saver /\ x = Writes a TagPadding))
      /\ (i <> saver -> forall x, touches (start w i) x -> ~ on_field TagPadding x)).
    { intros i. destruct (ask i) as (E & A & R). unfold of_thread in E.
      destruct (listed_does a ah head th rest pl old n O' G ltac:(lia) t (rs i) (os i) A _ pd Eh Epd Ef (T i)) as (l & h' & (Er & El) & Sw & Sr).
      unfold start in *. cbn [snd] in *. rewrite E. split; [eapply run_fine; exact Er|]. split.
      { pose proof (run_ends (requests_p n (rs i)) (mkHeap (fst w) (snd (snd w i)))) as En. rewrite Er in En. exact En. }
      split.
      - intros x Tx I. apply touches_log in Tx. rewrite El in Tx. destruct x as [b f|b f|b]; [eauto| |];
          (eapply in_seen in Tx; [|exact I|discriminate]; right; split; [|now apply Sw];
           destruct (Nat.eq_dec i saver) as [Y|Y]; [exact Y|]; rewrite (proj1 (Sr (R Y))) in Tx; destruct Tx).
      - intros Y x Tx. apply touches_log in Tx. rewrite El in Tx. apply (proj2 (Sr (R Y))). exact Tx. }
    split; [intros i; apply Al|]. split; [|intros i; apply Al].
    intros (i & j & x & y & N & Tx & Ty & C). pose proof (clash_old w sep (fun i => proj1 (Al i)) i j x y N Tx Ty C) as I.
    pose proof I as J. rewrite (clash_addr _ _ C) in J.
    destruct (Al i) as (_ & _ & Si & Ui). destruct (Al j) as (_ & _ & Sj & Uj).
    destruct (Si x Tx I) as [(b & f & ->)|(-> & ->)]; destruct (Sj y Ty J) as [(c & g & ->)|(-> & ->)].
    - exact C.
    - apply (Ui N _ Tx). cbn [clash on_field] in *. now destruct C.
    - apply (Uj (not_eq_sym N) _ Ty). cbn [clash on_field] in *. now destruct C.
    - now apply N.
  Qed.

  Theorem one_saver : ~ can_race w /\ forall i, exists m, forall schedule, (m <= turns_of i schedule)%nat ->
    of_thread (turns w schedule) i = Stop (Ok (map (answer ps) (os i))).
  Proof.
    destruct saver_quiet as (F & C & E). split.
    - intros R. now apply (race_iff w sep F) in R.
    - intros i. destruct (E i) as (m & Em). exists m. intros s Le. destruct (as_if_alone w sep F C s i) as (-> & _). eapply stopped; eauto.
  Qed.
End OneSaver.

Lemma reading_asks a t ps rs os : Forall2 (asks a t ps) rs os -> forallb reads_only os = true -> asks_all a ps t rs os.
Proof.
  induction 1 as [|r o rs os A _ IH]; intros R; [constructor|]. cbn [forallb] in R. apply andb_true_iff in R as (R1 & R2). constructor; auto.
Qed.

Theorem readers (w : world (list reply)) a t ps n rs os :
  apart w -> pointers (snd (start w O)) a t ps -> Forall sane (map snd ps) -> Forall kind_ok (map snd ps) -> (length ps + 3 <= n)%nat ->
  (forall i, of_thread w i = requests_p n (rs i) /\ Forall2 (asks a t ps) (rs i) (os i) /\ forallb reads_only (os i) = true) ->
  ~ can_race w /\ forall i, exists m, forall schedule, (m <= turns_of i schedule)%nat ->
    of_thread (turns w schedule) i = Stop (Ok (map (answer ps) (os i))).
Proof.
  intros A P S K L R. apply (one_saver w a t ps n 0 rs os); auto. intros i. destruct (R i) as (E & F & N). split; [exact E|]. split; [now apply reading_asks|auto].
Qed.

(** ** Saving, alone *)

Lemma save_alone h a t ps n f : pointers h a t ps -> Forall sane (map snd ps) -> Forall kind_ok (map snd ps) -> (length ps + 3 <= n)%nat ->
  match ID3v2_write_tag f (Some t) with
  | Ok (f', t') => exists h' t1, t' = Some t1 /\ comes_to (write_tag_p n f (Some a), h) (Ok (f', h')) /\ pointers h' a t1 ps
  | Ub u => comes_to (write_tag_p n f (Some a), h) (Ub u)
  | Exit k => comes_to (write_tag_p n f (Some a), h) (Exit k)
  | NoFuel => comes_to (write_tag_p n f (Some a), h) NoFuel
  end.
Proof.
  intros (Th & pl & rest & (ah & head & H & Ef & Fa & Nok & Nd & Fr) & Fl) S K L. rewrite ptrs_flat in Fl. subst ps. rewrite ptrs_frames in S, K.
  assert (G : good pl) by (destruct Th as (fps & El & _); rewrite Ef in El; symmetry in El; now apply list_good in El).
  assert (T : in_tag a ah head (t_padding t) (t_header t) rest h pl []).
  { split; [eapply heap_perm; [exact H|unfold tag_blocks; perm]|]. split; [exact Fa|]. split; [now apply sane_list|now apply kinds_list]. }
  assert (Lp : (length pl < n)%nat).
  { destruct (good_cases pl G) as [(p & -> & _ & _)|(Fu & _)]; [cbn; lia|]. unfold ptrs_of in L. rewrite map_length, listed_length in L by auto. lia. }
  pose proof (save_does a ah head (t_padding t) (t_header t) rest [a] h pl t n f T (or_introl eq_refl) G eq_refl Ef eq_refl Lp) as D.
  pose proof (run_comes (write_tag_p n f (Some a)) h) as R.
  destruct (ID3v2_write_tag f (Some t)) as [[f' t']|u|k|]; try (rewrite D in R; exact R).
  destruct D as (l & h' & pd' & (Er & _) & _ & _ & -> & T'). exists h'. eexists. split; [reflexivity|]. rewrite Er in R. split; [exact R|].
  split; [exact Th|]. exists pl, rest. split; [|apply ptrs_flat]. exists ah, head. cbn [t_frames t_fresh]. split; [|auto].
  eapply heap_perm; [apply T'|]. unfold tag_blocks. cbn [t_header t_padding]. perm.
Qed.

(** Two threads that save one tag race. *)
Lemma savers_race (w : world reply) a t ps n os i j f f' :
  apart w -> pointers (snd (start w O)) a t ps -> Forall sane (map snd ps) -> Forall kind_ok (map snd ps) -> (length ps + 3 <= n)%nat -> each_asks n a t ps w os ->
  i <> j -> os i = Some (OSave f) -> os j = Some (OSave f') -> can_race w.
Proof. intros A P S K L E N Oi Oj. apply (race_table w a t ps n os A P S K L E). exists i, j, (OSave f), (OSave f'). repeat split; auto. Qed.

(** Saving while another thread edits: a race, unless the edit finds nothing to do. *)
Lemma save_edit (w : world reply) a t ps n os i j f e :
  apart w -> pointers (snd (start w O)) a t ps -> Forall sane (map snd ps) -> Forall kind_ok (map snd ps) -> (length ps + 3 <= n)%nat -> each_asks n a t ps w os ->
  i <> j -> os i = Some (OSave f) -> os j = Some (OEdit e) -> (forall k, k <> i -> k <> j -> os k = None) ->
  can_race w <-> place e (map snd ps) <> None.
Proof.
  intros A P S K L E N Oi Oj Ok. rewrite (race_table w a t ps n os A P S K L E). split.
  - intros (k & l & o & o' & Nk & Ek & El & C).
    assert (Hk : k = i \/ k = j) by (destruct (Nat.eq_dec k i); [auto|]; destruct (Nat.eq_dec k j); [auto|]; rewrite Ok in Ek by auto; discriminate Ek).
    assert (Hl : l = i \/ l = j) by (destruct (Nat.eq_dec l i); [auto|]; destruct (Nat.eq_dec l j); [auto|]; rewrite Ok in El by auto; discriminate El).
    destruct Hk as [->| ->], Hl as [->| ->]; try congruence; rewrite ?Oi, ?Oj in *; injection Ek as <-; injection El as <-; exact C.
  - intros Pl. exists i, j, (OSave f), (OEdit e). repeat split; auto.
Qed.
