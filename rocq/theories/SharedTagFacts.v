(** What the functions on a tag access. *)
From Verif Require Import BaseFacts Spec ListFacts FrameFacts EditFacts HeapFacts HeapFrameFacts HeapListFacts HeapTagFacts SpecShared SharedFacts SharedRunFacts SharedSameFacts SharedLogFacts SharedChangeFacts SharedWalkFacts.
From Coq Require Import Lia.

(** The frames of different nodes are at different places. *)
Lemma frames_apart h pl m q r e : heap_is h (all_frame_blocks pl ++ m) -> In q pl -> In r pl -> n_frame (p_node q) = Some e ->
  p_frame r = Some (l_self (p_lay q)) -> r = q.
Proof.
  intros (_ & D & _) Iq Ir Fq Fr. rewrite map_app in D. apply NoDup_app_l in D. unfold all_frame_blocks in D. rewrite map_fst_flat_map in D.
  eapply (flat_map_unique _ _ _ _ (l_self (p_lay q)) D Ir Iq); unfold p_frame_blocks.
  - unfold p_frame in Fr. destruct (n_frame (p_node r)) as [er|]; [|discriminate Fr]. injection Fr as <-. now left.
  - rewrite Fq. now left.
Qed.

Lemma frames_in_first pl q e : In q pl -> n_frame (p_node q) = Some e -> incl (frame_blocks (p_lay q) (fp_frame e)) (all_frame_blocks pl).
Proof. intros I F x Ix. apply in_flat_map. exists q. split; [exact I|]. unfold p_frame_blocks. now rewrite F. Qed.

Lemma heap_take h u x y z v : Permutation x (y ++ z) -> heap_is h (u ++ x ++ v) -> heap_is h (y ++ z ++ u ++ v).
Proof.
  intros P H. eapply heap_perm; [exact H|]. rewrite (app_assoc y), app_assoc, (app_assoc (y ++ z)). apply Permutation_app_tail.
  etransitivity; [apply Permutation_app_comm|]. apply Permutation_app_tail. exact P.
Qed.

(** A list without holes is its frames. *)
Definition full (pl : list pnode) : Prop := forall p, In p pl -> exists e, p_node p = mkNode (Some e) true.

Lemma listed_cons p pl : listed (p :: pl) = match n_frame (p_node p) with Some e => [(p_lay p, e)] | None => [] end ++ listed pl.
Proof. reflexivity. Qed.
Lemma listed_app a b : listed (a ++ b) = listed a ++ listed b.
Proof. apply flat_map_app. Qed.
Lemma listed_length pl : full pl -> length (listed pl) = length pl.
Proof.
  induction pl as [|p pl IH]; intros F; [reflexivity|]. rewrite listed_cons. destruct (F p (or_introl eq_refl)) as (e & ->). cbn [n_frame app length].
  rewrite IH; [reflexivity|]. intros q I. apply F. now right.
Qed.
Lemma listed_split sl : full sl -> forall u y v, listed sl = u ++ y :: v ->
  exists t1 x t2, sl = t1 ++ x :: t2 /\ length t1 = length u /\ n_frame (p_node x) = Some (snd y) /\ p_lay x = fst y.
Proof.
  induction sl as [|p sl IH]; intros F u y v E; [destruct u; discriminate E|]. rewrite listed_cons in E.
  destruct (F p (or_introl eq_refl)) as (e & Ep). rewrite Ep in E. cbn [n_frame app] in E. destruct u as [|z u].
  - injection E as <- _. exists [], p, sl. rewrite Ep. repeat split; reflexivity.
  - injection E as _ E. destruct (IH (fun q I => F q (or_intror I)) u y v E) as (t1 & x & t2 & -> & L & N & Q).
    exists (p :: t1), x, t2. cbn [length]. rewrite L. auto.
Qed.
Lemma full_not_none pl r : full pl -> In r pl -> p_frame r <> None.
Proof. intros F I. unfold p_frame. destruct (F r I) as (e & ->). discriminate. Qed.

(** A walk over all of a list; over the empty list it ends at once. *)
Definition all_reads (pl : list pnode) : list access :=
  match listed pl with [] => map (fun p => Reads (p_addr p) NodeFrame) pl | _ => walk pl end.

Section Old.
  Variable old : list nat.
  Notation seen := (filter (at_old old)).
  Notation leads := (leads old).

  Section Tag.
    Variables (a ah head : nat) (pd : Z) (th : TagHeader) (rest : list (nat * block)).
    Notation base := ((a, BTag (Some ah) (Some head) pd) :: (ah, BTagHeader th) :: rest).

    (** The list [pl], in a tag. *)
    Definition in_tag (h : heap) (pl : list pnode) (more : list (nat * block)) : Prop :=
      heap_is h (node_blocks head pl ++ all_frame_blocks pl ++ more ++ base) /\ first_addr pl = Some head /\ pl_sane pl /\ kinds_ok (map p_node pl).

    Lemma base_in h pl more : in_tag h pl more -> In (a, BTag (Some ah) (Some head) pd) (node_blocks head pl ++ all_frame_blocks pl ++ more ++ base).
    Proof. intros _. do 3 (apply in_or_app; right). now left. Qed.

    Lemma kinds_in pl q e : kinds_ok (map p_node pl) -> In q pl -> n_frame (p_node q) = Some e -> kind_ok (fp_frame e).
    Proof. intros K I F. unfold kinds_ok in K. rewrite Forall_map, Forall_forall in K. specialize (K q I). now rewrite F in K. Qed.

    Lemma split_frames s1 q s2 e : n_frame (p_node q) = Some e ->
      Permutation (all_frame_blocks (s1 ++ q :: s2)) (frame_blocks (p_lay q) (fp_frame e) ++ all_frame_blocks (s1 ++ s2)).
    Proof. intros F. rewrite !frames_app, frames_cons. unfold p_frame_blocks. rewrite F. perm. Qed.

    (** ** Set *)

    Lemma e_install_old h s1 q s2 e l f n : in_tag h (s1 ++ q :: s2) (frame_blocks l f) -> n_frame (p_node q) = Some e ->
      0 <= fh_size (f_hdr f) < 2 ^ 31 -> (length s1 < n)%nat ->
      leads (install_frame_p n (Some a) (Some (l_self (p_lay q))) (Some (l_self l))) h
        (seen ([Writes (p_addr q) NodeFrame; Writes ah TagSize] ++ map Frees (freed (p_lay q) (fp_frame e)))) [Reads a TagFrames] (fun _ _ => True).
    Proof.
      intros T Fq Sz L. pose proof (base_in _ _ _ T) as Ib. destruct T as (H & Fa & S & K). unfold install_frame_p.
      set (pl := s1 ++ q :: s2) in *. assert (Iq : In q pl) by (apply in_or_app; right; now left).
      assert (If : incl (frame_blocks (p_lay q) (fp_frame e)) (all_frame_blocks pl)) by now apply frames_in_first.
      eapply e_look; [exact H|exact Ib|reflexivity|]. cbv iota. rewrite <- Fa. rewrite !filter_app.
      assert (Fp : p_frame q = Some (l_self (p_lay q))) by (unfold p_frame; now rewrite Fq).
      change [?x; ?y] with ([x] ++ [y]). rewrite filter_app, <- app_assoc.
      eapply e_bind with (R1 := []) (R2 := []) (W2 := seen [Writes ah TagSize] ++ seen (map Frees (freed (p_lay q) (fp_frame e)))).
      - eapply (e_replace old h head q s2 _ _ l (0%nat, f) Fp) with (s0 := []); [|exact H| | |exact L].
        + eexists. apply in_or_app. left. apply If. now left.
        + apply incl_appl, incl_refl.
        + intros r Ir Er. assert (r = q) as ->.
          { eapply (frames_apart h pl); [eapply heap_perm; [exact H|apply Permutation_app_swap_app]|exact Iq|apply in_or_app; now left|exact Fq|exact Er]. }
          destruct H as (_ & D & _). rewrite map_app in D. apply NoDup_app_l in D. unfold pl in D.
          rewrite nodes_app, map_app in D. cbn [node_blocks map fst] in D. apply NoDup_remove_2 in D. apply D, in_or_app. left.
          clear -Ir. revert Ir. generalize (first_addr (q :: s2)) as nx. induction s1 as [|x s1 IH]; intros nx []; cbn [seg map]; [subst; now left|right; auto].
      - intros [] h1 H1.
        assert (Hn : incl (frame_blocks l f) (node_blocks head ([] ++ s1 ++ mkP (p_addr q) l (mkNode (Some (0%nat, f)) (n_start (p_node q))) :: s2) ++ all_frame_blocks pl ++ frame_blocks l f ++ base)).
        { do 2 apply incl_appr. apply incl_appl, incl_refl. }
        eapply e_read; [eapply d_size_of; [exact H1|exact Hn]|reflexivity|].
        eapply e_read; [eapply d_size_of; [exact H1|apply incl_appr, incl_appl; exact If]|reflexivity|].
        destruct (S q e Iq Fq) as (_ & Se).
        eapply e_stop; [apply isub_ok; lia|].
        set (nb := node_blocks head ([] ++ s1 ++ _ :: s2)) in *.
        eapply e_grow with (th := th) (pd := pd) (hd := Some head) (m := nb ++ all_frame_blocks pl ++ frame_blocks l f ++ rest); [eapply heap_perm; [exact H1|perm]|].
        intros h2 H2. apply e_tail. rewrite <- (app_nil_r (seen (map _ _))).
        eapply e_Frame_free; [eapply kinds_in; [exact K|exact Iq|exact Fq]| |intros h3 H3; now apply e_ret].
        pose proof (split_frames s1 q s2 e Fq) as Pf. fold pl in Pf.
        eapply (heap_take h2 (_ :: _ :: nb)); [exact Pf|exact H2].
      - reflexivity.
      - intros x [].
    Qed.

    Lemma e_install_first h p l f n : in_tag h [p] (frame_blocks l f) -> p_node p = empty_node ->
      leads (install_frame_p n (Some a) None (Some (l_self l))) h
        (seen [Writes head NodeStart; Writes head NodeFrame; Writes ah TagSize]) [Reads a TagFrames] (fun _ _ => True).
    Proof.
      intros T Np. pose proof (base_in _ _ _ T) as Ib. destruct T as (H & Fa & S & K). unfold install_frame_p.
      eapply e_look; [exact H|exact Ib|reflexivity|]. cbv iota.
      change [?x; ?y; ?z] with ([x; y] ++ [z]). rewrite filter_app.
      eapply e_bind with (R1 := []) (R2 := []) (W2 := seen [Writes ah TagSize]).
      - apply (e_add_first old h head p _ n l (0%nat, f) H); [cbn [first_addr] in Fa; congruence|exact Np].
      - intros [] h1 H1.
        eapply e_read; [eapply d_size_of; [exact H1|do 2 apply incl_appr; apply incl_appl, incl_refl]|reflexivity|].
        set (nb := node_blocks head [_]) in H1. set (fb := all_frame_blocks [p]) in *. clearbody nb fb. apply e_tail. rewrite <- (app_nil_r (seen [_])).
        eapply e_grow with (th := th) (pd := pd) (hd := Some head) (m := nb ++ fb ++ frame_blocks l f ++ rest); [eapply heap_perm; [exact H1|perm]|].
        intros h2 H2. now apply e_ret.
      - reflexivity.
      - intros x [].
    Qed.

    Lemma e_install_more h pre q l f n : in_tag h (pre ++ [q]) (frame_blocks l f) ->
      incl old (map fst (node_blocks head (pre ++ [q]) ++ all_frame_blocks (pre ++ [q]) ++ frame_blocks l f ++ base)) ->
      (forall p, In p (pre ++ [q]) -> n_start (p_node p) = true) -> (length pre < n)%nat ->
      leads (install_frame_p n (Some a) None (Some (l_self l))) h
        (seen [Writes (p_addr q) NodeNext; Writes ah TagSize]) [Reads a TagFrames] (fun _ _ => True).
    Proof.
      intros T O St L. pose proof (base_in _ _ _ T) as Ib. destruct T as (H & Fa & S & K). unfold install_frame_p.
      eapply e_look; [exact H|exact Ib|reflexivity|]. cbv iota.
      change [?x; ?y] with ([x] ++ [y]). rewrite filter_app.
      eapply e_bind with (R1 := []) (R2 := []) (W2 := seen [Writes ah TagSize]).
      - apply (e_add_more old h head pre q _ n l (0%nat, f) H O Fa St L).
      - intros [] h1 (c & H1 & _).
        eapply e_read; [eapply d_size_of; [exact H1|do 2 apply incl_appr; apply incl_appl, incl_refl]|reflexivity|].
        set (nb := node_blocks head _) in H1. clearbody nb. apply e_tail. rewrite <- (app_nil_r (seen [_])).
        eapply e_grow with (th := th) (pd := pd) (hd := Some head) (m := nb ++ all_frame_blocks (pre ++ [q]) ++ frame_blocks l f ++ rest); [eapply heap_perm; [exact H1|perm]|].
        intros h2 H2. now apply e_ret.
      - reflexivity.
      - intros x [].
    Qed.

    (** ** Delete *)

    Lemma e_delete h s1 q s2 e arg id n : in_tag h (s1 ++ q :: s2) [] -> incl old (map fst (node_blocks head (s1 ++ q :: s2) ++ all_frame_blocks (s1 ++ q :: s2) ++ base)) ->
      n_frame (p_node q) = Some e -> named id (fp_frame e) = true ->
      (forall r, In r s1 -> exists e, n_frame (p_node r) = Some e /\ named id (fp_frame e) = false) ->
      points_to arg id -> length id = 4%nat -> (length s1 < n)%nat ->
      leads (ID3v2_Tag_delete_frame_p n (Some a) arg) h
        (seen (cut_log q s2 ++ [Writes ah TagSize] ++ map Frees (freed (p_lay q) (fp_frame e)))) [Reads a TagFrames] (fun _ _ => True).
    Proof.
      intros T O Fq Nq N1 P L4 L. pose proof (base_in _ _ _ T) as Ib. destruct T as (H & Fa & S & K). unfold ID3v2_Tag_delete_frame_p.
      cbn [app] in H, Ib, O. set (pl := s1 ++ q :: s2) in *. assert (Iq : In q pl) by (apply in_or_app; right; now left).
      assert (If : incl (frame_blocks (p_lay q) (fp_frame e)) (all_frame_blocks pl)) by now apply frames_in_first.
      eapply e_look; [exact H|exact Ib|reflexivity|]. rewrite <- Fa. rewrite !(filter_app _ _ (_ ++ _)), (filter_app _ [_]).
      eapply e_bind with (R1 := []) (R2 := []) (W2 := seen [Writes ah TagSize] ++ seen (map Frees (freed (p_lay q) (fp_frame e)))).
      - eapply (e_remove_by_id old h head q s2 _ arg id e P L4 Fq Nq) with (s0 := []); [exact H|exact O|apply incl_appl, incl_refl|exact S|exact N1|exact L].
      - intros v h1 (-> & H1). set (nb := node_blocks head _) in H1. clearbody nb.
        eapply e_read; [eapply d_size_of; [exact H1|apply incl_appr, incl_appl; exact If]|reflexivity|].
        destruct (S q e Iq Fq) as (_ & Se). change ID3v2_FRAME_HEADER_LENGTH with 10.
        eapply e_stop; [apply iadd_ok; lia|].
        eapply e_grow with (th := th) (pd := pd) (hd := Some head) (m := nb ++ all_frame_blocks pl ++ rest); [eapply heap_perm; [exact H1|perm]|].
        intros h2 H2. apply e_tail. rewrite <- (app_nil_r (seen (map _ _))).
        eapply e_Frame_free; [eapply kinds_in; [exact K|exact Iq|exact Fq]| |intros h3 H3; now apply e_ret].
        pose proof (split_frames s1 q s2 e Fq) as Pf. fold pl in Pf.
        eapply (heap_take h2 (_ :: _ :: nb)); [exact Pf|exact H2].
      - reflexivity.
      - intros x [].
    Qed.

    (** ** Delete the n-th *)

    Lemma e_nth_head h pl arg id n W R (k : ptr -> prog unit) : in_tag h pl [] -> incl old (map fst (node_blocks head pl ++ all_frame_blocks pl ++ base)) ->
      good pl -> points_to arg id -> length id = 4%nat -> (length pl < n)%nat ->
      (forall h1 hs sl, heap_is h1 (node_blocks hs sl ++ node_blocks head pl ++ all_frame_blocks pl ++ base) -> first_addr sl = Some hs -> good sl ->
         listed sl = filter (wanted id) (listed pl) -> (length sl <= S (length pl))%nat -> leads (k (Some hs)) h1 W R (fun _ _ => True)) ->
      leads (do! fr := look_ptr (Some a) TagFrames in do! hd := FrameList_get_frames_by_id_p n fr arg in k hd) h W (Reads a TagFrames :: all_reads pl ++ R) (fun _ _ => True).
    Proof.
      intros T O G P L4 L K. pose proof (base_in _ _ _ T) as Ib. destruct T as (H & Fa & S & Kd). cbn [app] in *.
      eapply e_look; [exact H|exact Ib|reflexivity|]. rewrite <- Fa.
      eapply e_bind with (W1 := []); [|intros v h1 Q; exact Q| |apply incl_refl]; [|reflexivity].
      eapply e_weak; [eapply (e_get_frames old head arg id _ n h pl P L4 H O G); auto|apply incl_refl|].
      - apply incl_appl, incl_refl.
      - apply incl_appr, incl_appl, incl_refl.
      - intros v h1 (hs & sl & -> & H1 & F1 & G1 & L1 & Le). eapply K; eassumption.
    Qed.

    (** There is such a frame. *)
    Lemma e_nth_cut h s1 q s2 e arg id n index : in_tag h (s1 ++ q :: s2) [] ->
      incl old (map fst (node_blocks head (s1 ++ q :: s2) ++ all_frame_blocks (s1 ++ q :: s2) ++ base)) ->
      full (s1 ++ q :: s2) -> n_frame (p_node q) = Some e -> named id (fp_frame e) = true -> zlen (filter (wanted id) (listed s1)) = index ->
      points_to arg id -> length id = 4%nat -> (S (length (s1 ++ q :: s2)) < n)%nat ->
      leads (delete_nth_frame_p n (Some a) arg index) h
        (seen (cut_log q s2 ++ map Frees (freed (p_lay q) (fp_frame e)))) (Reads a TagFrames :: all_reads (s1 ++ q :: s2)) (fun _ _ => True).
    Proof.
      intros T O Fu Fq Nq Ix P L4 L. unfold delete_nth_frame_p. rewrite <- (app_nil_r (all_reads _)).
      eapply e_nth_head; [exact T|exact O|right; split; [destruct s1; discriminate|exact Fu]|exact P|exact L4|lia|].
      intros h1 hs sl H1 F1 G1 L1 Le. destruct T as (_ & Fa & S & K).
      set (pl := s1 ++ q :: s2) in *. assert (Iq : In q pl) by (apply in_or_app; right; now left).
      assert (If : incl (frame_blocks (p_lay q) (fp_frame e)) (all_frame_blocks pl)) by now apply frames_in_first.
      unfold pl in L1. rewrite listed_app, listed_cons, Fq, filter_app in L1. cbn [app filter] in L1. unfold wanted at 2 in L1. cbn [snd] in L1. rewrite Nq in L1.
      assert (Fs : full sl).
      { destruct G1 as [(p & -> & Np)|(_ & Gs)]; [|exact Gs]. unfold listed at 1 in L1. cbn [flat_map] in L1. rewrite Np in L1. cbn [n_frame empty_node app] in L1.
        destruct (filter (wanted id) (listed s1)); discriminate L1. }
      destruct (listed_split sl Fs _ _ _ L1) as (t1 & x & t2 & -> & Lt & Nx & Lx). cbn [fst snd] in Nx, Lx.
      assert (Px : p_frame x = Some (l_self (p_lay q))) by (unfold p_frame; now rewrite Nx, Lx).
      assert (Fp : p_frame q = Some (l_self (p_lay q))) by (unfold p_frame; now rewrite Fq).
      assert (Nn : forall r, In r (t1 ++ x :: t2) -> ~ In (p_addr r) old) by (intros r Ir; eapply new_node; [exact H1|exact O|exact Ir]).
      rewrite app_length in Le. cbn [length] in Le.
      eapply e_bind with (R1 := []) (R2 := []) (W1 := seen (cut_log q s2 ++ map Frees (freed (p_lay q) (fp_frame e)))) (W2 := []) (Q1 := fun v h2 => v = Some (p_addr x) /\ exists m, heap_is h2 (node_blocks hs (x :: t2) ++ m));
        [| |now rewrite app_nil_r|intros z []].
      - rewrite <- F1. eapply (e_nth_found old hs h1 _ n (Some a) index x t2 _ _ _ H1); [apply incl_appl, incl_refl|unfold zlen in *; lia|lia|].
        eapply e_peek; [exact H1|do 3 (apply in_or_app; right); now left|reflexivity|]. rewrite Px, <- Fa. rewrite filter_app.
        eapply e_bind with (R1 := []) (R2 := []) (W2 := seen (map Frees (freed (p_lay q) (fp_frame e)))); [| |reflexivity|intros z []].
        + eapply (e_remove_frame old h1 head q s2 (all_frame_blocks pl ++ node_blocks hs (t1 ++ x :: t2) ++ base) _ Fp) with (s0 := []).
          * intros y [= <-]. eexists. apply in_or_app. left. apply If. now left.
          * eapply heap_perm; [exact H1|]. fold pl. cbn [app]. perm.
          * intros y Iy. apply O in Iy. fold pl. cbn [app]. rewrite !map_app, !in_app_iff in *. cbn [map fst In] in *. rewrite ?map_app, ?in_app_iff in *. tauto.
          * apply incl_appl, incl_refl.
          * intros r Ir Er. assert (r = q) as ->.
            { eapply (frames_apart h1 pl); [eapply heap_perm; [exact H1|]|exact Iq|apply in_or_app; now left|exact Fq|exact Er].
              etransitivity; [apply Permutation_app_swap_app|]. etransitivity; [apply Permutation_app_head, Permutation_app_swap_app|].
              etransitivity; [apply Permutation_app_swap_app|]. reflexivity. }
            destruct H1 as (_ & D & _). rewrite map_app in D. apply NoDup_app_r in D. rewrite map_app in D. apply NoDup_app_l in D. unfold pl in D.
            rewrite nodes_app, map_app in D. cbn [node_blocks map fst] in D. apply NoDup_remove_2 in D. apply D, in_or_app. left.
            clear -Ir. revert Ir. generalize (first_addr (q :: s2)) as nx. induction s1 as [|y s1 IH]; intros nx []; cbn [seg map]; [subst; now left|right; auto].
          * unfold pl in L. rewrite app_length in L. cbn [length] in L. lia.
        + intros v h2 (-> & H2). set (nb := node_blocks head _) in H2. clearbody nb. rewrite <- (app_nil_r (seen _)).
          pose proof (split_frames s1 q s2 e Fq) as Pf. fold pl in Pf.
          eapply e_Frame_free; [eapply kinds_in; [exact K|exact Iq|exact Fq]|eapply (heap_take h2 nb); [exact Pf|exact H2]|].
          intros h3 H3. apply e_ret. split; [reflexivity|].
          eexists. eapply heap_perm; [exact H3|]. rewrite nodes_app. rewrite <- !app_assoc.
          match goal with |- Permutation (?u ++ ?v ++ ?w ++ ?sg ++ ?nd ++ ?z) _ => transitivity (nd ++ u ++ v ++ w ++ sg ++ z); [perm|reflexivity] end.
      - intros v h2 (-> & m & H2). change (Some (p_addr x)) with (first_addr (x :: t2)).
        eapply e_weak; [eapply (e_unlink old hs (x :: t2) n h2 m H2)|apply incl_refl|auto].
        + intros r Ir. apply Nn, in_or_app. now right.
        + cbn [length]. lia.
    Qed.

    (** There is none: nothing is changed, except on an empty list. *)
    Lemma e_nth_none h pl arg id n index : in_tag h pl [] -> incl old (map fst (node_blocks head pl ++ all_frame_blocks pl ++ base)) ->
      good pl -> (full pl \/ index <> 0) -> (index < 0 \/ zlen (filter (wanted id) (listed pl)) <= index) ->
      points_to arg id -> length id = 4%nat -> (S (length pl) < n)%nat ->
      leads (delete_nth_frame_p n (Some a) arg index) h [] (Reads a TagFrames :: all_reads pl) (fun _ _ => True).
    Proof.
      intros T O G Fu Ix P L4 L. unfold delete_nth_frame_p. rewrite <- (app_nil_r (all_reads _)).
      eapply e_nth_head; [exact T|exact O|exact G|exact P|exact L4|lia|].
      intros h1 hs sl H1 F1 G1 L1 Le. destruct T as (_ & Fa & S & K).
      assert (Nn : forall r, In r sl -> ~ In (p_addr r) old) by (intros r Ir; eapply new_node; [exact H1|exact O|exact Ir]).
      assert (C : (index < 0 \/ zlen sl <= index) \/ (exists x, sl = [x] /\ p_node x = empty_node /\ index = 0)).
      { destruct G1 as [(x & -> & Nx)|(_ & Gs)].
        - destruct (Z.eq_dec index 0) as [->|Ne]; [right; eauto|left]. unfold zlen. cbn [length]. pose proof (zlen_nonneg (filter (wanted id) (listed pl))). lia.
        - left. rewrite <- L1 in Ix. unfold zlen in Ix at 1. rewrite (listed_length sl Gs) in Ix. exact Ix. }
      destruct C as [C|(x & -> & Nx & ->)].
      - eapply e_bind with (R1 := []) (R2 := []) (W1 := []) (W2 := []); [| |reflexivity|intros z []].
        + rewrite <- F1. eapply (e_nth_absent old hs h1 _ n (Some a) index H1); [apply incl_appl, incl_refl|lia|lia].
        + intros v h2 (-> & ->). destruct n; [lia|]. now apply e_ret.
      - assert (Fp : full pl) by (destruct Fu; [assumption|congruence]).
        assert (Px : p_frame x = None) by (unfold p_frame; now rewrite Nx).
        eapply e_bind with (R1 := []) (R2 := []) (W1 := []) (W2 := []) (Q1 := fun v h2 => v = Some (p_addr x) /\ h2 = h1); [| |reflexivity|intros z []].
        + rewrite <- F1. eapply (e_nth_found old hs h1 _ n (Some a) 0 x [] [] [] _ H1 []); [apply incl_appl, incl_refl|reflexivity|cbn; lia|].
          eapply e_peek; [exact H1|do 3 (apply in_or_app; right); now left|reflexivity|]. rewrite Px, <- Fa.
          eapply e_bind with (R1 := []) (R2 := []) (W1 := []) (W2 := []); [| |reflexivity|intros z []].
          * eapply (e_remove_absent old h1 _ head None H1); [discriminate|apply incl_appr, incl_appl, incl_refl|do 2 apply incl_appr; apply incl_appl, incl_refl| |lia].
            intros r Ir. now apply (full_not_none pl).
          * intros v h2 (_ & ->). now apply e_ret.
        + intros v h2 (-> & ->). change (Some (p_addr x)) with (first_addr [x]).
          eapply e_weak; [eapply (e_unlink old hs [x] n h1 _ H1); [exact Nn|cbn [length]; lia]|apply incl_refl|auto].
    Qed.
    Lemma e_nth_hole h p arg id n : in_tag h [p] [] -> incl old (map fst (node_blocks head [p] ++ all_frame_blocks [p] ++ base)) ->
      p_node p = empty_node -> points_to arg id -> length id = 4%nat -> (2 < n)%nat ->
      leads (delete_nth_frame_p n (Some a) arg 0) h (seen (cut_log p [])) (Reads a TagFrames :: all_reads [p]) (fun _ _ => True).
    Proof.
      intros T O Np P L4 L. unfold delete_nth_frame_p. rewrite <- (app_nil_r (all_reads _)).
      eapply e_nth_head; [exact T|exact O|left; eauto|exact P|exact L4|cbn [length]; lia|].
      intros h1 hs sl H1 F1 G1 L1 Le. destruct T as (_ & Fa & S & K).
      assert (Nn : forall r, In r sl -> ~ In (p_addr r) old) by (intros r Ir; eapply new_node; [exact H1|exact O|exact Ir]).
      assert (El : listed [p] = []) by (rewrite listed_cons, Np; reflexivity). rewrite El in L1. cbn [filter] in L1.
      assert (C : exists x, sl = [x] /\ p_node x = empty_node).
      { destruct G1 as [(x & -> & Nx)|(Ne & Gs)]; [eauto|]. exfalso. destruct sl as [|x sl]; [congruence|]. rewrite listed_cons in L1.
        destruct (Gs x (or_introl eq_refl)) as (e & Ex). rewrite Ex in L1. discriminate L1. }
      destruct C as (x & -> & Nx). assert (Px : p_frame x = None) by (unfold p_frame; now rewrite Nx).
      assert (Pp : p_frame p = None) by (unfold p_frame; now rewrite Np).
      assert (Eb : all_frame_blocks [p] = []) by (rewrite frames_cons; unfold p_frame_blocks; now rewrite Np). rewrite Eb in *. cbn [app] in H1, O.
      eapply e_bind with (R1 := []) (R2 := []) (W1 := seen (cut_log p [])) (W2 := []) (Q1 := fun v h2 => v = Some (p_addr x) /\ exists m, heap_is h2 (node_blocks hs [x] ++ m));
        [| |now rewrite app_nil_r|intros z []].
      - rewrite <- F1. eapply (e_nth_found old hs h1 _ n (Some a) 0 x [] _ [] _ H1 []); [apply incl_appl, incl_refl|reflexivity|cbn; lia|].
        eapply e_peek; [exact H1|do 2 (apply in_or_app; right); now left|reflexivity|]. rewrite Px, <- Fa.
        eapply e_bind with (R1 := []) (R2 := []) (W2 := []); [| |now rewrite app_nil_r|intros z []].
        + set (nb := node_blocks hs [x]) in *. eapply (e_remove_frame old h1 head p [] (nb ++ base) None Pp) with (s0 := []) (s1 := []).
          * discriminate.
          * eapply heap_perm; [exact H1|]. cbn [app]. set (nc := node_blocks head [p]). clearbody nb nc. perm.
          * intros y Iy. apply O in Iy. change ([] ++ [] ++ [p]) with [p]. rewrite !map_app, !in_app_iff in *. cbn [map fst In] in *. tauto.
          * cbn [app]. rewrite Eb. intros z [].
          * intros r [].
          * cbn; lia.
        + intros v h2 (-> & H2). apply e_ret. split; [reflexivity|].
          set (nb := node_blocks hs [x]) in *. set (nc := node_blocks head _) in H2. clearbody nb nc.
          exists (nc ++ base). eapply heap_perm; [exact H2|perm].
      - intros v h2 (-> & m & H2). change (Some (p_addr x)) with (first_addr [x]).
        eapply e_weak; [eapply (e_unlink old hs [x] n h2 _ H2); [exact Nn|cbn [length]; lia]|apply incl_refl|auto].
    Qed.
  End Tag.
End Old.
