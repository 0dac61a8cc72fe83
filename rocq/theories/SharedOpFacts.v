(** What each request on a tag accesses. *)
From Verif Require Import BaseFacts Spec ListFacts FrameFacts EditFacts HeapFacts HeapFrameFacts HeapListFacts HeapTagFacts SpecShared SharedFacts SharedRunFacts SharedSameFacts SharedLogFacts SharedChangeFacts SharedWalkFacts SharedTagFacts.
From Coq Require Import Lia.

(** ** Positions *)

Definition frames_of_list (pl : list pnode) : list frame := map (fun x => fp_frame (snd x)) (listed pl).
Notation fof := frames_of_list.

Lemma fof_cons p pl : fof (p :: pl) = match n_frame (p_node p) with Some e => [fp_frame e] | None => [] end ++ fof pl.
Proof. unfold fof. rewrite listed_cons, map_app. now destruct (n_frame (p_node p)). Qed.
Lemma fof_app u v : fof (u ++ v) = fof u ++ fof v.
Proof. unfold fof. now rewrite listed_app, map_app. Qed.
Lemma fof_length pl : full pl -> length (fof pl) = length pl.
Proof. intros F. unfold fof. now rewrite map_length, listed_length. Qed.
Lemma full_cons p pl : full (p :: pl) -> (exists e, p_node p = mkNode (Some e) true) /\ full pl.
Proof. intros F. split; [apply F; now left|]. intros q I. apply F. now right. Qed.

Lemma first_split id pl : full pl -> forall k, first_pos (named id) (fof pl) = Some k ->
  exists s1 q s2 e, pl = s1 ++ q :: s2 /\ length s1 = k /\ n_frame (p_node q) = Some e /\ named id (fp_frame e) = true
    /\ forall r, In r s1 -> exists e, n_frame (p_node r) = Some e /\ named id (fp_frame e) = false.
Proof.
  induction pl as [|p pl IH]; intros F k E; [discriminate E|]. apply full_cons in F as ((e & Ep) & F). rewrite fof_cons, Ep in E. cbn [n_frame app first_pos] in E.
  destruct (named id (fp_frame e)) eqn:N.
  - injection E as <-. exists [], p, pl, e. rewrite Ep. repeat split; auto. intros r [].
  - destruct (first_pos (named id) (fof pl)) as [j|]; [|discriminate E]. injection E as <-.
    destruct (IH F j eq_refl) as (s1 & q & s2 & e' & -> & L & Fq & Nq & Al). exists (p :: s1), q, s2, e'. cbn [length]. rewrite L.
    repeat split; auto. intros r [<-|Ir]; [exists e; now rewrite Ep|auto].
Qed.
Lemma first_none id pl : first_pos (named id) (fof pl) = None -> filter (wanted id) (listed pl) = [].
Proof.
  unfold fof. induction (listed pl) as [|x l IH]; [reflexivity|]. cbn [map first_pos filter]. unfold wanted at 1.
  destruct (named id (fp_frame (snd x))); [discriminate|]. destruct (first_pos _ (map _ l)); [discriminate|auto].
Qed.

Lemma nth_split id pl : full pl -> forall i k, nth_pos (named id) i (fof pl) = Some k ->
  exists s1 q s2 e, pl = s1 ++ q :: s2 /\ length s1 = k /\ n_frame (p_node q) = Some e /\ named id (fp_frame e) = true
    /\ zlen (filter (wanted id) (listed s1)) = i.
Proof.
  induction pl as [|p pl IH]; intros F i k E; [discriminate E|]. apply full_cons in F as ((e & Ep) & F). rewrite fof_cons, Ep in E. cbn [n_frame app nth_pos] in E.
  assert (Lc : forall s, filter (wanted id) (listed (p :: s)) = (if named id (fp_frame e) then [(p_lay p, e)] else []) ++ filter (wanted id) (listed s)).
  { intros s. rewrite listed_cons, Ep. cbn [n_frame app filter]. unfold wanted at 1. cbn [snd]. now destruct (named id (fp_frame e)). }
  destruct (named id (fp_frame e)) eqn:N.
  - destruct (Z.eqb_spec i 0) as [->|Ni].
    + injection E as <-. exists [], p, pl, e. rewrite Ep. repeat split; auto.
    + destruct (nth_pos (named id) (i - 1) (fof pl)) as [j|] eqn:En; [|discriminate E]. injection E as <-.
      destruct (IH F _ _ En) as (s1 & q & s2 & e' & -> & L & Fq & Nq & Ix). exists (p :: s1), q, s2, e'. cbn [length]. rewrite L.
      repeat split; auto. rewrite Lc. unfold zlen in *. cbn [app length]. lia.
  - destruct (nth_pos (named id) i (fof pl)) as [j|] eqn:En; [|discriminate E]. injection E as <-.
    destruct (IH F _ _ En) as (s1 & q & s2 & e' & -> & L & Fq & Nq & Ix). exists (p :: s1), q, s2, e'. cbn [length]. rewrite L.
    repeat split; auto. rewrite Lc. exact Ix.
Qed.
Lemma nth_none id pl : forall i, nth_pos (named id) i (fof pl) = None -> i < 0 \/ zlen (filter (wanted id) (listed pl)) <= i.
Proof.
  unfold fof. induction (listed pl) as [|x l IH]; intros i E; [cbn; lia|]. cbn [map nth_pos filter] in *. unfold wanted at 1.
  destruct (named id (fp_frame (snd x))).
  - destruct (i =? 0) eqn:Ez; [discriminate E|]. destruct (nth_pos _ (i - 1) _) eqn:En; [discriminate E|]. apply IH in En.
    unfold zlen in *. cbn [length]. lia.
  - destruct (nth_pos _ i _) eqn:En; [discriminate E|]. now apply IH.
Qed.

Lemma get_ptr_first id s1 q s2 e : n_frame (p_node q) = Some e -> named id (fp_frame e) = true ->
  (forall r, In r s1 -> exists e, n_frame (p_node r) = Some e /\ named id (fp_frame e) = false) ->
  get_ptr id (s1 ++ q :: s2) = Some (l_self (p_lay q)).
Proof.
  intros Fq Nq. induction s1 as [|r s1 IH]; intros Al; cbn [app get_ptr].
  - now rewrite Fq, Nq.
  - destruct (Al r (or_introl eq_refl)) as (er & -> & ->). apply IH. intros r' Ir. apply Al. now right.
Qed.
Lemma get_ptr_none id pl : filter (wanted id) (listed pl) = [] -> get_ptr id pl = None.
Proof.
  induction pl as [|p pl IH]; [reflexivity|]. rewrite listed_cons. cbn [get_ptr]. destruct (n_frame (p_node p)) as [e|]; [|reflexivity].
  cbn [app filter]. unfold wanted at 1. cbn [snd]. destruct (named id (fp_frame e)); [discriminate|auto].
Qed.

Lemma good_cases pl : good pl -> (exists p, pl = [p] /\ p_node p = empty_node /\ fof pl = []) \/ (full pl /\ pl <> []).
Proof.
  intros [(p & -> & Np)|(Ne & F)]; [left|right; auto]. exists p. repeat split; auto. rewrite fof_cons, Np. reflexivity.
Qed.

(** ** What an edit changes *)

Inductive may (ah : nat) (pl : list pnode) (p : nat) (d : option nat) : access -> Prop :=
| MSize : may ah pl p d (Writes ah TagSize)
| MFrame i q : nth_error pl i = Some q -> (p <= i)%nat -> may ah pl p d (Writes (p_addr q) NodeFrame)
| MStart i q : nth_error pl i = Some q -> (p <= i)%nat -> may ah pl p d (Writes (p_addr q) NodeStart)
| MNext i q : nth_error pl i = Some q -> (p <= S i)%nat -> may ah pl p d (Writes (p_addr q) NodeNext)
| MNode i q : nth_error pl i = Some q -> (p <= i)%nat -> may ah pl p d (Frees (p_addr q))
| MDropped q b : d = Some p -> nth_error pl p = Some q -> In b (map fst (p_frame_blocks q)) -> may ah pl p d (Frees b).

(** The write that others are sure to see. *)
Definition key (pl : list pnode) (p : nat) (x : access) : Prop :=
  match nth_error pl p with
  | Some q => x = Writes (p_addr q) NodeFrame
  | None => exists pre q, pl = pre ++ [q] /\ x = Writes (p_addr q) NodeNext
  end.

Definition shaped (ah : nat) (pl : list pnode) (e : edit) (W : list access) : Prop :=
  match place e (fof pl) with
  | None => W = []
  | Some p =>
      (exists x, In x W /\ key pl p x)
      /\ (forall y, In y W -> may ah pl p (dropped e (fof pl)) y)
      /\ match e with RemoveNth _ _ => True | _ => In (Writes ah TagSize) W end
      /\ (forall k q, dropped e (fof pl) = Some k -> nth_error pl k = Some q -> In (Frees (l_data (p_lay q))) W)
  end.

Lemma freed_in l f b : In b (freed l f) -> In b (map fst (frame_blocks l f)).
Proof. unfold freed, frame_blocks. destruct (f_data f); cbn [map fst In]; tauto. Qed.
Lemma data_freed l f : In (l_data l) (freed l f).
Proof. unfold freed. destruct (f_data f); cbn [In]; tauto. Qed.
Lemma nth_at {A} (s1 : list A) q s2 : nth_error (s1 ++ q :: s2) (length s1) = Some q.
Proof. rewrite nth_error_app2, Nat.sub_diag by lia. reflexivity. Qed.
Lemma nth_after {A} (s1 : list A) q r s2 : nth_error (s1 ++ q :: r :: s2) (S (length s1)) = Some r.
Proof. rewrite nth_error_app2 by lia. now replace (S (length s1) - length s1)%nat with 1%nat by lia. Qed.

Section Old.
  Variable old : list nat.
  Notation seen := (filter (at_old old)).
  Notation leads := (leads old).

  Lemma in_seen_write b f l : In b old -> In (Writes b f) l -> In (Writes b f) (seen l).
  Proof. intros I J. apply filter_In. split; [exact J|]. cbn. now destruct (in_dec Nat.eq_dec b old). Qed.
  Lemma in_seen_free b l : In b old -> In (Frees b) l -> In (Frees b) (seen l).
  Proof. intros I J. apply filter_In. split; [exact J|]. cbn. now destruct (in_dec Nat.eq_dec b old). Qed.

  Section Tag.
    Variables (a ah head : nat) (pd : Z) (th : TagHeader) (rest : list (nat * block)).
    Notation base := ((a, BTag (Some ah) (Some head) pd) :: (ah, BTagHeader th) :: rest).
    Notation in_tag := (in_tag a ah head pd th rest).

    (** The old addresses are those of the tag and all else. *)
    Definition olds (pl : list pnode) : Prop := forall x, In x old <-> In x (map fst (node_blocks head pl ++ all_frame_blocks pl ++ base)).

    Lemma old_head pl : olds pl -> In ah old.
    Proof. intros O. apply O. rewrite !map_app, !in_app_iff. right. right. right. now left. Qed.
    Lemma old_node pl q : olds pl -> In q pl -> In (p_addr q) old.
    Proof.
      intros O I. apply O. rewrite map_app, in_app_iff. left. clear O. induction pl as [|p pl IH]; [destruct I|]. cbn [node_blocks map fst].
      destruct I as [->|I]; [now left|right; auto].
    Qed.
    Lemma old_frame pl q b : olds pl -> In q pl -> In b (map fst (p_frame_blocks q)) -> In b old.
    Proof.
      intros O I J. apply O. rewrite !map_app, !in_app_iff. right. left. unfold all_frame_blocks. rewrite map_fst_flat_map. apply in_flat_map. eauto.
    Qed.
    Lemma old_incl pl : olds pl -> incl old (map fst (node_blocks head pl ++ all_frame_blocks pl ++ base)).
    Proof. intros O x I. now apply O. Qed.

    (** A call makes a frame. *)
    Definition makes (newp : prog nat) (f : frame) : Prop :=
      forall h m (k : nat -> prog unit) W R Q, heap_is h m ->
        (forall l h1, heap_is h1 (frame_blocks l f ++ m) -> leads (k (l_self l)) h1 W R Q) -> leads (bindp newp k) h W R Q.

    Lemma put_p c f : means c (Put f) -> frame_ok f = true -> exists newp arg, makes newp (frame_of f) /\ points_to arg (frame_id f) /\
      forall n tag, run_call_p n tag c = (do! nf := newp in do! fr := look_ptr tag TagFrames in do! e := get_frame_by_id_p n fr arg in install_frame_p n tag e (Some nf)).
    Proof.
      intros M F. inversion M; subst; cbn [run_call_p frame_id] in *;
        unfold ID3v2_Tag_set_text_frame_p, ID3v2_Tag_set_comment_frame_p, ID3v2_Tag_set_apic_frame_p;
        cbn [ti_id ti_flags ti_text ci_flags ci_language ci_short_description ci_comment ai_flags ai_mime_type ai_description ai_picture_type ai_picture_size ai_data];
        (eexists _, _; split; [|split; [|reflexivity]]); try apply points_to_lit; try assumption;
        intros h0 m0 k0 W0 R0 Q0 Hh K; (first [eapply e_text_new|eapply e_comment_new|eapply e_apic_new]; [exact Hh| |exact K]);
        repeat match goal with H : points_to ?x _ |- _ => destruct H as (? & ->) end;
        try destruct points_to_no_flags as (? & ->); try destruct points_to_empty as (? & ->);
        first [now apply CommentFrame_new_ok|now apply ApicFrame_new_ok|idtac].
      all: try (now apply TextFrame_new_ok).
      all: match goal with |- TextFrame_new ?i _ _ = Ok (frame_of (FText ?l _ _)) => assert (P : points_to i l) by apply points_to_lit; destruct P as (? & ->); now apply TextFrame_new_ok end.
    Qed.
    Lemma append_p c f : means c (Append f) -> frame_ok f = true -> exists newp, makes newp (frame_of f) /\
      forall n tag, run_call_p n tag c = (do! nf := newp in install_frame_p n tag None (Some nf)).
    Proof.
      intros M F. inversion M; subst; cbn [run_call_p]; unfold ID3v2_Tag_add_comment_frame_p, ID3v2_Tag_add_apic_frame_p;
        cbn [ci_flags ci_language ci_short_description ci_comment ai_flags ai_mime_type ai_description ai_picture_type ai_picture_size ai_data];
        (eexists; split; [|reflexivity]);
        intros h0 m0 k0 W0 R0 Q0 Hh K; (first [eapply e_comment_new|eapply e_apic_new]; [exact Hh| |exact K]);
        repeat match goal with H : points_to ?x _ |- _ => destruct H as (? & ->) end;
        first [now apply CommentFrame_new_ok|now apply ApicFrame_new_ok].
    Qed.
    Lemma remove_p c id : means c (Remove id) -> exists arg, points_to arg id /\ length id = 4%nat /\
      forall n tag, run_call_p n tag c = ID3v2_Tag_delete_frame_p n tag arg.
    Proof.
      intros M. inversion M; subst; cbn [run_call_p]; eauto; (eexists; split; [|split]; [| |reflexivity]; [apply points_to_lit|reflexivity]).
    Qed.
    Lemma remove_nth_p c id i : means c (RemoveNth id i) -> exists arg, points_to arg id /\ length id = 4%nat /\
      forall n tag, run_call_p n tag c = delete_nth_frame_p n tag arg i.
    Proof.
      intros M. inversion M; subst; cbn [run_call_p]; (eexists; split; [|split]; [| |reflexivity]; [apply points_to_lit|reflexivity]).
    Qed.

    Definition edit_reads (e : edit) (pl : list pnode) : list access :=
      Reads a TagFrames :: match e with RemoveNth _ _ => all_reads pl | _ => [] end.

    (** The shapes, case by case. *)
    Lemma shaped_old pl s1 q s2 e f : olds pl -> pl = s1 ++ q :: s2 -> n_frame (p_node q) = Some e ->
      first_pos (named (frame_id f)) (fof pl) = Some (length s1) ->
      shaped ah pl (Put f) (seen ([Writes (p_addr q) NodeFrame; Writes ah TagSize] ++ map Frees (freed (p_lay q) (fp_frame e)))).
    Proof.
      intros O E Fq P. unfold shaped, place, dropped. rewrite P. cbn [or_end].
      assert (Nq : nth_error pl (length s1) = Some q) by (subst; apply nth_at). assert (Iq : In q pl) by now apply nth_error_In in Nq.
      assert (Bq : p_frame_blocks q = frame_blocks (p_lay q) (fp_frame e)) by (unfold p_frame_blocks; now rewrite Fq).
      split; [|split; [|split]].
      - exists (Writes (p_addr q) NodeFrame). split; [|unfold key; now rewrite Nq]. apply in_seen_write; [now apply old_node with (pl := pl)|now left].
      - intros y Iy. apply filter_In in Iy as (Iy & _). apply in_app_iff in Iy as [[<-|[<-|[]]]|Iy].
        + eapply MFrame; [exact Nq|lia].
        + apply MSize.
        + apply in_map_iff in Iy as (b & <- & Ib). eapply MDropped; [reflexivity|exact Nq|]. rewrite Bq. now apply freed_in.
      - apply in_seen_write; [eapply old_head; exact O|right; now left].
      - intros k q' [= <-] Nq'. rewrite Nq in Nq'. injection Nq' as <-. apply in_seen_free.
        + apply (old_frame pl q _ O Iq). rewrite Bq. apply freed_in, data_freed.
        + apply in_or_app. right. apply in_map, data_freed.
    Qed.
    Lemma shaped_first pl p e : olds pl -> first_addr pl = Some head -> pl = [p] -> place e (fof pl) = Some O -> dropped e (fof pl) = None ->
      match e with RemoveNth _ _ => False | _ => True end ->
      shaped ah pl e (seen [Writes head NodeStart; Writes head NodeFrame; Writes ah TagSize]).
    Proof.
      intros O Fa E P D Nn. unfold shaped. rewrite P, D. rewrite E in Fa. injection Fa as Fa. assert (Np : nth_error pl 0 = Some p) by now rewrite E.
      assert (Ih : In head old) by (rewrite <- Fa; apply (old_node pl p O); rewrite E; now left).
      split; [|split; [|split]].
      - exists (Writes head NodeFrame). split; [|unfold key; rewrite Np; now rewrite Fa]. apply in_seen_write; [exact Ih|right; now left].
      - intros y Iy. apply filter_In in Iy as (Iy & _). rewrite <- Fa in Iy. destruct Iy as [<-|[<-|[<-|[]]]].
        + eapply MStart; [exact Np|lia].
        + eapply MFrame; [exact Np|lia].
        + apply MSize.
      - assert (In (Writes ah TagSize) (seen [Writes head NodeStart; Writes head NodeFrame; Writes ah TagSize])); [|now destruct e].
        apply in_seen_write; [eapply old_head; exact O|right; right; now left].
      - discriminate.
    Qed.
    Lemma shaped_more pl pre q e : olds pl -> full pl -> pl = pre ++ [q] -> place e (fof pl) = Some (length (fof pl)) -> dropped e (fof pl) = None ->
      match e with RemoveNth _ _ => False | _ => True end ->
      shaped ah pl e (seen [Writes (p_addr q) NodeNext; Writes ah TagSize]).
    Proof.
      intros O Fu E P D Nn. unfold shaped. rewrite P, D. rewrite (fof_length pl Fu). assert (Nq : nth_error pl (length pre) = Some q) by (rewrite E; apply nth_at).
      assert (Iq : In q pl) by now apply nth_error_In in Nq.
      split; [|split; [|split]].
      - exists (Writes (p_addr q) NodeNext). split; [apply in_seen_write; [now apply old_node with (pl := pl)|now left]|].
        unfold key. assert (nth_error pl (length pl) = None) as -> by (apply nth_error_None; lia). eauto.
      - intros y Iy. apply filter_In in Iy as (Iy & _). destruct Iy as [<-|[<-|[]]].
        + eapply MNext; [exact Nq|]. rewrite E, app_length. cbn [length]. lia.
        + apply MSize.
      - assert (In (Writes ah TagSize) (seen [Writes (p_addr q) NodeNext; Writes ah TagSize])); [|now destruct e].
        apply in_seen_write; [eapply old_head; exact O|right; now left].
      - discriminate.
    Qed.
    Lemma shaped_cut pl s1 q s2 e x W : olds pl -> pl = s1 ++ q :: s2 -> n_frame (p_node q) = Some x ->
      place e (fof pl) = Some (length s1) -> dropped e (fof pl) = Some (length s1) ->
      (forall y, In y W -> In y (cut_log q s2 ++ [Writes ah TagSize] ++ map Frees (freed (p_lay q) (fp_frame x)))) ->
      incl (cut_log q s2 ++ map Frees (freed (p_lay q) (fp_frame x))) W ->
      match e with RemoveNth _ _ => True | _ => In (Writes ah TagSize) W end ->
      shaped ah pl e (seen W).
    Proof.
      intros O E Fq P D Up Lo Sz. unfold shaped. rewrite P, D.
      assert (Nq : nth_error pl (length s1) = Some q) by (subst; apply nth_at). assert (Iq : In q pl) by now apply nth_error_In in Nq.
      assert (Bq : p_frame_blocks q = frame_blocks (p_lay q) (fp_frame x)) by (unfold p_frame_blocks; now rewrite Fq).
      split; [|split; [|split]].
      - exists (Writes (p_addr q) NodeFrame). split; [|unfold key; now rewrite Nq]. apply in_seen_write; [now apply old_node with (pl := pl)|].
        apply Lo, in_or_app. left. now left.
      - intros y Iy. apply filter_In in Iy as (Iy & _). apply Up in Iy. rewrite !in_app_iff in Iy. destruct Iy as [Iy|[[<-|[]]|Iy]].
        + unfold cut_log in Iy. apply in_app_iff in Iy as [[<-|[<-|[<-|[]]]]|Iy].
          * eapply MFrame; [exact Nq|lia].
          * eapply MStart; [exact Nq|lia].
          * eapply MNext; [exact Nq|lia].
          * destruct s2 as [|r s2]; [destruct Iy|destruct Iy as [<-|[]]]. eapply MNode with (i := S (length s1)); [rewrite E; apply nth_after|lia].
        + apply MSize.
        + apply in_map_iff in Iy as (b & <- & Ib). eapply MDropped; [reflexivity|exact Nq|]. rewrite Bq. now apply freed_in.
      - destruct e; auto; (apply in_seen_write; [eapply old_head; exact O|exact Sz]).
      - intros k q' [= <-] Nq'. rewrite Nq in Nq'. injection Nq' as <-. apply in_seen_free.
        + apply (old_frame pl q _ O Iq). rewrite Bq. apply freed_in, data_freed.
        + apply Lo, in_or_app. right. apply in_map, data_freed.
    Qed.
    Lemma shaped_hole pl p id : olds pl -> pl = [p] -> fof pl = [] -> shaped ah pl (RemoveNth id 0) (seen (cut_log p [])).
    Proof.
      intros O E Ef. unfold shaped, place. rewrite Ef. cbn [dropped victim_pos nth_pos Z.eqb].
      assert (Np : nth_error pl 0 = Some p) by now rewrite E. assert (Ip : In p pl) by (rewrite E; now left).
      split; [|split; [|split]].
      - exists (Writes (p_addr p) NodeFrame). split; [|unfold key; now rewrite Np]. apply in_seen_write; [now apply old_node with (pl := pl)|now left].
      - intros y Iy. apply filter_In in Iy as (Iy & _). destruct Iy as [<-|[<-|[<-|[]]]].
        + eapply MFrame; [exact Np|lia].
        + eapply MStart; [exact Np|lia].
        + eapply MNext; [exact Np|lia].
      - exact I.
      - discriminate.
    Qed.

    (** With a new frame, the tag is still there. *)
    Lemma with_new h h1 pl l f : in_tag h pl [] -> heap_is h1 (frame_blocks l f ++ node_blocks head pl ++ all_frame_blocks pl ++ [] ++ base) -> in_tag h1 pl (frame_blocks l f).
    Proof. intros (_ & Fa & S & K) H. split; [|auto]. eapply heap_perm; [exact H|]. cbn [app]. perm. Qed.

    Lemma e_install pl f n e : first_addr pl = Some head -> olds pl -> good pl -> (S (length pl) < n)%nat ->
      place e (fof pl) = Some (length (fof pl)) -> dropped e (fof pl) = None -> match e with RemoveNth _ _ => False | _ => True end ->
      exists W, shaped ah pl e W /\ forall l h, in_tag h pl (frame_blocks l f) ->
        leads (install_frame_p n (Some a) None (Some (l_self l))) h W [Reads a TagFrames] (fun _ _ => True).
    Proof.
      intros Fa O G L P D Nn. destruct (good_cases pl G) as [(p & E & Np & Ef)|(Fu & Ne)].
      - subst pl. exists (seen [Writes head NodeStart; Writes head NodeFrame; Writes ah TagSize]). split.
        + rewrite Ef in *. eapply shaped_first; eauto; rewrite Ef; assumption.
        + intros l h T. eapply e_install_first; eauto.
      - destruct (exists_last Ne) as (pre & q & E). subst pl. exists (seen [Writes (p_addr q) NodeNext; Writes ah TagSize]). split.
        + eapply shaped_more; eauto.
        + intros l h T. eapply e_install_more; eauto.
          * intros x Ix. apply O in Ix. rewrite !map_app, !in_app_iff in *. tauto.
          * intros p Ip. destruct (Fu p Ip) as (e' & ->). reflexivity.
          * rewrite app_length in L. lia.
    Qed.

    Lemma edit_leads h pl n c e : in_tag h pl [] -> olds pl -> good pl -> means c e -> edit_ok e = true -> deletes_one e (fof pl) -> (S (length pl) < n)%nat ->
      exists W, shaped ah pl e W /\ leads (run_call_p n (Some a) c) h W (edit_reads e pl) (fun _ _ => True).
    Proof.
      intros T O G M Ok Del L. assert (T0 := T). destruct T as (H & Fa & S & K). unfold edit_reads. destruct e as [f|f|id|id i]; cbn [edit_ok deletes_one] in *.
      - destruct (put_p c f M Ok) as (newp & arg & Mk & P & Er). pose proof (frame_of_sane f Ok) as (_ & Sz).
        pose proof (frame_ok_common f Ok) as (L4 & _).
        assert (Get : forall l h1 W Q, in_tag h1 pl (frame_blocks l (frame_of f)) ->
          leads (install_frame_p n (Some a) (get_ptr (frame_id f) pl) (Some (l_self l))) h1 W [Reads a TagFrames] Q ->
          leads (do! fr := look_ptr (Some a) TagFrames in do! e := get_frame_by_id_p n fr arg in install_frame_p n (Some a) e (Some (l_self l))) h1 W [Reads a TagFrames] Q).
        { intros l h1 W Q T1 X. pose proof (base_in _ _ _ _ _ _ _ _ _ T1) as Ib. destruct T1 as (H1 & _).
          eapply e_peek; [exact H1|exact Ib|reflexivity|]. rewrite <- Fa.
          eapply e_read; [eapply (d_get _ _ head arg (frame_id f) H1 P L4 pl n); [apply incl_appl, incl_refl|apply incl_appr, incl_appl, incl_refl|exact S|lia]|apply get_log_reads|exact X]. }
        destruct (first_pos (named (frame_id f)) (fof pl)) as [k|] eqn:Fp.
        + destruct (good_cases pl G) as [(p & _ & _ & Ef)|(Fu & Ne)]; [rewrite Ef in Fp; discriminate Fp|].
          destruct (first_split _ pl Fu k Fp) as (s1 & q & s2 & x & E & Lk & Fq & Nq & Al). subst k.
          eexists. split; [eapply shaped_old; eauto|]. rewrite Er. eapply Mk; [exact H|]. intros l h1 H1.
          pose proof (with_new h h1 pl l _ T0 H1) as T1. apply Get; [exact T1|]. subst pl. rewrite (get_ptr_first _ s1 q s2 x) by auto.
          eapply e_install_old; eauto; [lia|]. rewrite app_length in L. lia.
        + assert (exists W, shaped ah pl (Put f) W /\ forall l h1, in_tag h1 pl (frame_blocks l (frame_of f)) ->
             leads (install_frame_p n (Some a) None (Some (l_self l))) h1 W [Reads a TagFrames] (fun _ _ => True)) as (W & Sh & X).
          { apply e_install; auto; try lia; cbn [place dropped]; now rewrite Fp. }
          exists W. split; [exact Sh|]. rewrite Er. eapply Mk; [exact H|]. intros l h1 H1.
          pose proof (with_new h h1 pl l _ T0 H1) as T1. apply Get; [exact T1|]. rewrite (get_ptr_none _ _ (first_none _ _ Fp)). now apply X.
      - destruct (append_p c f M Ok) as (newp & Mk & Er). pose proof (frame_of_sane f Ok) as (_ & Sz).
        assert (exists W, shaped ah pl (Append f) W /\ forall l h1, in_tag h1 pl (frame_blocks l (frame_of f)) ->
           leads (install_frame_p n (Some a) None (Some (l_self l))) h1 W [Reads a TagFrames] (fun _ _ => True)) as (W & Sh & X).
        { apply e_install; auto; try lia. }
        exists W. split; [exact Sh|]. rewrite Er. eapply Mk; [exact H|]. intros l h1 H1. apply X. exact (with_new h h1 pl l _ T0 H1).
      - destruct (remove_p c id M) as (arg & P & L4 & Er). rewrite Er. cbn [victim_pos] in Del.
        destruct (first_pos (named id) (fof pl)) as [k|] eqn:Fp; [|congruence].
        destruct (good_cases pl G) as [(p & _ & _ & Ef)|(Fu & Ne)]; [rewrite Ef in Fp; discriminate Fp|].
        destruct (first_split _ pl Fu k Fp) as (s1 & q & s2 & x & E & Lk & Fq & Nq & Al). subst k.
        eexists. split; [|subst pl; eapply e_delete; eauto; [now apply old_incl|rewrite app_length in L; lia]].
        eapply (shaped_cut pl s1 q s2 (Remove id) x); eauto.
        + intros y Iy. rewrite !in_app_iff in *. tauto.
        + cbn. right. right. right. apply in_or_app. right. now left.
      - destruct (remove_nth_p c id i M) as (arg & P & L4 & Er). rewrite Er.
        destruct (good_cases pl G) as [(p & E & Np & Ef)|(Fu & Ne)].
        + destruct (Z.eq_dec i 0) as [->|Ni].
          * exists (seen (cut_log p [])). split; [now apply shaped_hole|]. subst pl. eapply e_nth_hole; eauto. now apply old_incl.
          * exists []. split.
            { unfold shaped, place. rewrite Ef. destruct (Z.eqb_spec i 0); [congruence|reflexivity]. }
            eapply e_nth_none; eauto; [now apply old_incl|]. apply nth_none. now rewrite Ef.
        + assert (Pl : place (RemoveNth id i) (fof pl) = nth_pos (named id) i (fof pl)).
          { unfold place. destruct (fof pl) eqn:Ef; [|reflexivity]. exfalso. apply Ne. pose proof (fof_length pl Fu) as Lf. rewrite Ef in Lf. now destruct pl. }
          destruct (nth_pos (named id) i (fof pl)) as [k|] eqn:Fp.
          * destruct (nth_split _ pl Fu i k Fp) as (s1 & q & s2 & x & E & Lk & Fq & Nq & Ix). subst k.
            eexists. split; [|subst pl; eapply e_nth_cut; eauto; now apply old_incl].
            eapply (shaped_cut pl s1 q s2 (RemoveNth id i) x); eauto.
            { intros y Iy. rewrite !in_app_iff in *. tauto. }
            { apply incl_refl. }
          * exists []. split; [unfold shaped; now rewrite Pl|]. eapply e_nth_none; eauto; [now apply old_incl|]. now apply nth_none.
    Qed.

    (** ** Requests that do not change the tag *)

    Definition ptrs_of (pl : list pnode) : list (nat * frame) := map (fun x => (l_self (fst x), fp_frame (snd x))) (listed pl).

    Lemma get_does h pl n arg id : in_tag h pl [] -> points_to arg id -> length id = 4%nat -> (length pl < n)%nat ->
      does (request_p n (Get (Some a) arg)) h (Reads a TagFrames :: get_log id pl) (Found (get_ptr id pl)) h.
    Proof.
      intros T P L4 L. pose proof (base_in _ _ _ _ _ _ _ _ _ T) as Ib. destruct T as (H & Fa & S & K).
      cbn [request_p]. unfold ID3v2_Tag_get_frame_p. rewrite <- (app_nil_r (_ :: _)).
      eapply d_bind; [|apply d_ret]. change (?x :: ?l) with ([x] ++ l) at 1.
      eapply d_bind; [eapply d_look_ptr; [exact H|exact Ib|reflexivity]|]. rewrite <- Fa.
      eapply (d_get _ _ head arg id H P L4 pl n); [apply incl_appl, incl_refl|apply incl_appr, incl_appl, incl_refl|exact S|exact L].
    Qed.

    Lemma text_does h pl more n q x d : in_tag h pl more -> In q pl -> n_frame (p_node q) = Some x -> f_data (fp_frame x) = DText d ->
      does (request_p n (Text (Some (l_self (p_lay q))))) h
        [Reads (l_self (p_lay q)) FrameData; Reads (l_data (p_lay q)) TextText; Reads (l_x (p_lay q)) Chars] (TextIs (td_text d)) h.
    Proof.
      intros (H & _) Iq Fq D. assert (If : incl (frame_blocks (p_lay q) (fp_frame x)) (node_blocks head pl ++ all_frame_blocks pl ++ more ++ base)).
      { apply incl_appr, incl_appl. now apply frames_in_first. }
      unfold frame_blocks in If. rewrite D in If. cbn [request_p].
      change [?x; ?y; ?z] with ([x] ++ [y] ++ [z] ++ []). 
      eapply d_bind; [eapply d_look_ptr; [exact H|apply If; now left|reflexivity]|].
      eapply d_bind; [eapply d_look_ptr; [exact H|apply If; right; right; now left|reflexivity]|].
      eapply d_bind; [eapply d_look_chars; [exact H|apply If; right; right; right; now left|reflexivity]|]. apply d_ret.
    Qed.

    Lemma all_leads h pl n arg id : in_tag h pl [] -> olds pl -> good pl -> points_to arg id -> length id = 4%nat -> (S (length pl) < n)%nat ->
      leads (request_p n (GetAll (Some a) arg)) h [] (Reads a TagFrames :: all_reads pl)
        (fun r h1 => r = FoundAll (map (fun x => Some (l_self (fst x))) (filter (wanted id) (listed pl))) /\ in_tag h1 pl []).
    Proof.
      intros T O G P L4 L. pose proof (base_in _ _ _ _ _ _ _ _ _ T) as Ib. destruct T as (H & Fa & S & K).
      cbn [request_p app] in *. unfold ID3v2_Tag_get_frames_p.
      eapply e_bind with (W1 := []) (W2 := []) (R1 := Reads a TagFrames :: all_reads pl) (R2 := []); [| |reflexivity|rewrite app_nil_r; apply incl_refl].
      - eapply e_look; [exact H|exact Ib|reflexivity|]. rewrite <- Fa.
        apply (e_get_frames old head arg id _ n h pl P L4 H (old_incl _ O) G); auto; [apply incl_appl, incl_refl|apply incl_appr, incl_appl, incl_refl|lia].
      - intros v h1 (hs & sl & -> & H1 & F1 & G1 & L1 & Le). rewrite <- F1.
        eapply e_bind with (W1 := []) (W2 := []) (R1 := []) (R2 := []); [|  |reflexivity|intros x []].
        + eapply (e_frames_on_good old hs h1 _ sl n H1 G1); [apply incl_appl, incl_refl|lia].
        + intros fs h2 (-> & ->). rewrite L1. eapply e_bind with (W1 := []) (W2 := []) (R1 := []) (R2 := []); [|  |reflexivity|intros x []].
          * apply (e_unlink old hs sl n h1 _ H1); [|lia]. intros p Ip. eapply new_node; [exact H1|exact (old_incl _ O)|exact Ip].
          * intros [] h2 H2. apply e_ret. split; [reflexivity|]. split; auto.
    Qed.

    Lemma free_leads h pl n : in_tag h pl [] -> (length pl < n)%nat ->
      leads (request_p n (FreeTag (Some a))) h (seen ([Frees ah] ++ free_log pl ++ [Frees a])) [] (fun x _ => x = Nothing).
    Proof.
      intros T L. pose proof (base_in _ _ _ _ _ _ _ _ _ T) as Ib. destruct T as (H & Fa & S & K). cbn [request_p app] in *. unfold ID3v2_Tag_free_p.
      eapply e_bind with (R1 := []) (R2 := []) (W2 := []) (Q1 := fun _ _ => True); [|intros [] h1 _; now apply e_ret|now rewrite app_nil_r|intros x []].
      eapply e_peek; [exact H|exact Ib|reflexivity|]. change (?x :: ?l) with ([x] ++ l) at 1. rewrite !filter_app.
      eapply e_drop with (m' := node_blocks head pl ++ all_frame_blocks pl ++ (a, BTag (Some ah) (Some head) pd) :: rest); [exact H|perm|]. intros h1 H1.
      eapply e_peek; [exact H1|do 2 (apply in_or_app; right); now left|reflexivity|]. rewrite <- Fa.
      eapply e_bind with (R1 := []) (R2 := []) (W2 := seen [Frees a]); [apply (e_free_list old head pl n h1 _ H1 K L)| |reflexivity|intros x []].
      intros [] h2 H2. apply e_tail. rewrite <- (app_nil_r (seen _)).
      eapply e_drop with (m' := flat_map p_leak pl ++ rest); [exact H2|symmetry; apply Permutation_middle|]. intros h3 _. now apply e_ret.
    Qed.
  End Tag.
End Old.
