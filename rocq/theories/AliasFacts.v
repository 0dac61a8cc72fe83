(** Lemmas for C84: arguments that point into the tag. *)
From Verif Require Import Heap Alias Spec SpecEdit SpecHeap SpecAlias HeapFacts UtilsFacts FrameFacts ListFacts HeapEditFacts.
From Coq Require Import Lia.

(** Addresses are below the next one. *)
Definition below (h : heap) : Prop := forall a b, lookup a (live h) = Some b -> (a < next h)%nat.

(** Nothing that can be read as an array has changed. *)
Definition keeps (h h' : heap) : Prop := forall x c, string_of x h = Some c -> string_of x h' = Some c.

Lemma fetch_is x h c : string_of x h = Some c -> fetch x h = Ok c.
Proof.
  unfold string_of, fetch, load. destruct x as [o|p what off]; [now intros [= ->]|].
  cbn [deref bind]. destruct (lookup p (live h)) as [b|]; [|discriminate]. cbn [bind].
  destruct (array what b); [now intros [= <-]|discriminate].
Qed.

Lemma keeps_refl h : keeps h h.
Proof. intros x c E. exact E. Qed.

Lemma keeps_trans h h1 h2 : keeps h h1 -> keeps h1 h2 -> keeps h h2.
Proof. intros A B x c E. auto. Qed.

Lemma malloc_keeps b h a h' : malloc b h = (a, h') -> below h -> keeps h h' /\ below h'.
Proof.
  unfold malloc. intros [= <- <-] W. split.
  - intros [o|p what off] c E; [exact E|]. cbn [string_of live lookup] in *.
    destruct (Nat.eqb_spec (next h) p) as [Q|_]; [|exact E].
    destruct (lookup p (live h)) as [b'|] eqn:L; [|discriminate E]. apply W in L. lia.
  - intros p b' L. cbn [live lookup next] in *. destruct (Nat.eqb_spec (next h) p) as [Q|_]; [lia|]. apply W in L. lia.
Qed.

Lemma text_keeps t h d n h' : TextFrameData_new_h t h = Ok (d, n, h') -> below h -> keeps h h' /\ below h'.
Proof.
  unfold TextFrameData_new_h. destruct (TextFrameData_new t) as [x| | |]; cbn [bind]; try discriminate. intros E W.
  destruct (malloc (BBytes (td_text x)) h) as (a1 & h1) eqn:E1. destruct (malloc_keeps _ _ _ _ E1 W) as (K1 & W1).
  destruct (malloc (BText _ _ _) h1) as (a2 & h2) eqn:E2. destruct (malloc_keeps _ _ _ _ E2 W1) as (K2 & W2).
  injection E as _ _ <-. split; [eapply keeps_trans; eassumption|exact W2].
Qed.

Lemma comment_keeps l s c h d n h' : CommentFrameData_new_h l s c h = Ok (d, n, h') -> below h -> keeps h h' /\ below h'.
Proof.
  unfold CommentFrameData_new_h. destruct (CommentFrameData_new l s c) as [x| | |]; cbn [bind]; try discriminate. intros E W.
  destruct (malloc (BBytes (cd_comment x)) h) as (a1 & h1) eqn:E1. destruct (malloc_keeps _ _ _ _ E1 W) as (K1 & W1).
  destruct (malloc (BBytes (cd_short x)) h1) as (a2 & h2) eqn:E2. destruct (malloc_keeps _ _ _ _ E2 W1) as (K2 & W2).
  destruct (malloc (BComment _ _ _ _ _) h2) as (a3 & h3) eqn:E3. destruct (malloc_keeps _ _ _ _ E3 W2) as (K3 & W3).
  injection E as _ _ <-. split; [eauto using keeps_trans|exact W3].
Qed.

Lemma apic_keeps e ty m n b h d k h' : ApicFrameData_new_h e ty m n b h = Ok (d, k, h') -> below h -> keeps h h' /\ below h'.
Proof.
  unfold ApicFrameData_new_h. destruct (ApicFrameData_new e ty m n b) as [x| | |]; cbn [bind]; try discriminate. intros E W.
  destruct (malloc (BBytes (ad_desc x)) h) as (a1 & h1) eqn:E1. destruct (malloc_keeps _ _ _ _ E1 W) as (K1 & W1).
  destruct (malloc (BBytes (ad_mime x)) h1) as (a2 & h2) eqn:E2. destruct (malloc_keeps _ _ _ _ E2 W1) as (K2 & W2).
  destruct (malloc (BBytes (ad_data x)) h2) as (a3 & h3) eqn:E3. destruct (malloc_keeps _ _ _ _ E3 W2) as (K3 & W3).
  destruct (malloc (BApic _ _ _ _ _ _) h3) as (a4 & h4) eqn:E4. destruct (malloc_keeps _ _ _ _ E4 W3) as (K4 & W4).
  injection E as _ _ <-. split; [eauto using keeps_trans|exact W4].
Qed.

Lemma header_is id flags n h i f : string_of id h = Some i -> string_of flags h = Some f ->
  FrameHeader_new_a id flags n h = FrameHeader_new_h i f n h.
Proof. intros I F. unfold FrameHeader_new_a. now rewrite (fetch_is _ _ _ I), (fetch_is _ _ _ F). Qed.

Lemma header_keeps i f n h a h' : FrameHeader_new_h i f n h = Ok (a, h') -> below h -> keeps h h' /\ below h'.
Proof.
  unfold FrameHeader_new_h. destruct (FrameHeader_new i f n) as [x| | |]; cbn [bind]; try discriminate.
  intros E W. injection E as <- <-. now apply (malloc_keeps (BFrameHeader x) h (next h)).
Qed.

Ltac step :=
  match goal with
  | |- context [bind ?m _] => destruct m as [?| | |] eqn:?; cbn [bind]; try reflexivity
  end.

Lemma new_text_is id flags text h i f t : below h ->
  string_of id h = Some i -> string_of flags h = Some f -> string_of text h = Some t ->
  TextFrame_new_a id flags text h = TextFrame_new_h i f t h
  /\ forall a h', TextFrame_new_h i f t h = Ok (a, h') -> keeps h h' /\ below h'.
Proof.
  intros W I F T. unfold TextFrame_new_a, TextFrame_new_h. rewrite (fetch_is _ _ _ T). cbn [bind].
  destruct (TextFrameData_new_h t h) as [((d & n) & h1)| | |] eqn:E; cbn [bind]; try (split; [reflexivity|discriminate]).
  destruct (text_keeps _ _ _ _ _ E W) as (K1 & W1).
  destruct (iadd ID3v2_FRAME_ENCODING_LENGTH n) as [s| | |]; cbn [bind]; try (split; [reflexivity|discriminate]).
  rewrite (header_is id flags s h1 i f) by auto. split; [reflexivity|].
  destruct (FrameHeader_new_h i f s h1) as [(hd & h2)| | |] eqn:E2; cbn [bind]; try discriminate.
  destruct (header_keeps _ _ _ _ _ _ E2 W1) as (K2 & W2).
  intros a h' E3. injection E3 as E3 E4. destruct (malloc_keeps _ _ a h' (f_equal2 pair E3 E4) W2) as (K3 & W3).
  split; [eauto using keeps_trans|exact W3].
Qed.

Lemma new_comment_is flags lang short comment h f l s c : below h ->
  string_of flags h = Some f -> string_of lang h = Some l -> string_of short h = Some s -> string_of comment h = Some c ->
  CommentFrame_new_a flags lang short comment h = CommentFrame_new_h f l s c h.
Proof.
  intros W F L S C. unfold CommentFrame_new_a, CommentFrame_new_h.
  rewrite (fetch_is _ _ _ L), (fetch_is _ _ _ S), (fetch_is _ _ _ C). cbn [bind].
  destruct (CommentFrameData_new_h l s c h) as [((d & n) & h1)| | |] eqn:E; cbn [bind]; try reflexivity.
  destruct (comment_keeps _ _ _ _ _ _ _ E W) as (K1 & W1).
  rewrite (fetch_is _ _ _ (K1 _ _ S)). cbn [bind]. do 4 step. now rewrite (header_is _ flags _ h1 ID3v2_COMMENT_FRAME_ID f) by auto.
Qed.

Lemma new_apic_is flags desc ty mime n data h f e m b : below h ->
  string_of flags h = Some f -> string_of desc h = Some e -> string_of mime h = Some m -> string_of data h = Some b ->
  ApicFrame_new_a flags desc ty mime n data h = ApicFrame_new_h f e ty m n b h.
Proof.
  intros W F L S C. unfold ApicFrame_new_a, ApicFrame_new_h.
  rewrite (fetch_is _ _ _ L), (fetch_is _ _ _ S), (fetch_is _ _ _ C). cbn [bind].
  destruct (ApicFrameData_new_h e ty m n b h) as [((d & k) & h1)| | |] eqn:E; cbn [bind]; try reflexivity.
  destruct (apic_keeps _ _ _ _ _ _ _ _ _ E W) as (K1 & W1).
  rewrite (fetch_is _ _ _ (K1 _ _ L)). cbn [bind]. step. rewrite (fetch_is _ _ _ (K1 _ _ S)). cbn [bind]. do 5 step.
  now rewrite (header_is _ flags _ h1 ID3v2_ALBUM_COVER_FRAME_ID f) by auto.
Qed.

Lemma matches_is frame id h i : string_of id h = Some i -> id_matches_a frame id h = id_matches_h frame i h.
Proof. intros I. unfold id_matches_a, id_matches_h. step. now rewrite (fetch_is _ _ _ I). Qed.

Lemma get_is id h i : string_of id h = Some i -> forall fuel list, get_frame_by_id_a fuel list id h = get_frame_by_id_h fuel list i h.
Proof.
  intros I. induction fuel as [|fuel IH]; intros list; [reflexivity|]. cbn [get_frame_by_id_a get_frame_by_id_h].
  destruct list as [a|]; [|reflexivity]. step. destruct a0 as ((fr & st) & nx). destruct fr as [fr|]; [|reflexivity].
  rewrite (matches_is _ _ _ _ I). step. now rewrite IH.
Qed.

Lemma remove_is id h i : string_of id h = Some i -> forall fuel list, remove_by_id_a fuel list id h = remove_by_id fuel list i h.
Proof.
  intros I. induction fuel as [|fuel IH]; intros list; [reflexivity|]. cbn [remove_by_id_a remove_by_id].
  destruct list as [a|]; [|reflexivity]. step. destruct a0 as ((fr & st) & nx).
  rewrite (matches_is _ _ _ _ I). step. now rewrite IH.
Qed.

Lemma store_keeps p f s n h h' : (exists q, load_node p h = Ok q) -> store p (BNode f s n) h = Ok h' -> below h ->
  keeps h h' /\ below h'.
Proof.
  unfold load_node, store, load. destruct p as [a|]; cbn [deref bind]; [|intros (q & E); discriminate E].
  destruct (lookup a (live h)) as [b|] eqn:L; cbn [bind]; [|intros (q & E); discriminate E].
  intros (q & Eq) E W. injection E as <-.
  assert (U : forall x l, lookup a l = Some b -> lookup x (update a (BNode f s n) l) = if Nat.eqb a x then Some (BNode f s n) else lookup x l).
  { intros x l. induction l as [|(y & c) l IH]; [discriminate|]. cbn [lookup update].
    destruct (Nat.eqb_spec y a) as [->|Ne]; cbn [lookup].
    - intros _. destruct (Nat.eqb a x); reflexivity.
    - intros La. destruct (Nat.eqb_spec y x) as [->|Nx]; [|now apply IH]. destruct (Nat.eqb_spec a x); [congruence|reflexivity]. }
  split.
  - intros [o|x what off] c E; [exact E|]. cbn [string_of live] in *. rewrite U by exact L.
    destruct (Nat.eqb_spec a x) as [<-|_]; [|exact E]. rewrite L in E. destruct b; try discriminate Eq. destruct what; discriminate E.
  - intros x c. cbn [live next]. rewrite U by exact L. destruct (Nat.eqb_spec a x) as [<-|_]; intros E; [now apply W in L|now apply W in E].
Qed.

Lemma add_keeps list f h h' : FrameList_add_frame_h list f h = Ok h' -> below h -> keeps h h' /\ below h'.
Proof.
  unfold FrameList_add_frame_h. intros E W.
  destruct (load_node list h) as [((f0 & st) & nx)| | |] eqn:E0; cbn [bind] in E; try discriminate E.
  destruct st as [st|]; [|eapply store_keeps; eauto].
  destruct (FrameList_new_h h) as (cur & h1) eqn:E1. destruct (malloc_keeps _ _ _ _ E1 W) as (K1 & W1).
  destruct (load_node list h1) as [((f1 & st1) & nx1)| | |] eqn:E2; cbn [bind] in E; try discriminate E.
  destruct (store (Some cur) _ h1) as [h2| | |] eqn:E3; cbn [bind] in E; try discriminate E.
  assert (C : exists q, load_node (Some cur) h1 = Ok q).
  { unfold FrameList_new_h, malloc in E1. injection E1 as <- <-. unfold load_node, load. cbn [deref bind live lookup]. rewrite Nat.eqb_refl. cbn [bind]. eauto. }
  destruct (store_keeps _ _ _ _ _ _ C E3 W1) as (K2 & W2).
  destruct (last_node (enough h2) list h2) as [la| | |]; cbn [bind] in E; try discriminate E.
  destruct (load_node la h2) as [((f3 & s3) & n3)| | |] eqn:E4; cbn [bind] in E; try discriminate E.
  destruct (store_keeps _ _ _ _ _ _ (ex_intro _ _ E4) E W2) as (K3 & W3). split; [eauto using keeps_trans|exact W3].
Qed.

Lemma gets_is id i sub : forall fuel list h, below h -> string_of id h = Some i ->
  get_frames_loop_a fuel list id sub h = get_frames_loop_h fuel list i sub h.
Proof.
  induction fuel as [|fuel IH]; intros list h W I; [reflexivity|]. cbn [get_frames_loop_a get_frames_loop_h].
  destruct list as [a|]; [|reflexivity]. destruct (load_node (Some a) h) as [((fr & st) & nx)| | |]; cbn [bind]; try reflexivity.
  destruct fr as [fr|]; [|reflexivity]. rewrite (matches_is _ _ _ _ I). step.
  assert (K : forall h', (if a0 then FrameList_add_frame_h sub (Some fr) h else Ok h) = Ok h' -> keeps h h' /\ below h').
  { destruct a0; [intros; eapply add_keeps; eauto|intros h' E; injection E as <-; split; [apply keeps_refl|exact W]]. }
  destruct (if a0 then FrameList_add_frame_h sub (Some fr) h else Ok h) as [h1| | |]; cbn [bind]; try reflexivity.
  destruct (K h1 eq_refl) as (K1 & W1). destruct (load_node (Some a) h1) as [((fr1 & st1) & nx1)| | |]; cbn [bind]; try reflexivity. auto.
Qed.

Lemma heap_below h m : heap_is h m -> below h.
Proof.
  intros (P & _ & B) a b L. apply lookup_in in L. rewrite Forall_forall in B. apply B.
  apply in_map_iff. exists (a, b). split; [reflexivity|]. now apply (Permutation_in _ P).
Qed.

Lemma tag_below_next h a t rest : tag_at h a t rest -> below h.
Proof. intros (l & ah & head & H & _). now apply heap_below in H. Qed.

Ltac known :=
  repeat match goal with
  | E : context [match string_of ?x ?h with _ => _ end] |- _ => destruct (string_of x h) eqn:?; [|discriminate E]
  end.

Lemma alias_is h m tag c k : heap_is h m -> with_copies c h = Some k -> run_acall tag c h = run_call_h tag k h.
Proof.
  intros H E. apply heap_below in H.
  destruct c; cbn [with_copies] in E; known; injection E as <-; cbn [run_acall run_call_h].
  - unfold ID3v2_Tag_set_text_frame_h. cbn [ti_id ti_flags ti_text].
    destruct (new_text_is id flags text h c c0 c1 H) as (-> & K); auto.
    destruct (TextFrame_new_h c c0 c1 h) as [(a & h1)| | |] eqn:N; cbn [bind]; try reflexivity.
    destruct (K a h1 eq_refl) as (K1 & _). step. unfold FrameList_get_frame_by_id_a, FrameList_get_frame_by_id_h.
    rewrite (get_is id h1 c) by auto. reflexivity.
  - unfold ID3v2_Tag_set_comment_frame_h. cbn [ci_flags ci_language ci_short_description ci_comment].
    erewrite new_comment_is by eassumption. reflexivity.
  - unfold ID3v2_Tag_add_comment_frame_h. cbn [ci_flags ci_language ci_short_description ci_comment].
    erewrite new_comment_is by eassumption. reflexivity.
  - unfold ID3v2_Tag_set_apic_frame_h. cbn [ai_flags ai_mime_type ai_description ai_picture_type ai_picture_size ai_data].
    erewrite new_apic_is by eassumption. reflexivity.
  - unfold ID3v2_Tag_add_apic_frame_h. cbn [ai_flags ai_mime_type ai_description ai_picture_type ai_picture_size ai_data].
    erewrite new_apic_is by eassumption. reflexivity.
  - unfold ID3v2_Tag_delete_frame_h, FrameList_remove_frame_by_id_h. step. erewrite remove_is by eassumption. reflexivity.
Qed.

Lemma alias_get h m tag id i : heap_is h m -> string_of id h = Some i ->
  ID3v2_Tag_get_frame_a tag id h = ID3v2_Tag_get_frame_h tag i h
  /\ ID3v2_Tag_get_frames_a tag id h = ID3v2_Tag_get_frames_h tag i h.
Proof.
  intros H I. apply heap_below in H. unfold ID3v2_Tag_get_frame_a, ID3v2_Tag_get_frame_h, ID3v2_Tag_get_frames_a, ID3v2_Tag_get_frames_h.
  destruct tag as [a|]; [|auto]. unfold FrameList_get_frame_by_id_a, FrameList_get_frame_by_id_h, FrameList_get_frames_by_id_a, FrameList_get_frames_by_id_h.
  split; step; [now rewrite (get_is id h i)|].
  destruct (FrameList_new_h h) as (s & h1) eqn:E. destruct (malloc_keeps _ _ _ _ E H) as (K & W).
  rewrite (gets_is id i) by auto. reflexivity.
Qed.

(** ** Strings of the frames of the tag itself *)

Lemma lookup_is h m a x : heap_is h m -> In (a, x) m -> lookup a (live h) = Some x.
Proof. intros H I. pose proof (load_is h m a x H I) as L. unfold load in L. cbn [deref bind] in L. destruct (lookup a (live h)); congruence. Qed.

Lemma frame_incl h a t l rest q x g :
  tag_laid h a t l rest -> In q l -> n_frame (p_node q) = Some (x, g) ->
  exists m, heap_is h m /\ incl (frame_blocks (p_lay q) g) m.
Proof.
  intros (ah & head & H & _) I E. eexists. split; [exact H|].
  intros y Iy. apply in_or_app. left. unfold tag_blocks. apply in_or_app. right. apply in_or_app. right.
  unfold all_frame_blocks. apply in_flat_map. exists q. split; [exact I|]. unfold p_frame_blocks. rewrite E. exact Iy.
Qed.

Lemma own_id h a t l rest q x g :
  tag_laid h a t l rest -> In q l -> n_frame (p_node q) = Some (x, g) ->
  string_of (Inside (l_header (p_lay q)) TheId 0) h = Some (Some (fh_id (f_hdr g))).
Proof.
  intros T I E. destruct (frame_incl _ _ _ _ _ _ _ _ T I E) as (m & H & F). cbn [string_of].
  now rewrite (lookup_is _ _ _ _ H (F _ (or_intror (or_introl eq_refl)))).
Qed.

Lemma own_strings h a t l rest q x id fl txt :
  tag_laid h a t l rest -> In q l -> n_frame (p_node q) = Some (x, frame_of (FText id fl txt)) ->
  string_of (Inside (l_header (p_lay q)) TheId 0) h = Some (Some (cells id))
  /\ string_of (Inside (l_header (p_lay q)) TheFlags 0) h = Some (Some (cells fl))
  /\ string_of (Inside (l_x (p_lay q)) TheBytes 0) h = Some (Some (cells (text_image txt))).
Proof.
  intros T I E. destruct (frame_incl _ _ _ _ _ _ _ _ T I E) as (m & H & F).
  cbn [string_of].
  rewrite (lookup_is _ _ _ _ H (F _ (or_intror (or_introl eq_refl)))).
  split; [reflexivity|]. split; [reflexivity|].
  rewrite (lookup_is h _ _ (BBytes (cells (text_image txt))) H); [reflexivity|]. apply F. right. right. right. left. reflexivity.
Qed.

Lemma alias_edit h a t rest fs c k e :
  tag_at h a t rest -> tag_has t fs -> Forall sane fs -> Forall kind_ok fs -> 0 <= th_tag_size (t_header t) < 2 ^ 32 ->
  with_copies c h = Some k -> means k e -> all_allowed [e] fs = true ->
  exists h' t' lost, run_acall (Some a) c h = Ok h' /\ tag_at h' a t' (lost ++ rest) /\ tag_has t' (apply_edit e fs).
Proof.
  intros T Th S K R C M A.
  destruct (edits_on_heap h a t rest fs [k] [e] T Th S K R ltac:(constructor; [exact M|constructor]) A)
    as (h2 & h3 & t' & lost & lost' & E & T' & Th' & _).
  assert (H : exists m, heap_is h m) by (destruct T as (l & ah & head & H & _); eauto). destruct H as (m & H).
  exists h2, t', lost. split; [|auto]. rewrite (alias_is h m (Some a) c k H C).
  cbn [run_calls_h] in E. destruct (run_call_h (Some a) k h) as [h1| | |]; cbn [bind] in E; congruence.
Qed.

Lemma exact_points l : points_to (Some (cells l)) l.
Proof. exists []. now rewrite app_nil_r. Qed.

Lemma copy_text h a t l rest fs q x id fl txt pj j pf f :
  tag_laid h a t l rest -> tag_has t fs -> Forall sane fs -> Forall kind_ok fs -> 0 <= th_tag_size (t_header t) < 2 ^ 32 ->
  In q l -> n_frame (p_node q) = Some (x, frame_of (FText id fl txt)) ->
  points_to pj j -> points_to pf f -> frame_ok (FText j f txt) = true ->
  exists h' t' lost,
    run_acall (Some a) (ASetText (Own pj) (Own pf) (Inside (l_x (p_lay q)) TheBytes 0)) h = Ok h'
    /\ tag_at h' a t' (lost ++ rest) /\ tag_has t' (put (named j) (frame_of (FText j f txt)) fs).
Proof.
  intros T Th S K R I E Pj Pf Ok. destruct (own_strings _ _ _ _ _ _ _ _ _ _ T I E) as (_ & _ & B).
  apply (alias_edit h a t rest fs _ (SetTextFrame (mkTextInput pj pf (Some (cells (text_image txt))))) (Put (FText j f txt)));
    auto; [now exists l| | |].
  - cbn [with_copies]. rewrite B. reflexivity.
  - apply MText; auto. apply exact_points.
  - cbn [all_allowed edit_ok allowed]. now rewrite Ok.
Qed.

Lemma put_back {A} (p : A -> bool) g fs1 fs2 : existsb p fs1 = false -> p g = true -> put p g (fs1 ++ g :: fs2) = fs1 ++ g :: fs2.
Proof.
  intros N P. induction fs1 as [|y fs1 IH]; cbn [app put]; [now rewrite P|].
  cbn [existsb] in N. apply Bool.orb_false_iff in N. destruct N as (-> & N). f_equal. now apply IH.
Qed.

Lemma set_to_itself h a t l rest fs1 fs2 q x id fl txt :
  let f := FText id fl txt in
  tag_laid h a t l rest -> tag_has t (fs1 ++ frame_of f :: fs2) -> Forall sane (fs1 ++ frame_of f :: fs2) ->
  Forall kind_ok (fs1 ++ frame_of f :: fs2) -> 0 <= th_tag_size (t_header t) < 2 ^ 32 ->
  In q l -> n_frame (p_node q) = Some (x, frame_of f) -> frame_ok f = true -> existsb (named id) fs1 = false ->
  exists h' t' lost,
    run_acall (Some a) (ASetText (Inside (l_header (p_lay q)) TheId 0) (Inside (l_header (p_lay q)) TheFlags 0)
                                 (Inside (l_x (p_lay q)) TheBytes 0)) h = Ok h'
    /\ tag_at h' a t' (lost ++ rest) /\ tag_has t' (fs1 ++ frame_of f :: fs2).
Proof.
  intros f T Th S K R I E Ok N. destruct (own_strings _ _ _ _ _ _ _ _ _ _ T I E) as (Bi & Bf & B).
  assert (Nf : named id (frame_of f) = true) by (apply (named_frame_of f)).
  rewrite <- (put_back (named id) (frame_of f) fs1 fs2 N Nf).
  apply (alias_edit h a t rest _ _ (SetTextFrame (mkTextInput (Some (cells id)) (Some (cells fl)) (Some (cells (text_image txt))))) (Put f));
    auto; [now exists l| | |].
  - cbn [with_copies]. rewrite Bi, Bf, B. reflexivity.
  - apply MText; apply exact_points.
  - cbn [all_allowed edit_ok allowed]. now rewrite Ok.
Qed.

Lemma delete_by_own_id h a t l rest fs q x g id :
  tag_laid h a t l rest -> tag_has t fs -> Forall sane fs -> Forall kind_ok fs -> 0 <= th_tag_size (t_header t) < 2 ^ 32 ->
  In q l -> n_frame (p_node q) = Some (x, g) -> fh_id (f_hdr g) = cells id -> length id = 4%nat -> allowed (Remove id) fs = true ->
  exists h' t' lost,
    run_acall (Some a) (ADelete (Inside (l_header (p_lay q)) TheId 0)) h = Ok h'
    /\ tag_at h' a t' (lost ++ rest) /\ tag_has t' (remove_first (named id) fs).
Proof.
  intros T Th S K R I E G L Al. pose proof (own_id _ _ _ _ _ _ _ _ T I E) as Bi. rewrite G in Bi.
  apply (alias_edit h a t rest fs _ (DeleteFrame (Some (cells id))) (Remove id)); auto; [now exists l| | |].
  - cbn [with_copies]. rewrite Bi. reflexivity.
  - apply MDelete; [apply exact_points|exact L].
  - cbn [all_allowed edit_ok]. now rewrite Al.
Qed.
