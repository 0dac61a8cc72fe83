(** Writing, deleting, editing and the interface of version 1 while memory may
    be refused. *)
From Verif Require Import Spec TagFacts AnyFacts FileFacts.
From Verif Require Import Oom SpecOom OomFacts OomReadFacts.
From Coq Require Import Lia ZifyBool ZifyNat.

Ltac Zify.zify_post_hook ::= Z.div_mod_to_equations.

(** ** Writing *)

Definition write_rest_o (f : file) (tag : Tag) (existing : option TagHeader) : oom (file * option Tag) :=
  let original_size := match existing with Some h => declared_length h | None => 0 end in
  let# d := lift (isub ID3v2_TAG_DEFAULT_PADDING_LENGTH (t_padding tag)) in
  let extra := clamp_int d 0 ID3v2_TAG_DEFAULT_PADDING_LENGTH in
  let# padding := lift (iadd (t_padding tag) extra) in
  let tag := mkTag (t_header tag) (t_frames tag) padding (t_fresh tag) in
  let# tag_cs := Tag_to_char_stream_o tag in
  let# temp := lift (fwrite_bytes (firstn (Z.to_nat (cs_size tag_cs)) (cs_stream tag_cs))) in
  match f with
  | None => lift (Ub NullDeref)
  | Some content =>
      ret (Some (copy_loop (copy_loop (from_offset content original_size) temp) []), Some tag)
  end.

Definition write_rest (f : file) (tag : Tag) (existing : option TagHeader) : outcome (file * option Tag) :=
  let original_size := match existing with Some h => declared_length h | None => 0 end in
  let* d := isub ID3v2_TAG_DEFAULT_PADDING_LENGTH (t_padding tag) in
  let extra := clamp_int d 0 ID3v2_TAG_DEFAULT_PADDING_LENGTH in
  let* padding := iadd (t_padding tag) extra in
  let tag := mkTag (t_header tag) (t_frames tag) padding (t_fresh tag) in
  let* tag_cs := Tag_to_char_stream tag in
  let* temp := fwrite_bytes (firstn (Z.to_nat (cs_size tag_cs)) (cs_stream tag_cs)) in
  match f with
  | None => Ub NullDeref
  | Some content => Ok (Some (temp ++ from_offset content original_size), Some tag)
  end.

Lemma states_last content temp : last (Some content :: Some [] :: map Some (copy_states temp [])) (Some content) = Some temp.
Proof. rewrite states_rewritten. apply last_rewritten. Qed.

Lemma write_is_rest f tag : ID3v2_write_tag f (Some tag) = bind (ID3v2_read_tag_header f) (write_rest f tag).
Proof.
  unfold ID3v2_write_tag, ID3v2_write_tag_states, write_rest.
  destruct (ID3v2_read_tag_header f) as [h| | |]; try reflexivity. cbn [bind]. cbv zeta.
  destruct (isub _ _); try reflexivity. cbn [bind]. destruct (iadd _ _); try reflexivity. cbn [bind].
  destruct (Tag_to_char_stream _); try reflexivity. cbn [bind].
  destruct (fwrite_bytes _); try reflexivity. cbn [bind].
  destruct f as [content|]; [|reflexivity]. cbn [bind]. now rewrite states_last, copy_loop_app.
Qed.

Lemma n_write_rest f tag e : needs_all (write_rest_o f tag e) (write_rest f tag e).
Proof.
  unfold write_rest_o, write_rest. cbv zeta. do 4 need1.
  destruct f as [content|]; [|need]. rewrite !copy_loop_app. cbn [app]. need.
Qed.

Lemma k_write_rest f tag e : asks within (write_rest_o f tag e).
Proof. pose proof k_Tag_to. unfold write_rest_o. kind. Qed.

Lemma write_rest_none content tag :
  write_rest (Some content) tag None
  = bind (ID3v2_write_tag (Some []) (Some tag)) (fun x => Ok (option_map (fun b => b ++ content) (fst x), snd x)).
Proof.
  rewrite write_is_rest. rewrite header_short by (cbn [length]; lia). cbn [bind]. unfold write_rest. cbv zeta.
  destruct (isub _ _); try reflexivity. cbn [bind]. destruct (iadd _ _); try reflexivity. cbn [bind].
  destruct (Tag_to_char_stream _); try reflexivity. cbn [bind].
  destruct (fwrite_bytes _); try reflexivity. cbn [bind fst snd option_map]. unfold from_offset. change (Z.to_nat 0) with 0%nat.
  cbn [skipn]. now rewrite app_nil_r.
Qed.

Lemma within_not_only new : all_asked within new = true -> granted new = false -> refused_only is_tag_header new = false.
Proof.
  intros A G. apply refused_not_only. eapply refused_some; [|apply granted_false_refused; eauto]. intros q. now destruct q.
Qed.

Lemma k_read_header f : asks (fun r => within r || is_tag_header r) (ID3v2_read_tag_header_o f).
Proof.
  unfold ID3v2_read_tag_header_o, ID3v2_read_tag_header_from_buffer_o, CharStream_from_buffer_o, TagHeader_parse_o, TagHeader_new_o. kind.
Qed.

(** What the end of a file call comes to when its first step, the reading of the
    header, may be refused: [ref] for every header. *)
Lemma after_header {A} f (rest_o : option TagHeader -> oom A) (rest : option TagHeader -> outcome A) :
  (forall e, needs_all (rest_o e) (rest e)) -> (forall e, asks within (rest_o e)) ->
  answers (bindo (ID3v2_read_tag_header_o f) rest_o) (bind (ID3v2_read_tag_header f) rest)
    (fun new r => if refused_only is_tag_header new then r = rest None else undefined r).
Proof.
  intros N K. eapply a_bind_any with (Q2 := fun new r => refused_only is_tag_header new = false /\ undefined r).
  - apply answers_and; [apply k_read_header|apply a_read_header].
  - intros h _. eapply a_weaken; [|apply answers_and; [apply K|apply N]]. cbv beta.
    intros new r G (A0 & U). split; [now apply within_not_only|exact U].
  - cbv beta. intros new e G (_ & H). unfold header_or_undefined in H.
    destruct (refused is_tag_header new); [|now destruct H]. destruct H as [R E]. injection E as ->.
    eapply ends_weaken; [|apply ends_and; [apply K|apply answers_ends, N]]. cbv beta. intros new2 r (A0 & H).
    rewrite refused_only_app, R, andb_true_r. destruct (granted new2) eqn:G2.
    + rewrite granted_refused_only by auto. exact H.
    + rewrite within_not_only by auto. exact H.
  - cbv beta. intros new r G (A0 & H) NO. unfold header_or_undefined in H.
    destruct (refused is_tag_header new) eqn:RH; [destruct H as [_ ->]; now edestruct NO|].
    destruct H as (u & ->). assert (refused_only is_tag_header new = false) as ->; [|now exists u].
    unfold refused_only. apply negb_false_iff. clear - G RH. induction new as [|[q [|]] new IH]; [discriminate G| |].
    + cbn [granted forallb refused existsb fst snd negb andb orb] in *. apply IH; auto.
    + cbn [refused existsb fst snd negb andb] in *. apply orb_false_iff in RH. destruct RH as [-> _]. reflexivity.
  - cbv beta. intros new1 new2 x r G _ _ (R & U). now rewrite refused_only_app, R.
Qed.

Lemma a_write f tag :
  answers (ID3v2_write_tag_o f (Some tag)) (ID3v2_write_tag f (Some tag))
    (fun new r => if refused_only is_tag_header new then r = write_rest f tag None else undefined r).
Proof.
  rewrite write_is_rest. change (ID3v2_write_tag_o f (Some tag)) with (bindo (ID3v2_read_tag_header_o f) (write_rest_o f tag)).
  apply after_header; [apply n_write_rest|apply k_write_rest].
Qed.

(** ** Deleting *)

Definition delete_rest (f : file) (h : option TagHeader) : outcome file :=
  match h with
  | None => Ok f
  | Some h =>
      match f with
      | None => Ub NullDeref
      | Some content => Ok (Some (from_offset content (declared_length h)))
      end
  end.

Lemma delete_is_rest f : ID3v2_delete_tag f = bind (ID3v2_read_tag_header f) (delete_rest f).
Proof.
  unfold ID3v2_delete_tag, ID3v2_delete_tag_states, delete_rest.
  destruct (ID3v2_read_tag_header f) as [[h|]| | |]; try reflexivity. cbn [bind].
  destruct f as [content|]; [|reflexivity]. cbn [bind]. now rewrite states_last, copy_loop_app.
Qed.

Lemma a_delete f :
  answers (ID3v2_delete_tag_o f) (ID3v2_delete_tag f)
    (fun new r => if refused_only is_tag_header new then r = Ok f else undefined r).
Proof.
  rewrite delete_is_rest. unfold ID3v2_delete_tag_o. apply (after_header f _ (delete_rest f)).
  - intros [h|]; cbn [delete_rest]; [|need]. destruct f; cbn [delete_rest]; [|apply a_lift]. rewrite !copy_loop_app. cbn [app]. apply a_ret.
  - intros e. kind.
Qed.

(** ** New tags *)

Lemma e_new_empty :
  ends_in ID3v2_Tag_new_empty_o (fun new r =>
    if refused is_tag new then undefined r
    else r = Ok (if refused is_tag_header new then Headless (tag_missing new)
                 else Whole (mkTag TagHeader_new_empty (tag_missing new) 0 0))).
Proof.
  unfold ID3v2_Tag_new_empty_o, ID3v2_Tag_new_o, TagHeader_new_empty_o, TagHeader_new_o, FrameList_new_o, bindo, ask, used, ret, lift.
  intros M l. cbn [no_bytes orb]. cbv zeta.
  destruct (M l RTag); (destruct (M (_ :: l) RTagHeader); [|]); cbn [fst snd].
  - destruct (M (_ :: _ :: l) RNode); eexists [(RNode, _); (RTagHeader, true); (RTag, true)]; split; reflexivity.
  - destruct (M (_ :: _ :: l) RNode); eexists [(RNode, _); (RTagHeader, false); (RTag, true)]; split; reflexivity.
  - exists [(RTagHeader, true); (RTag, false)]. split; [reflexivity|now exists NullDeref].
  - exists [(RTagHeader, false); (RTag, false)]. split; [reflexivity|now exists NullDeref].
Qed.

(** ** Lists of frames with an id *)

Lemma n_get_loop id : forall l sub, sub <> [] -> needs_all (get_frames_loop_o l id sub) (get_frames_loop l id sub).
Proof.
  induction l as [|n l IH]; intros sub S; cbn [get_frames_loop_o get_frames_loop]; [need|].
  destruct (n_frame n) as [p|]; [|need]. need1. need1; [|now apply IH].
  apply s_bind; [apply n_add_frame|]. intros s2 E. apply IH. destruct sub as [|s0 sub]; [now elim S|].
  cbn [FrameList_add_frame] in E. destruct (negb _); injection E as <-; discriminate.
Qed.

Lemma get_loop_started id : forall l n sub r, n_start n = true -> get_frames_loop l id (n :: sub) = Ok r -> exists k, r = n :: k.
Proof.
  induction l as [|x l IH]; intros n sub r S E; cbn [get_frames_loop] in E; [injection E as <-; eauto|].
  destruct (n_frame x) as [p|]; [|injection E as <-; eauto]. binv E. destruct v; [|eapply IH; eauto].
  cbn [FrameList_add_frame] in E. rewrite S in E. cbn [negb bind app] in E. eapply IH; eauto.
Qed.

Lemma benign_id_matches f id : benign (id_matches f id).
Proof. unfold id_matches. ben. Qed.

Lemma e_get_loop_null id : forall l,
  ends_in (get_frames_loop_o l id []) (fun new r => new = []
    /\ (get_frames_loop l id FrameList_new = Ok FrameList_new /\ r = Ok []
        \/ get_frames_loop l id FrameList_new <> Ok FrameList_new /\ undefined r)).
Proof.
  induction l as [|n l IH]; cbn [get_frames_loop_o get_frames_loop]; [apply ends_ret; auto|].
  destruct (n_frame n) as [p|]; [|apply ends_ret; auto].
  apply ends_bind_lift.
  - intros m E. rewrite E. cbn [bind]. destruct m; [|exact IH].
    cbn [FrameList_add_frame_o]. apply ends_bind_lift; [discriminate|]. intros _. split; [reflexivity|right].
    split; [|now exists NullDeref]. cbn [FrameList_add_frame FrameList_new empty_node n_start negb bind].
    intros E2. apply get_loop_started in E2; [|reflexivity]. destruct E2 as (k & E2). discriminate E2.
  - intros N. split; [reflexivity|right]. destruct (id_matches (fp_frame p) id) as [b|u|e|] eqn:E.
    + now destruct (N b).
    + split; [discriminate|now exists u].
    + pose proof (benign_id_matches (fp_frame p) id) as B. rewrite E in B. contradiction.
    + pose proof (benign_id_matches (fp_frame p) id) as B. rewrite E in B. contradiction.
Qed.

Lemma k_get_loop id : forall l sub, ends_in (get_frames_loop_o l id sub) (fun _ _ => True).
Proof.
  intros l sub. apply (ends_weaken _ (fun new _ => all_asked is_node new = true)); [auto|].
  revert sub. induction l as [|n l IH]; intros sub; cbn [get_frames_loop_o]; [apply k_ret|].
  destruct (n_frame n); [|apply k_ret]. apply k_bind; [apply k_lift|]. intros [|]; [|apply IH].
  apply k_bind; [unfold FrameList_add_frame_o; kind|]. intros. apply IH.
Qed.

Lemma e_get_loop_new id : forall l,
  ends_in (get_frames_loop_o l id FrameList_new)
    (fun new r => granted new = false -> get_frames_loop l id FrameList_new <> Ok FrameList_new).
Proof.
  induction l as [|n l IH]; cbn [get_frames_loop_o get_frames_loop]; [apply ends_ret; discriminate|].
  destruct (n_frame n) as [p|]; [|apply ends_ret; discriminate].
  apply ends_bind_lift; [|intros _; discriminate]. intros [|] E; rewrite E; cbn [bind]; [|exact IH].
  cbn [FrameList_add_frame_o FrameList_new empty_node n_start negb].
  eapply ends_bind; [apply (ends_ret _ (fun new r => new = [] /\ r = Ok [mkNode (Some p) true])); split; reflexivity| |].
  - intros new x (-> & E2). injection E2 as ->. eapply ends_weaken; [|apply k_get_loop]. cbv beta.
    intros new r _ _ E2. cbn [FrameList_add_frame n_start negb bind] in E2.
    apply get_loop_started in E2; [|reflexivity]. destruct E2 as (k & E2). discriminate E2.
  - intros new r (-> & ->) N. now edestruct N.
Qed.

Lemma flist_new_dec (o : outcome flist) : o = Ok FrameList_new \/ o <> Ok FrameList_new.
Proof.
  destruct o as [[|[[p|] [|]] [|]]| | |]; try (right; discriminate); try (right; intros E; injection E; discriminate). now left.
Qed.

Lemma a_get_frames l id :
  answers (FrameList_get_frames_by_id_o l id) (FrameList_get_frames_by_id l id)
    (fun new r => FrameList_get_frames_by_id l id = Ok FrameList_new /\ new = [(RNode, false)] /\ r = Ok []
               \/ FrameList_get_frames_by_id l id <> Ok FrameList_new /\ undefined r).
Proof.
  unfold FrameList_get_frames_by_id_o, FrameList_get_frames_by_id, FrameList_new_o. apply ends_answers.
  intros M l0. rewrite bindo_assoc. revert M l0.
  change (ends_in (bindo (ask RNode) (fun x => bindo (ret (if x then FrameList_new else [])) (fun sub => get_frames_loop_o l id sub)))
   (fun new r => if granted new then r = get_frames_loop l id FrameList_new else
      get_frames_loop l id FrameList_new = Ok FrameList_new /\ new = [(RNode, false)] /\ r = Ok []
               \/ get_frames_loop l id FrameList_new <> Ok FrameList_new /\ undefined r)).
  apply ends_ask. intros g _. destruct g.
  - eapply ends_weaken; [|apply ends_and; [apply e_get_loop_new|apply answers_ends, n_get_loop; discriminate]].
    cbv beta. intros new r (H1 & H2). rewrite granted_app, granted_one, andb_true_r. destruct (granted new); [exact H2|].
    right. split; [now apply H1|exact H2].
  - eapply ends_weaken; [|apply e_get_loop_null]. cbv beta. intros new r (-> & H). cbn [app]. rewrite granted_one.
    destruct H as [(E & ->)|H]; [left; auto|right; exact H].
Qed.

Lemma a_delete_nth t id index :
  answers (let# head := ID3v2_Tag_get_frames_o (Some t) id in
           let# frames := delete_nth_loop_o head 0 index (t_frames t) in
           ret (mkTag (t_header t) frames (t_padding t) (t_fresh t)))
          (let* head := ID3v2_Tag_get_frames (Some t) id in
           Ok (mkTag (t_header t) (delete_nth_loop head 0 index (t_frames t)) (t_padding t) (t_fresh t)))
    (fun new r => (ID3v2_Tag_get_frames (Some t) id = Ok FrameList_new /\ new = [(RNode, false)]) /\ r = Ok t
               \/ ~ (ID3v2_Tag_get_frames (Some t) id = Ok FrameList_new /\ new = [(RNode, false)]) /\ undefined r).
Proof.
  cbn [ID3v2_Tag_get_frames_o ID3v2_Tag_get_frames]. apply ends_answers.
  assert (NE : ends_in (FrameList_get_frames_by_id_o (t_frames t) id) (fun new _ => new <> [])).
  { intros M l. unfold FrameList_get_frames_by_id_o, FrameList_new_o. rewrite bindo_assoc. revert M l.
    apply (ends_ask RNode (fun p => bindo (ret (if p then FrameList_new else [])) (fun sub => get_frames_loop_o (t_frames t) id sub))
             (fun new _ => new <> [])). intros g _.
    eapply ends_weaken; [|apply (k_get_loop id (t_frames t) (if g then FrameList_new else []))]. cbv beta. intros new _ _.
    destruct new; discriminate. }
  eapply ends_bind; [apply ends_and; [exact NE|apply answers_ends, a_get_frames]| |].
  - cbv beta. intros new head (N & H). destruct (granted new) eqn:G.
    + rewrite <- H. cbn [bind].
      change (Ok (mkTag (t_header t) (delete_nth_loop head 0 index (t_frames t)) (t_padding t) (t_fresh t)))
        with (bind (Ok (delete_nth_loop head 0 index (t_frames t))) (fun f => Ok (mkTag (t_header t) f (t_padding t) (t_fresh t)))).
      assert (ND : needs_all (let# frames := delete_nth_loop_o head 0 index (t_frames t) in
                              ret (mkTag (t_header t) frames (t_padding t) (t_fresh t)))
                    (bind (Ok (delete_nth_loop head 0 index (t_frames t))) (fun f => Ok (mkTag (t_header t) f (t_padding t) (t_fresh t)))))
        by (apply s_bind; [apply n_delete_nth|intros f _; need]).
      eapply ends_weaken; [|apply answers_ends, ND].
      cbv beta. intros new2 r H2. rewrite granted_app, G, andb_true_r. destruct (granted new2) eqn:G2; [exact H2|].
      right. split; [|exact H2]. intros (_ & C). apply app_eq_unit in C. destruct C as [(-> & _)|(_ & C)]; [discriminate G2|now elim N].
    + destruct H as [(E & -> & Ey)|(_ & u & E)]; [|discriminate E]. injection Ey as ->. cbn [delete_nth_loop_o].
      apply ends_ret. cbn [app]. rewrite granted_one. left. split; [split; [exact E|reflexivity]|]. now destruct t.
  - cbv beta. intros new r (N & H) NO. destruct (granted new) eqn:G.
    + subst r. destruct (FrameList_get_frames_by_id (t_frames t) id) as [x| | |]; try reflexivity. now destruct (NO x).
    + destruct H as [(_ & _ & ->)|(E & u & ->)]; [now edestruct NO|]. right. split; [tauto|]. now exists u.
Qed.

(** ** All the calls on a tag *)

Lemma n_run_call t c : by_index c = false -> needs_all (run_call_o t c) (run_call t c).
Proof.
  intros H. destruct c; try discriminate H; cbn [run_call_o run_call];
    try apply n_set_text; try apply n_set_comment; try apply n_add_comment; try apply n_set_apic; try apply n_add_apic; try apply n_delete_frame.
Qed.

(** ** Version 1 *)

Lemma write_size cs d n cs' : CharStream_write cs d n = Ok cs' -> cs_size cs' = cs_size cs.
Proof.
  unfold CharStream_write. intros E. binv E. destruct (_ || _); [discriminate E|]. binv E. injection E as <-. reflexivity.
Qed.

Lemma new_size n cs : CharStream_new n = Ok cs -> cs_size cs = n.
Proof. unfold CharStream_new. intros E. destruct (n <? 0); [discriminate E|]. now injection E as <-. Qed.

Lemma start_size h cs : start_frame_stream h = Ok cs -> cs_size cs = fh_size h + 10.
Proof.
  unfold start_frame_stream. intros E. binv E. binv E. binv E. apply write_size in E. apply new_size in E2.
  unfold iadd in E1. apply chk_int_inv in E1. destruct E1 as [-> _]. rewrite E, E2. reflexivity.
Qed.

Lemma frame_stream_size f cs : Frame_to_char_stream (Some f) = Ok (Some cs) -> cs_size cs = fh_size (f_hdr f) + 10.
Proof.
  intros E. cbn [Frame_to_char_stream] in E. cbv zeta in E. binv E. binv E. binv E.
  destruct v; [|destruct v0; [|destruct v1]].
  - destruct (f_data f) as [d| | |]; try discriminate E. binv E. injection E as <-. unfold TextFrame_to_char_stream in E3.
    binv E3. binv E3. apply write_size in E3. apply write_size in E4. apply start_size in E. congruence.
  - destruct (f_data f) as [|d| |]; try discriminate E. binv E. injection E as <-. unfold CommentFrame_to_char_stream in E3.
    binv E3. binv E3. binv E3. binv E3. binv E3. apply write_size in E3. apply write_size in E7. apply write_size in E5. apply write_size in E4.
    apply start_size in E. congruence.
  - destruct (f_data f) as [| |d|]; try discriminate E. binv E. injection E as <-. unfold ApicFrame_to_char_stream in E3.
    binv E3. binv E3. binv E3. binv E3. binv E3. binv E3. binv E3. apply write_size in E3. apply write_size in E9. apply write_size in E7. apply write_size in E6. apply write_size in E4.
    apply start_size in E. congruence.
  - destruct (f_data f) as [| | |d]; try discriminate E. binv E. binv E. binv E. binv E. binv E. injection E as <-.
    apply write_size in E7. apply write_size in E6. apply new_size in E4. unfold iadd in E3. apply chk_int_inv in E3. destruct E3 as [-> _].
    rewrite E7, E6, E4. reflexivity.
Qed.

Lemma n_frame_to_compat p : needs_all (frame_to_compat_frame_o p) (frame_to_compat_frame p).
Proof.
  unfold frame_to_compat_frame_o, frame_to_compat_frame. apply n_ask.
  2:{ apply d_lift; [auto with benign|]. intro. cbv zeta. doom. }
  need1. cbv zeta. need1. need1. need1.
  apply s_bind; [apply n_Frame_to_char_stream|]. intros cso Ec.
  apply n_lift. intros cs Ed. destruct cso as [cs0|]; [|discriminate Ed]. injection Ed as ->.
  apply frame_stream_size in Ec.
  apply n_lift. intros cs2 Es. cbn [CharStream_seek] in Es. injection Es as <-.
  set (n := fh_size (f_hdr (fp_frame x))) in *. destruct (n <? 0) eqn:N; [need|].
  apply ends_answers, ends_ask. intros g NB. apply ends_bind_lift.
  - intros [d c2] E. rewrite E. cbn [bind].
    assert (C : 0 < n -> cs_cursor c2 =? cs_cursor (with_cursor cs ID3v2_FRAME_HEADER_LENGTH) = false).
    { intros P. destruct (_ =? _) eqn:Q; [exfalso|reflexivity].
      destruct (read_into_still _ _ _ _ P E ltac:(lia)) as (_ & B & _). cbn [with_cursor cs_cursor cs_size] in B.
      change ID3v2_FRAME_HEADER_LENGTH with 10 in B. lia. }
    destruct g.
    + destruct (cs_cursor c2 =? _); apply ends_ret; cbn [app]; rewrite granted_one; reflexivity.
    + specialize (NB eq_refl). cbn [no_bytes] in NB. rewrite C by lia. cbn [used].
      apply ends_bind_lift; [discriminate|]. intros _. cbn [app]. rewrite granted_one. now exists NullDeref.
  - intros NO. cbn [app]. rewrite granted_one.
    pose proof (benign_read_into (with_cursor cs ID3v2_FRAME_HEADER_LENGTH) n) as B.
    destruct (read_into _ n) as [y|u| |]; try contradiction; [now destruct (NO y)|]. cbn [bind cast].
    destruct g; [reflexivity|now exists u].
Qed.
#[global] Hint Resolve n_frame_to_compat : need.

Lemma n_add_to_list l f : needs_all (add_to_list_o l f) (add_to_list l f).
Proof. unfold add_to_list_o, add_to_list. need. Qed.
#[global] Hint Resolve n_add_to_list : need.

Lemma n_load_frames : forall head l, needs_all (load_frames_o head l) (load_frames head l).
Proof. induction head as [|n head IH]; intros l; cbn [load_frames_o load_frames]; need. Qed.
#[global] Hint Resolve n_load_frames : need.

Lemma n_set_compat tag c get : by_index c = false ->
  needs_all (set_compat_o tag c get) (set_compat tag (fun t => run_call t c) get).
Proof.
  intros H. unfold set_compat_o, set_compat. need1. apply s_bind; [now apply n_run_call|]. intros inner _. need.
Qed.

Lemma n_album_cover name picture tag : needs_all (tag_set_album_cover_o name picture tag) (tag_set_album_cover name picture tag).
Proof.
  unfold tag_set_album_cover_o, tag_set_album_cover. need1. cbv zeta. need1; [need|]. do 5 need1.
  apply n_set_compat. reflexivity.
Qed.

Lemma n_text_content l f : needs_all (parse_text_frame_content_o l f) (parse_text_frame_content l f).
Proof.
  unfold parse_text_frame_content_o, parse_text_frame_content. apply n_ask.
  - need.
  - apply d_lift; [auto with benign|]. intro. apply d_lift; [auto with benign|]. intro g. destruct (f_data g); try apply d_used;
      intros M l0; exists []; (split; [reflexivity|now exists TypeConfusion]).
Qed.
Lemma n_comment_content l f : needs_all (parse_comment_frame_content_o l f) (parse_comment_frame_content l f).
Proof.
  unfold parse_comment_frame_content_o, parse_comment_frame_content. apply n_ask.
  - need.
  - apply d_lift; [auto with benign|]. intro. apply d_lift; [auto with benign|]. intro g. destruct (f_data g); try apply d_used;
      intros M l0; exists []; (split; [reflexivity|now exists TypeConfusion]).
Qed.
Lemma n_apic_content l f : needs_all (parse_apic_frame_content_o l f) (parse_apic_frame_content l f).
Proof.
  unfold parse_apic_frame_content_o, parse_apic_frame_content. apply n_ask.
  - need.
  - apply d_lift; [auto with benign|]. intro. apply d_lift; [auto with benign|]. intro g. destruct (f_data g); try apply d_used;
      intros M l0; exists []; (split; [reflexivity|now exists TypeConfusion]).
Qed.

(** ** Loading a tag of version 1 *)

Lemma calm_of_needs {A} (m : oom A) o : needs_all m o -> benign o -> calmly m.
Proof.
  intros H B. eapply ends_weaken; [|apply answers_ends, H]. cbv beta. intros new r E.
  destruct (granted new); [now subst r|]. destruct E as (u & ->). exact I.
Qed.

Lemma doom_of_needs {A} (m : oom A) o : needs_all m o -> undefined o -> doomed m.
Proof.
  intros H B. eapply ends_weaken; [|apply answers_ends, H]. cbv beta. intros new r E. destruct (granted new); [now subst r|exact E].
Qed.

Lemma benign_to_compat p : benign (frame_to_compat_frame p).
Proof. unfold frame_to_compat_frame. ben. Qed.
Lemma benign_add_to_list l f : benign (add_to_list l f).
Proof. unfold add_to_list. ben. Qed.
Lemma benign_load_frames : forall l cl, benign (load_frames l cl).
Proof.
  induction l as [|n l IH]; intros cl; cbn [load_frames]; [exact I|].
  apply benign_bind; [apply benign_to_compat|]. intros. apply benign_bind; [apply benign_add_to_list|]. auto.
Qed.

Definition load_rest_o (buffer : cptr) (length : Z) (tag : option Tag) : oom ctag :=
  let# compat_tag := ask RCompatTag in
  let# header := ask RCompatHeader in
  let# _ := used compat_tag in
  let# dest := ask (RCompatRaw length) in
  let# raw := lift (memcpy_from buffer length) in
  let# _ := used dest in
  let# tag := lift (deref tag) in
  let# _ := used header in
  let h := t_header tag in
  let header := mkCH (cells (th_identifier h)) (Some (th_major h)) (Some (th_minor h)) (Some (th_flags h))
                     (Some (to_i32 (th_tag_size h))) (Some (to_i32 (th_ext_size h))) in
  let# compat_frames := new_frame_list_o in
  let# frames := load_frames_o (t_frames tag) compat_frames in
  ret (mkCTag (Some raw) header frames tag).

Definition load_rest (buffer : cptr) (length : Z) (tag : option Tag) : outcome ctag :=
  let* raw := memcpy_from buffer length in
  let* tag := deref tag in
  let* frames := load_frames (t_frames tag) new_frame_list in
  Ok (mkCTag (Some raw) (compat_header (t_header tag)) frames tag).

Lemma d_ub {A} u : doomed (@lift A (Ub u)).
Proof. intros M l. exists []. split; [reflexivity|now exists u]. Qed.

Lemma n_load_rest p n tag : (forall t, tag = Some t -> t_frames t <> []) ->
  needs_all (load_rest_o p n tag) (load_rest p n tag).
Proof.
  intros NE. unfold load_rest_o, load_rest. apply n_ask.
  2:{ apply d_ask. intro. apply d_used. }
  apply n_ask.
  2:{ change (used true) with (ret tt). intros M l.
      assert (D : doomed (let# dest := ask (RCompatRaw n) in
        let# raw := lift (memcpy_from p n) in let# _ := used dest in
        let# tag := lift (deref tag) in
        let# _ := used false in
        let h := t_header tag in
        let header := mkCH (cells (th_identifier h)) (Some (th_major h)) (Some (th_minor h)) (Some (th_flags h))
                     (Some (to_i32 (th_tag_size h))) (Some (to_i32 (th_ext_size h))) in
        let# compat_frames := new_frame_list_o in
        let# frames := load_frames_o (t_frames tag) compat_frames in
        ret (mkCTag (Some raw) header frames tag))).
      { apply d_ask. intros g. apply d_lift; [auto with benign|]. intro. destruct g; [|apply d_used].
        change (used true) with (ret tt). intros M' l'.
        assert (D2 : doomed (let# tag := lift (deref tag) in
          let# _ := used false in
          let h := t_header tag in
          let header := mkCH (cells (th_identifier h)) (Some (th_major h)) (Some (th_minor h)) (Some (th_flags h))
                     (Some (to_i32 (th_tag_size h))) (Some (to_i32 (th_ext_size h))) in
          let# compat_frames := new_frame_list_o in
          let# frames := load_frames_o (t_frames tag) compat_frames in
          ret (mkCTag (Some x) header frames tag))) by (apply d_lift; [auto with benign|]; intro; apply d_used).
        exact (D2 M' l'). }
      exact (D M l). }
  apply n_used1. apply n_ask.
  2:{ apply d_lift; [auto with benign|]. intro. apply d_used. }
  apply n_lift. intros raw _. apply n_used1. apply n_lift. intros t Et. apply n_used1. cbv zeta.
  assert (Ht : t_frames t <> []) by (apply NE; destruct tag; [now injection Et as ->|discriminate Et]).
  fold (compat_header (t_header t)). unfold new_frame_list_o.
  assert (N1 : needs_all (bindo (ask RCompatNode) (fun q => bindo (ret (if q then new_frame_list else []))
      (fun cl => let# frames := load_frames_o (t_frames t) cl in ret (mkCTag (Some raw) (compat_header (t_header t)) frames t))))
    (let* frames := load_frames (t_frames t) new_frame_list in Ok (mkCTag (Some raw) (compat_header (t_header t)) frames t))).
  { apply n_ask.
    - change (needs_all (let# frames := load_frames_o (t_frames t) new_frame_list in ret (mkCTag (Some raw) (compat_header (t_header t)) frames t))
        (let* frames := load_frames (t_frames t) new_frame_list in Ok (mkCTag (Some raw) (compat_header (t_header t)) frames t))). need.
    - change (doomed (let# frames := load_frames_o (t_frames t) [] in ret (mkCTag (Some raw) (compat_header (t_header t)) frames t))).
      destruct (t_frames t) as [|x l]; [now elim Ht|]. cbn [load_frames_o]. intros M l0. rewrite bindo_assoc. revert M l0.
      change (doomed (bindo (frame_to_compat_frame_o (n_frame x)) (fun f =>
        bindo (bindo (add_to_list_o [] f) (fun cl => load_frames_o l cl)) (fun frames => ret (mkCTag (Some raw) (compat_header (t_header t)) frames t))))).
      apply d_bind; [eapply calm_of_needs; [apply n_frame_to_compat|apply benign_to_compat]|]. intros f.
      cbn [add_to_list_o]. intros M l0. exists []. split; [reflexivity|now exists NullDeref]. }
  intros M l. rewrite bindo_assoc. apply N1.
Qed.

Lemma loop_nonempty ts ver : forall fuel cs l fresh l' fr c, l <> [] ->
  parse_loop fuel ts ver cs l fresh = Ok (l', fr, c) -> l' <> [].
Proof.
  induction fuel as [|fuel IH]; intros cs l fresh l' fr c N E; cbn [parse_loop] in E; destruct (to_u32 _ <? ts); try discriminate E.
  1, 3: injection E as <- _ _; exact N.
  binv E. destruct v as [[f|] c0]; [|injection E as <- _ _; exact N]. binv E. eapply IH; [|exact E].
  destruct l as [|n l]; [now elim N|]. cbn [FrameList_add_frame] in E1. destruct (negb _); injection E1 as <-; discriminate.
Qed.

Lemma read_nonempty p n t : ID3v2_read_tag_from_buffer p n = Ok (Some t) -> t_frames t <> [].
Proof.
  unfold ID3v2_read_tag_from_buffer, Tag_parse. intros E. binv E. binv E. destruct v0 as [[h|] cs]; [|discriminate E].
  binv E. binv E. destruct v1 as [[l fr] c]. binv E. injection E as <-. cbn [t_frames].
  eapply loop_nonempty; [|exact E3]. discriminate.
Qed.

Lemma lacking_stuck p : 0 < fh_size (f_hdr (fp_frame p)) -> f_data (fp_frame p) = DRaw [] -> undefined (frame_to_compat_frame (Some p)).
Proof.
  intros P D. pose proof (benign_to_compat (Some p)) as B.
  destruct (frame_to_compat_frame (Some p)) as [x|u| |] eqn:E; try contradiction; [exfalso|now exists u].
  unfold frame_to_compat_frame in E. cbn [deref bind] in E. cbv zeta in E. binv E. binv E. binv E. clear B.
  cbn [Frame_to_char_stream] in E2. cbv zeta in E2. rewrite D in E2. binv E2. binv E2. binv E2.
  destruct v2; [discriminate E2|]. destruct v3; [discriminate E2|]. destruct v4; [discriminate E2|].
  binv E2. binv E2. binv E2. binv E2. binv E2. unfold CharStream_write in E10. binv E10.
  unfold memcpy_from in E11. change (zlen (@nil cell)) with 0 in E11.
  replace (fh_size (f_hdr (fp_frame p)) <? 0) with false in E11 by lia.
  replace (0 <? fh_size (f_hdr (fp_frame p))) with true in E11 by lia. discriminate E11.
Qed.

Lemma load_lacking : forall l cl, Exists lacking l -> undefined (load_frames l cl).
Proof.
  induction l as [|n l IH]; intros cl X; [inversion X|]. cbn [load_frames].
  pose proof (benign_to_compat (n_frame n)) as B. inversion X as [? ? L|? ? L]; subst.
  - unfold lacking in L. destruct (n_frame n) as [p|]; [|contradiction]. destruct L as [P D].
    destruct (lacking_stuck p P D) as (u & ->). now exists u.
  - destruct (frame_to_compat_frame (n_frame n)) as [f|u| |]; try contradiction; [|now exists u]. cbn [bind].
    pose proof (benign_add_to_list cl f) as B2.
    destruct (add_to_list cl f) as [cl2|u| |]; try contradiction; [|now exists u]. cbn [bind]. now apply IH.
Qed.

Lemma k_load_rest p n tag : asks (fun r => negb (is_node r)) (load_rest_o p n tag).
Proof.
  assert (F : forall f, asks (fun r => negb (is_node r)) (Frame_to_char_stream_o f)).
  { intros f. eapply k_weaken; [|apply k_Frame_to]. intros r. now destruct r. }
  assert (C : forall q, asks (fun r => negb (is_node r)) (frame_to_compat_frame_o q)).
  { intros q. unfold frame_to_compat_frame_o. kind. }
  assert (L : forall l cl, asks (fun r => negb (is_node r)) (load_frames_o l cl)).
  { induction l as [|x l IH]; intros cl; cbn [load_frames_o]; [kind|]. unfold add_to_list_o. kind. }
  unfold load_rest_o, new_frame_list_o. kind.
Qed.

Lemma k_read_buffer p n : asks (fun r => inside r || is_tag_header r) (ID3v2_read_tag_from_buffer_o p n).
Proof.
  assert (R : forall h cs, asks (fun r => inside r || is_tag_header r) (tag_rest_o h cs)).
  { intros h cs. eapply k_weaken; [|apply k_tag_rest]. intros r E. now rewrite E. }
  unfold ID3v2_read_tag_from_buffer_o. apply k_bind; [eapply k_weaken; [|apply k_from_buffer]; intros r; now destruct r|].
  intros cs. unfold Tag_parse_o. apply k_bind; [unfold TagHeader_parse_o, TagHeader_new_o; kind|].
  intros [[h|] c]; [apply (R h c)|apply k_ret].
Qed.

Lemma load_answer_ub p n new u :
  refused is_node new = false \/ refused_only lists new = false
  \/ (forall t, ID3v2_read_tag_from_buffer p n = Ok (Some t) -> frameless t = false) ->
  load_answer p n new (Ub u).
Proof.
  intros H. unfold load_answer. destruct (ID3v2_read_tag_from_buffer p n) as [[t|]| | |]; try (now exists u).
  destruct H as [->|[->|H]]; rewrite ?andb_false_r; cbn [andb]; [now exists u..|]. rewrite (H t eq_refl). now exists u.
Qed.

Lemma refused_lists_false p l : (forall r, lists r = true -> p r = false) -> refused p l = true -> refused_only lists l = false.
Proof.
  intros H R. apply refused_not_only. eapply refused_some; [|exact R]. intros r E. cbv beta. destruct (lists r) eqn:L; [|reflexivity].
  rewrite (H r L) in E. discriminate E.
Qed.

Lemma e_load_unlisted p n t raw : memcpy_from p n = Ok raw -> t_frames t = [] ->
  ends_in (load_rest_o p n (Some t)) (fun new r =>
    refused is_node new = false /\
    if refused_only lists new
    then r = Ok (mkCTag (Some raw) (compat_header (t_header t)) (if refused is_compat_node new then [] else new_frame_list) t)
    else undefined r).
Proof.
  intros E T. unfold load_rest_o. rewrite E. cbn [deref].
  apply ends_ask. intros g1 _. apply ends_ask. intros g2 _.
  destruct g1; cbn [used].
  2:{ apply ends_bind_lift; [discriminate|]. intros _. destruct g2; (split; [reflexivity|now exists NullDeref]). }
  change (ends_in (let# dest := ask (RCompatRaw n) in let# raw0 := lift (Ok raw) in let# _ := used dest in
      let# tag := lift (Ok t) in let# _ := used g2 in
      let# compat_frames := new_frame_list_o in
      let# frames := load_frames_o (t_frames tag) compat_frames in
      ret (mkCTag (Some raw0) (compat_header (t_header tag)) frames tag))
    (fun new r => refused is_node ((new ++ [(RCompatHeader, g2)]) ++ [(RCompatTag, true)]) = false /\
      if refused_only lists ((new ++ [(RCompatHeader, g2)]) ++ [(RCompatTag, true)])
      then r = Ok (mkCTag (Some raw) (compat_header (t_header t))
            (if refused is_compat_node ((new ++ [(RCompatHeader, g2)]) ++ [(RCompatTag, true)]) then [] else new_frame_list) t)
      else undefined r)).
  apply ends_ask. intros g3 _. apply ends_bind_lift; [|intros X; now destruct (X raw)]. intros raw' Er. injection Er as <-.
  destruct g3; cbn [used].
  2:{ apply ends_bind_lift; [discriminate|]. intros _. destruct g2; (split; [reflexivity|now exists NullDeref]). }
  destruct g2; cbn [used].
  2:{ change (ends_in (@lift ctag (Ub NullDeref))
        (fun new r => refused is_node (((new ++ [(RCompatRaw n, true)]) ++ [(RCompatHeader, false)]) ++ [(RCompatTag, true)]) = false /\
      if refused_only lists (((new ++ [(RCompatRaw n, true)]) ++ [(RCompatHeader, false)]) ++ [(RCompatTag, true)])
      then r = Ok (mkCTag (Some raw) (compat_header (t_header t))
            (if refused is_compat_node (((new ++ [(RCompatRaw n, true)]) ++ [(RCompatHeader, false)]) ++ [(RCompatTag, true)]) then [] else new_frame_list) t)
      else undefined r)).
      apply ends_lift. split; [reflexivity|now exists NullDeref]. }
  intros M l. unfold bindo at 1, ret at 1, bindo at 1, lift at 1, bindo at 1, ret at 1, new_frame_list_o. rewrite bindo_assoc. revert M l.
  change (ends_in (bindo (ask RCompatNode) (fun q => bindo (ret (if q then new_frame_list else [])) (fun cl =>
       let# frames := load_frames_o (t_frames t) cl in ret (mkCTag (Some raw) (compat_header (t_header t)) frames t))))
    (fun new r => refused is_node (((new ++ [(RCompatRaw n, true)]) ++ [(RCompatHeader, true)]) ++ [(RCompatTag, true)]) = false /\
      if refused_only lists (((new ++ [(RCompatRaw n, true)]) ++ [(RCompatHeader, true)]) ++ [(RCompatTag, true)])
      then r = Ok (mkCTag (Some raw) (compat_header (t_header t))
            (if refused is_compat_node (((new ++ [(RCompatRaw n, true)]) ++ [(RCompatHeader, true)]) ++ [(RCompatTag, true)]) then [] else new_frame_list) t)
      else undefined r)).
  apply ends_ask. intros g4 _. rewrite T. destruct g4.
  - change (ends_in (ret (mkCTag (Some raw) (compat_header (t_header t)) new_frame_list t))
      (fun new r => refused is_node ((((new ++ [(RCompatNode, true)]) ++ [(RCompatRaw n, true)]) ++ [(RCompatHeader, true)]) ++ [(RCompatTag, true)]) = false /\
      if refused_only lists ((((new ++ [(RCompatNode, true)]) ++ [(RCompatRaw n, true)]) ++ [(RCompatHeader, true)]) ++ [(RCompatTag, true)])
      then r = Ok (mkCTag (Some raw) (compat_header (t_header t))
            (if refused is_compat_node ((((new ++ [(RCompatNode, true)]) ++ [(RCompatRaw n, true)]) ++ [(RCompatHeader, true)]) ++ [(RCompatTag, true)]) then [] else new_frame_list) t)
      else undefined r)).
    apply ends_ret. split; reflexivity.
  - change (ends_in (ret (mkCTag (Some raw) (compat_header (t_header t)) [] t))
      (fun new r => refused is_node ((((new ++ [(RCompatNode, false)]) ++ [(RCompatRaw n, true)]) ++ [(RCompatHeader, true)]) ++ [(RCompatTag, true)]) = false /\
      if refused_only lists ((((new ++ [(RCompatNode, false)]) ++ [(RCompatRaw n, true)]) ++ [(RCompatHeader, true)]) ++ [(RCompatTag, true)])
      then r = Ok (mkCTag (Some raw) (compat_header (t_header t))
            (if refused is_compat_node ((((new ++ [(RCompatNode, false)]) ++ [(RCompatRaw n, true)]) ++ [(RCompatHeader, true)]) ++ [(RCompatTag, true)]) then [] else new_frame_list) t)
      else undefined r)).
    apply ends_ret. split; reflexivity.
Qed.

Lemma refused_only_same p q s l : all_asked s l = true -> (forall r, s r = true -> p r = q r) -> refused_only p l = refused_only q l.
Proof.
  intros A H. unfold refused_only, refused. f_equal. induction l as [|[r g] l IH]; [reflexivity|].
  cbn [all_asked forallb existsb fst snd] in *. apply andb_true_iff in A. destruct A as [A1 A2]. rewrite IH by exact A2.
  now rewrite (H r A1).
Qed.

Lemma refused_of_only p l : granted l = false -> refused_only p l = true -> refused p l = true.
Proof.
  induction l as [|[r g] l IH]; [discriminate|]. unfold refused_only. cbn [granted forallb refused existsb fst snd].
  intros G R. apply negb_true_iff, orb_false_iff in R. destruct R as [R1 R2]. destruct g; cbn [negb andb orb] in *.
  - apply IH; [exact G|]. unfold refused_only, refused. now rewrite R2.
  - apply negb_false_iff in R1. now rewrite R1.
Qed.

Lemma load_rest_ub p n (tag : option Tag) : (forall raw t, memcpy_from p n = Ok raw -> tag = Some t -> undefined (load_frames (t_frames t) new_frame_list)) ->
  undefined (load_rest p n tag).
Proof.
  intros H. unfold load_rest. assert (B : benign (memcpy_from p n)) by auto with benign.
  destruct (memcpy_from p n) as [raw|u| |]; try contradiction; [|now exists u]. cbn [bind].
  destruct tag as [t|]; [|now exists NullDeref]. cbn [deref bind]. destruct (H raw t eq_refl eq_refl) as (u & ->). now exists u.
Qed.

Lemma lists_of_inside r : inside r || is_tag_header r = true -> is_node r = lists r.
Proof. now destruct r. Qed.

Lemma a_load_buffer p n : n < 2 ^ 31 ->
  answers (load_tag_with_buffer_o p n) (load_tag_with_buffer p n) (load_answer p n).
Proof.
  intros N. change (load_tag_with_buffer_o p n) with (bindo (ID3v2_read_tag_from_buffer_o p n) (load_rest_o p n)).
  change (load_tag_with_buffer p n) with (bind (ID3v2_read_tag_from_buffer p n) (load_rest p n)).
  eapply a_bind_any with (Q2 := fun new r => refused is_node new = false /\ undefined r).
  - apply answers_and; [apply k_read_buffer|apply (a_read_buffer false p n N)]; discriminate.
  - intros tag E. eapply a_weaken; [|apply answers_and; [apply k_load_rest|apply n_load_rest]].
    + cbv beta. intros new r G (A & U). split; [|exact U]. eapply all_asked_not_refused; [|exact A]. intros q. now destruct q.
    + intros t ->. eapply read_nonempty. exact E.
  - cbv beta. intros new y G (A & _ & H). destruct (refused is_tag_header new) eqn:RH.
    + injection H as ->. eapply ends_weaken; [|eapply doom_of_needs; [apply n_load_rest; discriminate|apply load_rest_ub; discriminate]].
      cbv beta. intros new2 r (u & ->). apply load_answer_ub. right. left. rewrite refused_only_app.
      rewrite (refused_lists_false is_tag_header new), andb_false_r; auto. intros q. now destruct q.
    + unfold tag_answer in H. destruct (ID3v2_read_tag_from_buffer p n) as [[t|]| | |] eqn:ET; [|exfalso; destruct H as (? & H); discriminate H..].
      destruct (frameless t && refused_only is_node new) eqn:F.
      * injection H as ->. apply andb_true_iff in F. destruct F as [F1 F2].
        assert (exists raw, memcpy_from p n = Ok raw) as (raw & Er).
        { unfold ID3v2_read_tag_from_buffer, CharStream_from_buffer in ET. destruct (memcpy_from p n); try discriminate ET. eauto. }
        eapply ends_weaken; [|apply (e_load_unlisted p n (unlisted t) raw Er eq_refl)]. cbv beta. intros new2 r (R2 & H).
        unfold load_answer. rewrite ET, F1, refused_app, R2, (refused_of_only _ _ G F2). cbn [orb andb].
        rewrite refused_only_app, <- (refused_only_same _ _ _ _ A lists_of_inside), F2, andb_true_r.
        destruct (refused_only lists new2); [|exact H]. exists raw. split; [exact Er|]. rewrite H.
        rewrite refused_app. assert (refused is_compat_node new = false) as ->.
        { eapply all_asked_not_refused; [|exact A]. intros q. now destruct q. }
        rewrite orb_false_r. reflexivity.
      * destruct H as [(u & H)|(_ & R & t' & Et & S)]; [discriminate H|]. injection Et as ->.
        destruct S as (_ & _ & _ & _ & L). eapply ends_weaken; [|eapply doom_of_needs; [apply n_load_rest|apply load_rest_ub]].
        -- cbv beta. intros new2 r (u & ->). apply load_answer_ub. right. left. rewrite refused_only_app.
           rewrite (refused_lists_false is_raw new), andb_false_r; auto; [intros q; now destruct q|]. now apply refused_of_only.
        -- intros t0 Et. injection Et as <-. intros X. rewrite X in L. inversion L.
        -- intros raw t0 _ Et. injection Et as <-. now apply load_lacking.
  - cbv beta. intros new r G (A & _ & H) NO. destruct (refused is_tag_header new) eqn:RH; [now destruct (NO None)|].
    unfold tag_answer in H. destruct (ID3v2_read_tag_from_buffer p n) as [[t|]| | |] eqn:ET.
    2-5: destruct H as (w & ->); unfold load_answer; rewrite ET; now exists w.
    destruct (frameless t && refused_only is_node new) eqn:F; [now destruct (NO (Some (unlisted t)))|].
    destruct H as [(u & ->)|(_ & R & t' & -> & S)]; [|now edestruct NO]. cbn [cast].
    apply load_answer_ub. rewrite <- (refused_only_same _ _ _ _ A lists_of_inside).
    destruct (refused_only is_node new); [|auto]. right. right. intros t0 Et. rewrite ET in Et. injection Et as <-. now rewrite andb_true_r in F.
  - cbv beta. intros new1 new2 x r G _ _ (R & u & ->). apply load_answer_ub. left.
    now rewrite refused_app, R, granted_refused by exact G.
Qed.

Lemma load_file_answer_ub f new u : refused_only lists new = false -> load_file_answer f new (Ub u).
Proof.
  intros R. unfold load_file_answer. destruct f as [content|]; [|now exists u].
  destruct (ID3v2_read_tag_header (Some content)) as [[h|]|w| |]; try (now exists u). apply load_answer_ub. auto.
Qed.

Lemma a_load_tag f : answers (load_tag_o f) (load_tag f) (load_file_answer f).
Proof.
  unfold load_tag_o, load_tag. eapply a_bind_any with (Q2 := load_file_answer f).
  - apply answers_and; [apply k_read_header|apply a_read_header].
  - intros [h|] E; [|apply (a_lift (Ub NullDeref))]. destruct f as [content|]; [|discriminate E].
    apply a_bind_lift. intros h0 Eh. injection Eh as <-. cbv zeta.
    destruct (file_room content h E) as (R & D & _).
    apply ends_answers. apply ends_ask. intros g _. destruct g.
    + eapply ends_weaken; [|apply answers_ends, (a_load_buffer (Some (fread_into content (declared_length h))) (declared_length h))]; [|lia].
      cbv beta. intros new r H. rewrite granted_app, granted_one, andb_true_r. destruct (granted new); [exact H|].
      unfold load_file_answer. rewrite E. unfold load_answer in *. destruct (ID3v2_read_tag_from_buffer _ _) as [[t|]| | |]; auto.
      rewrite !refused_app, refused_only_app. cbn [refused refused_only existsb fst snd negb andb orb]. rewrite !orb_false_r, !andb_true_r. exact H.
    + apply ends_lift. apply load_file_answer_ub. reflexivity.
  - cbv beta. intros new y G (A & H). unfold header_or_undefined in H. destruct (refused is_tag_header new) eqn:RH; [|destruct H as (u & H); discriminate H].
    destruct H as (_ & H). injection H as ->. apply ends_lift. apply load_file_answer_ub. cbn [app].
    apply (refused_lists_false is_tag_header); [|exact RH]. intros q. now destruct q.
  - cbv beta. intros new r G (A & H) NO. unfold header_or_undefined in H. destruct (refused is_tag_header new) eqn:RH; [destruct H as [_ ->]; now edestruct NO|].
    destruct H as (u & ->). apply load_file_answer_ub. apply (refused_lists_false (fun r => within r || is_tag_header r)); [intros q; now destruct q|].
    now apply granted_false_refused.
  - cbv beta. intros new1 new2 x r G _ _ H. unfold load_file_answer, load_answer in *. destruct f as [content|]; [|exact H].
    destruct (ID3v2_read_tag_header (Some content)) as [[h|]| | |]; try exact H.
    destruct (ID3v2_read_tag_from_buffer _ _) as [[t|]| | |]; try exact H.
    rewrite !refused_app, refused_only_app, !(granted_refused _ new1), (granted_refused_only _ new1), !orb_false_r, andb_true_r by auto. exact H.
Qed.

(** ** The other calls of version 1 *)

Definition set_rest (t : ctag) (x : file * option Tag) : outcome (file * ctag) :=
  let* inner := deref (snd x) in Ok (fst x, mkCTag (ct_raw t) (ct_header t) (ct_frames t) inner).

Lemma a_set_tag f t :
  answers (set_tag_o f (Some t)) (set_tag f (Some t))
    (fun new r => if refused_only is_tag_header new then r = bind (write_rest f (ct_tag t) None) (set_rest t) else undefined r).
Proof.
  unfold set_tag_o, set_tag. apply a_bind_lift. intros t0 E. injection E as <-.
  eapply a_bind_any with (Q2 := fun _ _ => False); [apply a_write| | | |].
  - intros [f' inner] _. eapply a_weaken; [|apply a_bind_lift; intros; apply a_ret with (Q := fun _ _ => False)]. auto.
  - cbv beta. intros new [f' inner] G H. destruct (refused_only is_tag_header new) eqn:R; [|destruct H as (u & H); discriminate H].
    rewrite <- H. cbn [bind]. apply ends_bind_lift.
    + intros x Ex. apply ends_ret. cbn [app]. rewrite R. unfold set_rest. cbn [fst snd]. now rewrite Ex.
    + intros NO. cbn [app]. rewrite R. destruct inner; [now edestruct NO|reflexivity].
  - cbv beta. intros new r G H NO. destruct (refused_only is_tag_header new); [|destruct H as (u & ->); now exists u].
    rewrite <- H. destruct r; try reflexivity. now edestruct NO.
  - cbv beta. intros. contradiction.
Qed.

Lemma e_new_ctag :
  ends_in new_tag_o (fun new r =>
    if refused is_compat_part new then undefined r
    else r = Ok (if refused is_tag_header new then CHeadless (compat_list new) (tag_missing new)
                 else CWhole (mkCTag None empty_compat_header (compat_list new) (mkTag TagHeader_new_empty (tag_missing new) 0 0)))).
Proof.
  unfold new_tag_o, new_frame_list_o, ID3v2_Tag_new_empty_o, ID3v2_Tag_new_o, TagHeader_new_empty_o, TagHeader_new_o, FrameList_new_o, must, bindo, ask, used, ret, lift.
  intros M l. cbn [no_bytes orb]. cbv zeta.
  destruct (M l RCompatTag).
  2:{ destruct (M (_ :: l) RCompatHeader); cbn [fst snd]; [exists [(RCompatHeader, true); (RCompatTag, false)]|exists [(RCompatHeader, false); (RCompatTag, false)]]; (split; [reflexivity|now exists NullDeref]). }
  destruct (M (_ :: l) RCompatHeader); cbn [fst snd].
  2:{ exists [(RCompatHeader, false); (RCompatTag, true)]; (split; [reflexivity|now exists NullDeref]). }
  destruct (M (_ :: _ :: l) RCompatNode) eqn:E1.
  - destruct (M (_ :: _ :: _ :: l) RTag), (M (_ :: _ :: _ :: _ :: l) RTagHeader).
    1-2: destruct (M (_ :: _ :: _ :: _ :: _ :: l) RNode).
    1-4: eexists [(RNode, _); (RTagHeader, _); (RTag, _); (RCompatNode, _); (RCompatHeader, _); (RCompatTag, _)]; split; reflexivity.
    1-2: eexists [(RTagHeader, _); (RTag, _); (RCompatNode, _); (RCompatHeader, _); (RCompatTag, _)]; split; [reflexivity|now exists NullDeref].
  - destruct (M (_ :: _ :: _ :: l) RTag), (M (_ :: _ :: _ :: _ :: l) RTagHeader).
    1-2: destruct (M (_ :: _ :: _ :: _ :: _ :: l) RNode).
    1-4: eexists [(RNode, _); (RTagHeader, _); (RTag, _); (RCompatNode, _); (RCompatHeader, _); (RCompatTag, _)]; split; reflexivity.
    1-2: eexists [(RTagHeader, _); (RTag, _); (RCompatNode, _); (RCompatHeader, _); (RCompatTag, _)]; split; [reflexivity|now exists NullDeref].
Qed.

(** ** As they are stated *)

Lemma write_over content tag :
  answers (ID3v2_write_tag_o (Some content) (Some tag)) (ID3v2_write_tag (Some content) (Some tag))
    (fun new r => if refused_only is_tag_header new then r = with_old content (ID3v2_write_tag (Some []) (Some tag)) else undefined r).
Proof.
  eapply a_weaken; [|apply a_write]. cbv beta. intros new r _ H. destruct (refused_only is_tag_header new); [|exact H].
  rewrite H, write_rest_none. unfold with_old. destruct (ID3v2_write_tag (Some []) (Some tag)) as [[f x]| | |]; reflexivity.
Qed.

Lemma set_over content t :
  answers (set_tag_o (Some content) (Some t)) (set_tag (Some content) (Some t))
    (fun new r => if refused_only is_tag_header new then r = with_old content (set_tag (Some []) (Some t)) else undefined r).
Proof.
  eapply a_weaken; [|apply a_set_tag]. cbv beta. intros new r _ H. destruct (refused_only is_tag_header new); [|exact H].
  rewrite H, write_rest_none. unfold with_old, set_tag. cbn [deref bind].
  destruct (ID3v2_write_tag (Some []) (Some (ct_tag t))) as [[f x]| | |]; try reflexivity. cbn [bind fst snd]. unfold set_rest. cbn [fst snd].
  destruct x; reflexivity.
Qed.

Lemma write_nowhere tag : needs_all (ID3v2_write_tag_o None (Some tag)) (ID3v2_write_tag None (Some tag)).
Proof.
  rewrite write_is_rest. change (ID3v2_write_tag_o None (Some tag)) with (bindo (ID3v2_read_tag_header_o None) (write_rest_o None tag)).
  apply (n_write_rest None tag None).
Qed.

Lemma a_by_index t c : by_index c = true ->
  answers (run_call_o t c) (run_call t c)
    (fun new r => (listing t c = Ok FrameList_new /\ new = [(RNode, false)]) /\ r = Ok t
               \/ ~ (listing t c = Ok FrameList_new /\ new = [(RNode, false)]) /\ undefined r).
Proof. intros H. destruct c; try discriminate H; apply a_delete_nth. Qed.

Lemma a_listing t id :
  answers (ID3v2_Tag_get_frames_o (Some t) id) (ID3v2_Tag_get_frames (Some t) id)
    (fun new r => ID3v2_Tag_get_frames (Some t) id = Ok FrameList_new /\ new = [(RNode, false)] /\ r = Ok []
               \/ ID3v2_Tag_get_frames (Some t) id <> Ok FrameList_new /\ undefined r).
Proof. exact (a_get_frames (t_frames t) id). Qed.

Lemma a_read_tag_buffer p n : n < 2 ^ 31 ->
  answers (ID3v2_read_tag_from_buffer_o p n) (ID3v2_read_tag_from_buffer p n)
    (fun new r => if refused is_tag_header new then r = Ok None else tag_answer false (ID3v2_read_tag_from_buffer p n) new r).
Proof.
  intros N. eapply a_weaken; [|apply (a_read_buffer false p n N); discriminate]. intros new r _ (_ & H). exact H.
Qed.

Lemma a_headers :
  (forall f, answers (ID3v2_read_tag_header_o f) (ID3v2_read_tag_header f) (header_or_undefined (Ok None)))
  /\ (forall p, answers (ID3v2_read_tag_header_from_buffer_o p) (ID3v2_read_tag_header_from_buffer p) (header_or_undefined (Ok None))).
Proof. split; [exact a_read_header|exact a_read_header_buffer]. Qed.

Lemma a_contents l f :
  needs_all (parse_text_frame_content_o l f) (parse_text_frame_content l f)
  /\ needs_all (parse_comment_frame_content_o l f) (parse_comment_frame_content l f)
  /\ needs_all (parse_apic_frame_content_o l f) (parse_apic_frame_content l f).
Proof. split; [apply n_text_content|]. split; [apply n_comment_content|apply n_apic_content]. Qed.

Lemma v1_setters s e tag :
  needs_all (tag_set_title_o s tag) (tag_set_title s e tag)
  /\ needs_all (tag_set_artist_o s tag) (tag_set_artist s e tag)
  /\ needs_all (tag_set_album_o s tag) (tag_set_album s e tag)
  /\ needs_all (tag_set_album_artist_o s tag) (tag_set_album_artist s e tag)
  /\ needs_all (tag_set_genre_o s tag) (tag_set_genre s e tag)
  /\ needs_all (tag_set_track_o s tag) (tag_set_track s e tag)
  /\ needs_all (tag_set_year_o s tag) (tag_set_year s e tag)
  /\ needs_all (tag_set_comment_o s tag) (tag_set_comment s e tag)
  /\ needs_all (tag_set_disc_number_o s tag) (tag_set_disc_number s e tag)
  /\ needs_all (tag_set_composer_o s tag) (tag_set_composer s e tag)
  /\ (forall mime n, needs_all (tag_set_album_cover_from_bytes_o s mime n tag) (tag_set_album_cover_from_bytes s mime n tag))
  /\ (forall picture, needs_all (tag_set_album_cover_o s picture tag) (tag_set_album_cover s picture tag)).
Proof.
  repeat match goal with |- _ /\ _ => split end; intros; try apply n_album_cover; now apply n_set_compat.
Qed.

Lemma v1_remove f :
  answers (remove_tag_o f) (remove_tag f) (fun new r => if refused_only is_tag_header new then r = Ok f else undefined r).
Proof. exact (a_delete f). Qed.
