(** Saving and deleting tags again and again. *)
From Verif Require Import Benign File Calls Spec SpecEdit SpecFile SpecSaves UtilsFacts HeaderFacts EditFacts WriteFacts FileFacts.

Lemma fwrite_is_cells : forall m l, fwrite_bytes m = Ok l -> m = cells l.
Proof.
  induction m as [|[b|] m IH]; intros l E; cbn [fwrite_bytes] in E; try discriminate E; [injection E as <-; reflexivity|].
  destruct (fwrite_bytes m) as [r| | |]; try discriminate E. cbn [bind] in E. injection E as <-.
  rewrite (IH r eq_refl). reflexivity.
Qed.

(** ** Which bytes a tag becomes *)

(** Everything that ID3v2_write_tag computes before it opens the file. *)
Definition tag_output (t : Tag) : outcome (list byte * Tag) :=
  let* d := isub ID3v2_TAG_DEFAULT_PADDING_LENGTH (t_padding t) in
  let extra := clamp_int d 0 ID3v2_TAG_DEFAULT_PADDING_LENGTH in
  let* padding := iadd (t_padding t) extra in
  let tag := mkTag (t_header t) (t_frames t) padding (t_fresh t) in
  let* tag_cs := Tag_to_char_stream tag in
  let* bytes := fwrite_bytes (firstn (Z.to_nat (cs_size tag_cs)) (cs_stream tag_cs)) in
  Ok (bytes, tag).

Lemma write_output content t : announces_extended content = false ->
  ID3v2_write_tag (Some content) (Some t)
  = let* (bytes, t') := tag_output t in Ok (Some (bytes ++ audio content), Some t').
Proof.
  intros X. destruct (file_header content X) as (h & E & H).
  unfold ID3v2_write_tag. cbn [ID3v2_write_tag_states]. rewrite E. unfold tag_output. go.
  destruct (isub _ _) as [d| | |]; try reflexivity. go.
  destruct (iadd _ _) as [p| | |]; try reflexivity. go.
  destruct (Tag_to_char_stream _) as [cs| | |]; try reflexivity. go.
  destruct (fwrite_bytes _) as [bytes| | |]; try reflexivity. go.
  rewrite copy_loop_app.
  replace (from_offset content _) with (audio content).
  2:{ unfold audio, from_offset. destruct h as [h|]; [destruct H as (-> & _ & _)|rewrite H]; reflexivity. }
  rewrite states_rewritten, last_rewritten. reflexivity.
Qed.

Lemma write_not_extended content t r :
  ID3v2_write_tag (Some content) (Some t) = Ok r -> announces_extended content = false.
Proof.
  intros E. destruct (announces_extended content) eqn:X; [|reflexivity]. exfalso.
  destruct (at_least_ten content) as [S|(a & b & c & d & e & f & g & h & i & j & rest & ->)].
  - destruct content as [|a [|b [|c [|d [|e [|f [|g [|h [|i [|j r']]]]]]]]]]; try discriminate X. cbn [length] in S. lia.
  - cbn [announces_extended] in X. apply andb_prop in X. destruct X as [X F]. apply andb_prop in X. destruct X as [I V].
    unfold is_id3 in I. apply andb_prop in I. destruct I as [I C]. apply andb_prop in I. destruct I as [A B].
    apply beq_true in A, B, C. subst a b c.
    destruct (header_extended_file d e f g h i j rest t V F) as (_ & _ & W & _).
    assert (Q : Ok r = Ub UninitRead) by (rewrite <- E; exact W). discriminate Q.
Qed.

Lemma fueled_bind {A B} (o : outcome A) (k : A -> outcome B) :
  o <> NoFuel -> (forall a, o = Ok a -> k a <> NoFuel) -> bind o k <> NoFuel.
Proof. destruct o; cbn [bind]; intros H K; try discriminate; [now apply K|congruence]. Qed.

Lemma fueled_benign {A} (o : outcome A) : benign o -> o <> NoFuel.
Proof. destruct o; cbn [benign]; intros H; [discriminate|discriminate|contradiction|contradiction]. Qed.

Lemma fueled_frames : forall l cs, write_frames cs l <> NoFuel.
Proof.
  induction l as [|n l IH]; intros cs; cbn [write_frames]; [discriminate|].
  apply fueled_bind; [apply fueled_benign, benign_frame_write|]. intros [f|] _; [|discriminate].
  apply fueled_bind; [apply fueled_benign, benign_write|]. intros c _. apply IH.
Qed.

Lemma fueled_output t : tag_output t <> NoFuel.
Proof.
  unfold tag_output.
  apply fueled_bind; [apply fueled_benign, benign_isub|]. intros d _.
  apply fueled_bind; [apply fueled_benign, benign_iadd|]. intros p _.
  apply fueled_bind; [|intros cs _; apply fueled_bind; [|discriminate]].
  - rewrite tag_write_start. apply fueled_bind.
    + apply fueled_benign. unfold start_tag. rewrite syncint_encode_closed. ben.
    + intros cs _. destruct (t_frames _) as [|n l]; [discriminate|]. destruct (n_frame n); [|discriminate]. apply fueled_frames.
  - induction (firstn _ _) as [|[b|] m IH]; cbn [fwrite_bytes]; try discriminate. apply fueled_bind; [exact IH|discriminate].
Qed.

(** The bytes do not depend on the file. *)
Lemma target_free t :
  (exists bytes t', forall content, announces_extended content = false ->
     ID3v2_write_tag (Some content) (Some t) = Ok (Some (bytes ++ audio content), Some t'))
  \/ (exists u, forall content, announces_extended content = false -> ID3v2_write_tag (Some content) (Some t) = Ub u)
  \/ (exists n, forall content, announces_extended content = false -> ID3v2_write_tag (Some content) (Some t) = Exit n).
Proof.
  destruct (tag_output t) as [[bytes t']|u|n|] eqn:O.
  - left. exists bytes, t'. intros content X. now rewrite write_output, O by exact X.
  - right. left. exists u. intros content X. now rewrite write_output, O by exact X.
  - right. right. exists n. intros content X. now rewrite write_output, O by exact X.
  - now destruct (fueled_output t).
Qed.

(** ** The header stays at the front *)

(** [cs'] is [cs] with something changed behind the first ten bytes. *)
Definition onward (cs cs' : CharStream) : Prop :=
  firstn 10 (cs_stream cs') = firstn 10 (cs_stream cs) /\ length (cs_stream cs') = length (cs_stream cs)
  /\ cs_size cs' = cs_size cs /\ cs_cursor cs <= cs_cursor cs'.

Lemma onward_refl cs : onward cs cs.
Proof. repeat split. lia. Qed.

Lemma onward_trans a b c : onward a b -> onward b c -> onward a c.
Proof. intros (A1 & A2 & A3 & A4) (B1 & B2 & B3 & B4). repeat split; [congruence..|lia]. Qed.

Lemma onward_write cs d n cs' : 10 <= cs_cursor cs -> CharStream_write cs d n = Ok cs' -> onward cs cs'.
Proof.
  intros C E. unfold CharStream_write in E.
  destruct (memcpy_from (Some d) n) as [m| | |] eqn:M; try discriminate E. cbn [bind] in E.
  unfold memcpy_from in M. destruct (n <? 0) eqn:N; try discriminate M. destruct (zlen d <? n) eqn:L; try discriminate M.
  injection M as <-. destruct (_ || _) eqn:O; try discriminate E.
  destruct (iadd (cs_cursor cs) n) as [k| | |] eqn:K; try discriminate E. cbn [bind] in E. injection E as <-.
  assert (k = cs_cursor cs + n) as ->.
  { unfold iadd, chk_int in K. destruct (_ && _); congruence. }
  unfold onward. cbn [cs_stream cs_size cs_cursor]. unfold zlen in *.
  assert (length (firstn (Z.to_nat (cs_cursor cs)) (cs_stream cs)) = Z.to_nat (cs_cursor cs)) as F by (rewrite firstn_length; lia).
  repeat split.
  - rewrite firstn_app, F. replace (10 - Z.to_nat (cs_cursor cs))%nat with 0%nat by lia.
    rewrite firstn_O, app_nil_r, firstn_firstn. f_equal. lia.
  - rewrite !app_length, skipn_length, F, firstn_length. lia.
  - lia.
Qed.

Lemma onward_frames : forall l cs cs', 10 <= cs_cursor cs -> write_frames cs l = Ok cs' -> onward cs cs'.
Proof.
  induction l as [|n l IH]; intros cs cs' C E; cbn [write_frames] in E.
  - injection E as <-. apply onward_refl.
  - destruct (Frame_to_char_stream _) as [[f|]| | |]; try discriminate E. cbn [bind] in E.
    destruct (CharStream_write _ _ _) as [c| | |] eqn:W; try discriminate E. cbn [bind] in E.
    apply onward_write in W; [|exact C]. apply IH in E; [|destruct W as (_ & _ & _ & W); lia]. now apply (onward_trans cs c).
Qed.

(** What is saved starts with the header and is as long as it says. *)
Lemma output_header t bytes t' : tag_output t = Ok (bytes, t') ->
  th_identifier (t_header t) = lit "ID3" -> 0 <= th_tag_size (t_header t) < 2 ^ 32 ->
  t_header t' = t_header t /\ t_frames t' = t_frames t /\ th_tag_size (t_header t) + 10 < 2 ^ 31
  /\ zlen bytes = th_tag_size (t_header t) + 10
  /\ exists rest, bytes = lit "ID3" ++ [th_major (t_header t); th_minor (t_header t); th_flags (t_header t)]
                        ++ four_bytes (th_tag_size (t_header t)) ++ rest.
Proof.
  intros O I R. unfold tag_output in O.
  destruct (isub _ _) as [d| | |]; try discriminate O. cbn [bind] in O.
  destruct (iadd _ _) as [p| | |]; try discriminate O. cbn [bind] in O.
  destruct (Tag_to_char_stream _) as [cs| | |] eqn:W; try discriminate O. cbn [bind] in O.
  destruct (fwrite_bytes _) as [b| | |] eqn:F; try discriminate O. cbn [bind] in O. injection O as <- <-.
  cbn [t_header t_frames]. destruct (t_header t) as [id maj mi fl n ext] eqn:H. cbn [th_identifier th_major th_minor th_flags th_tag_size] in *.
  subst id. rewrite tag_write_start in W. cbn [t_header t_frames] in W.
  destruct (Z.lt_ge_cases (n + 10) (2 ^ 31)) as [L|L].
  2:{ destruct (start_tag_big maj mi fl n ext) as (u & E); [lia..|]. rewrite E in W. discriminate W. }
  rewrite start_tag_ok in W by lia. cbn [bind] in W.
  set (c0 := at_pos _ _) in W.
  assert (C : cs_cursor c0 = 10) by reflexivity.
  assert (S : cs_stream c0 = cells (lit "ID3" ++ [maj; mi; fl] ++ four_bytes n) ++ zmem n) by reflexivity.
  assert (Len : zlen (cs_stream c0) = n + 10). { rewrite S, zlen_app, zlen_cells, zlen_zmem by lia. change (zlen (lit "ID3" ++ _)) with 10. lia. }
  assert (Sz : cs_size c0 = n + 10). { unfold c0, at_pos. cbn [cs_size]. rewrite zlen_cells, zlen_zmem by lia. change (zlen (lit "ID3" ++ _)) with 10. lia. }
  assert (G : onward c0 cs).
  { destruct (t_frames t) as [|x l]; [discriminate W|]. destruct (n_frame x); [|injection W as <-; apply onward_refl].
    eapply onward_frames; [|exact W]. lia. }
  destruct G as (G1 & G2 & G3 & _). apply fwrite_is_cells in F.
  assert (Z : zlen (cs_stream cs) = n + 10) by (unfold zlen in *; lia).
  rewrite firstn_all2 in F by (unfold zlen in *; lia).
  repeat split; auto.
  - rewrite <- (zlen_cells b), <- F. exact Z.
  - exists (skipn 10 b).
    assert (cells (firstn 10 b) = cells (lit "ID3" ++ [maj; mi; fl] ++ four_bytes n)) as E.
    { transitivity (firstn 10 (cells b)); [unfold cells; rewrite firstn_map; reflexivity|]. rewrite <- F, G1, S. reflexivity. }
    apply cells_inj in E. rewrite <- (firstn_skipn 10 b) at 1. rewrite E, <- !app_assoc. reflexivity.
Qed.

(** ** Saving and deleting again *)

Lemma four_bytes_value n : 0 <= n < 2 ^ 31 -> synchsafe_value (four_bytes n) = n mod 2 ^ 29.
Proof. intros N. unfold four_bytes. rewrite to_i32_id by lia. apply synchsafe_value_sync. Qed.

Lemma saved_file content t f t' : ID3v2_write_tag (Some content) (Some t) = Ok (f, t') ->
  exists bytes u, announces_extended content = false /\ tag_output t = Ok (bytes, u)
    /\ f = Some (bytes ++ audio content) /\ t' = Some u.
Proof.
  intros E. pose proof (write_not_extended _ _ _ E) as X. rewrite write_output in E by exact X.
  destruct (tag_output t) as [[bytes u]| | |]; try discriminate E. cbn [bind] in E. injection E as <- <-. eauto 6.
Qed.

(** What the next call sees in the file. *)
Lemma saved_seen t bytes u sound : tag_output t = Ok (bytes, u) ->
  th_identifier (t_header t) = lit "ID3" -> 0 <= th_tag_size (t_header t) < 2 ^ 32 ->
  known_version (th_major (t_header t)) = true ->
  announces_extended (bytes ++ sound) = has_extended_header (th_flags (t_header t))
  /\ tag_length (bytes ++ sound) = Some (10 + th_tag_size (t_header t) mod 2 ^ 29).
Proof.
  intros O I R V. destruct (output_header t bytes u O I R) as (_ & _ & L & _ & rest & B).
  pose proof (four_bytes_value (th_tag_size (t_header t))) as Q. revert B Q.
  change (four_bytes (th_tag_size (t_header t))) with (be32 (sync_closed (to_i32 (th_tag_size (t_header t))))).
  unfold be32. generalize (zb (sync_closed (to_i32 (th_tag_size (t_header t))) / 2 ^ 24)) as d,
    (zb (sync_closed (to_i32 (th_tag_size (t_header t))) / 2 ^ 16)) as c,
    (zb (sync_closed (to_i32 (th_tag_size (t_header t))) / 2 ^ 8)) as b, (zb (sync_closed (to_i32 (th_tag_size (t_header t))))) as a.
  intros d c b a -> Q. rewrite <- Q by lia. clear Q. rewrite <- !app_assoc.
  split.
  - transitivity (is_id3 "I" "D" "3" && known_version (th_major (t_header t)) && has_extended_header (th_flags (t_header t))); [reflexivity|].
    rewrite V. reflexivity.
  - transitivity (if is_id3 "I" "D" "3" && known_version (th_major (t_header t)) then Some (10 + synchsafe_value [d; c; b; a]) else None); [reflexivity|].
    rewrite V. reflexivity.
Qed.

Lemma saved_sound t bytes u sound : tag_output t = Ok (bytes, u) -> honest (t_header t) ->
  announces_extended (bytes ++ sound) = false /\ audio (bytes ++ sound) = sound.
Proof.
  intros O (I & V & X & R). destruct (saved_seen t bytes u sound O I ltac:(lia) V) as (A & L).
  destruct (output_header t bytes u O I ltac:(lia)) as (_ & _ & _ & Z & _).
  split; [congruence|]. unfold audio. rewrite L, Z.mod_small by lia.
  unfold zlen in Z. rewrite skipn_app, skipn_all2 by lia. replace (Z.to_nat _ - _)%nat with 0%nat by lia. reflexivity.
Qed.

Lemma saved_again content t c1 t' : honest (t_header t) ->
  ID3v2_write_tag (Some content) (Some t) = Ok (Some c1, t') ->
  audio c1 = audio content
  /\ ID3v2_delete_tag (Some c1) = ID3v2_delete_tag (Some content)
  /\ (forall t2, ID3v2_write_tag (Some c1) (Some t2) = ID3v2_write_tag (Some content) (Some t2)).
Proof.
  intros H E. destruct (saved_file _ _ _ _ E) as (bytes & u & X & O & F & _). injection F as ->.
  destruct (saved_sound t bytes u (audio content) O H) as (X1 & A1). split; [exact A1|]. split.
  - rewrite !delete_file, A1 by assumption. reflexivity.
  - intros t2. rewrite !write_output, A1 by assumption. reflexivity.
Qed.

(** Saving the same tag once more. *)
Lemma output_again t bytes u : tag_output t = Ok (bytes, u) ->
  exists v, tag_output u = Ok (bytes, v) /\ (0 <= t_padding t -> v = u).
Proof.
  intros O. unfold tag_output in O.
  destruct (isub _ _) as [d| | |] eqn:D; try discriminate O. cbn [bind] in O.
  destruct (iadd _ _) as [p| | |] eqn:P; try discriminate O. cbn [bind] in O.
  destruct (Tag_to_char_stream _) as [cs| | |] eqn:W; try discriminate O. cbn [bind] in O.
  destruct (fwrite_bytes _) as [b| | |] eqn:F; try discriminate O. cbn [bind] in O. injection O as <- <-.
  unfold isub, iadd, chk_int, clamp_int, ID3v2_TAG_DEFAULT_PADDING_LENGTH in *.
  destruct (_ && _) eqn:B1 in D; [|discriminate D].
  assert (d = 2048 - t_padding t) as -> by congruence. clear D.
  destruct (_ && _) eqn:B2 in P; [|discriminate P].
  match type of P with Ok ?x = Ok ?y => assert (P1 : x = y) by congruence end. clear P. rename P1 into P.
  apply andb_prop in B1, B2. rewrite P in B2.
  assert (P0 : - 2 ^ 31 + 2048 < p < 2 ^ 31 /\ (0 <= t_padding t -> 2048 <= p)).
  { destruct (2048 - t_padding t <? 0) eqn:C1; [|destruct (2048 <? 2048 - t_padding t) eqn:C2]; lia. }
  clear B1 B2 P.
  assert (D2 : isub 2048 p = Ok (2048 - p)) by (unfold isub, chk_int; destruct (_ && _) eqn:Q; [reflexivity|]; apply andb_false_iff in Q; lia).
  assert (P2 : iadd p (clamp_int (2048 - p) 0 2048) = Ok (p + clamp_int (2048 - p) 0 2048)).
  { assert (C : (2048 <= p /\ clamp_int (2048 - p) 0 2048 = 0) \/ (p < 2048 /\ 0 <= clamp_int (2048 - p) 0 2048 <= 2048)).
    { unfold clamp_int. destruct (2048 - p <? 0) eqn:C1; [|destruct (2048 <? 2048 - p) eqn:C2]; lia. }
    unfold iadd, chk_int. destruct (_ && _) eqn:Q; [reflexivity|]. apply andb_false_iff in Q. lia. }
  unfold tag_output, ID3v2_TAG_DEFAULT_PADDING_LENGTH. cbn [t_padding t_header t_frames t_fresh].
  rewrite D2. cbn [bind]. rewrite P2. cbn [bind].
  set (q := p + clamp_int (2048 - p) 0 2048).
  change (Tag_to_char_stream (mkTag (t_header t) (t_frames t) q (t_fresh t))) with (Tag_to_char_stream (mkTag (t_header t) (t_frames t) p (t_fresh t))).
  rewrite W. cbn [bind]. rewrite F. cbn [bind]. eexists. split; [reflexivity|]. intros N. f_equal.
  unfold q, clamp_int. destruct (2048 - p <? 0) eqn:C1; [|destruct (2048 <? 2048 - p) eqn:C2]; lia.
Qed.

Lemma saved_twice content t c1 t' : honest (t_header t) ->
  ID3v2_write_tag (Some content) (Some t) = Ok (Some c1, Some t') ->
  exists t2, ID3v2_write_tag (Some c1) (Some t') = Ok (Some c1, Some t2) /\ (0 <= t_padding t -> t2 = t').
Proof.
  intros H E. destruct (saved_again content t c1 (Some t') H E) as (_ & _ & A). rewrite A.
  destruct (saved_file _ _ _ _ E) as (bytes & u & X & O & F & T). injection F as ->. injection T as ->.
  destruct (output_again t bytes u O) as (v & O2 & P). rewrite write_output, O2 by exact X. exists v. auto.
Qed.

Lemma no_tag_not_extended content : no_tag content -> announces_extended content = false.
Proof.
  intros T. unfold no_tag in T.
  destruct (at_least_ten content) as [S|(a & b & c & d & e & f & g & h & i & j & r & ->)].
  - destruct content as [|a [|b [|c [|d [|e [|f [|g [|h [|i [|j r]]]]]]]]]]; try reflexivity. cbn [length] in S. lia.
  - cbn [tag_length announces_extended] in *. now destruct (is_id3 a b c && known_version d).
Qed.

Lemma no_tag_audio content : no_tag content -> audio content = content.
Proof. intros T. unfold audio. now rewrite T. Qed.

Lemma can_output t : can_be_saved t -> honest (t_header t) /\ exists bytes u, tag_output t = Ok (bytes, u).
Proof.
  intros (H & r & E). split; [exact H|]. destruct r as [f t'].
  destruct (saved_file _ _ _ _ E) as (bytes & u & _ & O & _). eauto.
Qed.

(** What each call on the file leaves in front of the same sound. *)
Definition same_sound (sound content : list byte) : Prop :=
  announces_extended content = false /\ audio content = sound.

Lemma step_same sound content o : same_sound sound content ->
  (o = Delete -> no_tag sound) -> op_fine o ->
  exists c1, run_file_ops [o] (Some content) = Ok (Some c1) /\ same_sound sound c1.
Proof.
  intros (X & A) N F. destruct o as [t|]; cbn [run_file_ops op_fine] in *.
  - destruct (can_output t F) as (H & bytes & u & O). rewrite write_output, O, A by exact X. cbn [bind].
    exists (bytes ++ sound). split; [reflexivity|]. exact (saved_sound t bytes u sound O H).
  - rewrite delete_file, A by exact X. cbn [bind]. exists sound. split; [reflexivity|].
    split; [now apply no_tag_not_extended, N|now apply no_tag_audio, N].
Qed.

Lemma step_forgets sound c1 c2 o : same_sound sound c1 -> same_sound sound c2 ->
  run_file_ops [o] (Some c1) = run_file_ops [o] (Some c2).
Proof.
  intros (X1 & A1) (X2 & A2). destruct o as [t|]; cbn [run_file_ops].
  - rewrite !write_output, A1, A2 by assumption. reflexivity.
  - rewrite !delete_file, A1, A2 by assumption. reflexivity.
Qed.

Lemma run_cons o ops f : run_file_ops (o :: ops) f = let* f1 := run_file_ops [o] f in run_file_ops ops f1.
Proof.
  destruct o as [t|]; cbn [run_file_ops].
  - destruct (ID3v2_write_tag f (Some t)) as [[f1 t1]| | |]; reflexivity.
  - destruct (ID3v2_delete_tag f) as [f1| | |]; reflexivity.
Qed.

Lemma ops_same sound : forall ops content o, same_sound sound content ->
  (In Delete ops -> no_tag sound) -> Forall op_fine ops ->
  run_file_ops (ops ++ [o]) (Some content) = run_file_ops [o] (Some content).
Proof.
  induction ops as [|p ops IH]; intros content o S N F; [reflexivity|].
  apply Forall_inv in F as Fp. apply Forall_inv_tail in F.
  destruct (step_same sound content p S) as (c1 & E & S1); [intros ->; apply N; now left|exact Fp|].
  change ((p :: ops) ++ [o]) with (p :: (ops ++ [o])). rewrite run_cons, E. cbn [bind].
  rewrite IH; [|exact S1|intros I; apply N; now right|exact F]. now apply (step_forgets sound).
Qed.

Lemma only_last content ops o :
  announces_extended content = false -> (In Delete ops -> no_tag (audio content)) -> Forall op_fine ops ->
  run_file_ops (ops ++ [o]) (Some content) = run_file_ops [o] (Some content).
Proof. intros X N F. apply (ops_same (audio content)); auto. now split. Qed.

(** ** Headers that are not found again *)

Lemma saved_long content t c1 t' :
  th_identifier (t_header t) = lit "ID3" -> known_version (th_major (t_header t)) = true ->
  has_extended_header (th_flags (t_header t)) = false -> 2 ^ 29 <= th_tag_size (t_header t) < 2 ^ 32 ->
  ID3v2_write_tag (Some content) (Some t) = Ok (Some c1, t') ->
  exists junk, ID3v2_delete_tag (Some c1) = Ok (Some (junk ++ audio content))
    /\ zlen junk = 2 ^ 29 * (th_tag_size (t_header t) / 2 ^ 29) /\ 2 ^ 29 <= zlen junk.
Proof.
  intros I V X R E. destruct (saved_file _ _ _ _ E) as (bytes & u & XC & O & F & _). injection F as ->.
  destruct (saved_seen t bytes u (audio content) O I ltac:(lia) V) as (A & L).
  destruct (output_header t bytes u O I ltac:(lia)) as (_ & _ & _ & Z & _).
  set (n := th_tag_size (t_header t)) in *.
  rewrite delete_file by congruence. unfold audio at 1. rewrite L.
  assert (M : 0 <= n mod 2 ^ 29 <= n /\ n = 2 ^ 29 * (n / 2 ^ 29) + n mod 2 ^ 29 /\ 1 <= n / 2 ^ 29) by lia.
  exists (skipn (Z.to_nat (10 + n mod 2 ^ 29)) bytes). unfold zlen in *.
  rewrite skipn_app, skipn_length. replace (Z.to_nat (10 + n mod 2 ^ 29) - length bytes)%nat with 0%nat by lia.
  split; [reflexivity|lia].
Qed.

Lemma saved_unknown content t c1 t' :
  th_identifier (t_header t) = lit "ID3" -> known_version (th_major (t_header t)) = false ->
  0 <= th_tag_size (t_header t) < 2 ^ 32 ->
  ID3v2_write_tag (Some content) (Some t) = Ok (Some c1, t') ->
  ID3v2_read_tag (Some c1) = Ok None /\ ID3v2_delete_tag (Some c1) = Ok (Some c1)
  /\ exists bytes, bytes <> [] /\ c1 = bytes ++ audio content
     /\ exists t2, ID3v2_write_tag (Some c1) t' = Ok (Some (bytes ++ c1), t2).
Proof.
  intros I V R E. destruct (saved_file _ _ _ _ E) as (bytes & u & XC & O & F & ->). injection F as ->.
  destruct (output_header t bytes u O I ltac:(lia)) as (_ & _ & _ & Z & rest & B).
  assert (T : no_tag (bytes ++ audio content)).
  { unfold no_tag. rewrite B. unfold four_bytes, be32. rewrite <- !app_assoc.
    transitivity (if is_id3 "I" "D" "3" && known_version (th_major (t_header t)) then
      Some (10 + synchsafe_value (be32 (sync_closed (to_i32 (th_tag_size (t_header t)))))) else None); [reflexivity|].
    rewrite V, andb_false_r. reflexivity. }
  pose proof (no_tag_not_extended _ T) as X1. pose proof (no_tag_audio _ T) as A1.
  split; [now apply read_untagged|]. split; [rewrite delete_file, A1 by exact X1; reflexivity|].
  exists bytes. split; [intros ->; discriminate B|]. split; [reflexivity|].
  destruct (output_again t bytes u O) as (v & O2 & _). exists (Some v). rewrite write_output, O2, A1 by exact X1. reflexivity.
Qed.

Lemma saved_extended content t c1 t' :
  th_identifier (t_header t) = lit "ID3" -> known_version (th_major (t_header t)) = true ->
  has_extended_header (th_flags (t_header t)) = true -> 0 <= th_tag_size (t_header t) < 2 ^ 32 ->
  ID3v2_write_tag (Some content) (Some t) = Ok (Some c1, t') ->
  ID3v2_read_tag (Some c1) = Ub UninitRead /\ ID3v2_delete_tag (Some c1) = Ub UninitRead
  /\ forall t2, ID3v2_write_tag (Some c1) (Some t2) = Ub UninitRead.
Proof.
  intros I V X R E. destruct (saved_file _ _ _ _ E) as (bytes & u & XC & O & F & _). injection F as ->.
  destruct (output_header t bytes u O I ltac:(lia)) as (_ & _ & _ & Z & rest & ->).
  unfold four_bytes, be32. rewrite <- !app_assoc.
  set (n := sync_closed _).
  assert (H := fun tag => header_extended_file (th_major (t_header t)) (th_minor (t_header t)) (th_flags (t_header t))
    (zb (n / 2 ^ 24)) (zb (n / 2 ^ 16)) (zb (n / 2 ^ 8)) (zb n) (rest ++ audio content) tag V X).
  split; [apply (H t)|]. split; [apply (H t)|]. intros t2. apply (H t2).
Qed.

(** A tag of any size without frames in it. *)
Lemma output_blank n ext node : n_frame node = None -> 0 <= n -> n + 10 < 2 ^ 31 ->
  exists bytes, forall content, announces_extended content = false ->
    ID3v2_write_tag (Some content) (Some (mkTag (mkTH (lit "ID3") x03 x00 x00 n ext) [node] 2048 1))
    = Ok (Some (bytes ++ audio content), Some (mkTag (mkTH (lit "ID3") x03 x00 x00 n ext) [node] 2048 1)).
Proof.
  intros N P L. exists (lit "ID3" ++ [x03; x00; x00] ++ four_bytes n ++ zeros n). intros content X.
  rewrite write_output by exact X. unfold tag_output. cbn [t_padding t_header t_frames t_fresh].
  change (isub ID3v2_TAG_DEFAULT_PADDING_LENGTH 2048) with (@Ok Z 0). cbn [bind].
  change (iadd 2048 (clamp_int 0 0 ID3v2_TAG_DEFAULT_PADDING_LENGTH)) with (@Ok Z 2048). cbn [bind].
  rewrite tag_write_start. cbn [t_header t_frames]. rewrite start_tag_ok by lia. cbn [bind]. rewrite N. cbn [bind].
  unfold at_pos. cbn [cs_size cs_stream]. rewrite firstn_all2.
  2:{ rewrite app_length. unfold zlen. lia. }
  replace (cells (lit "ID3" ++ [x03; x00; x00] ++ four_bytes n) ++ zmem n)
    with (cells (lit "ID3" ++ [x03; x00; x00] ++ four_bytes n ++ zeros n)).
  - rewrite fwrite_cells. reflexivity.
  - unfold cells, zmem, zeros. rewrite !app_assoc, map_app. f_equal. induction (Z.to_nat n) as [|k IH]; cbn [repeat map]; congruence.
Qed.

(** What is read back does not depend on the file. *)
Lemma saved_read c d t c1 d1 t1 t2 : honest (t_header t) ->
  ID3v2_write_tag (Some c) (Some t) = Ok (Some c1, t1) -> ID3v2_write_tag (Some d) (Some t) = Ok (Some d1, t2) ->
  t1 = t2 /\ ID3v2_read_tag (Some c1) = ID3v2_read_tag (Some d1).
Proof.
  intros H E F. destruct (saved_file _ _ _ _ E) as (bytes & u & X & O & Q & ->). injection Q as ->.
  destruct (saved_file _ _ _ _ F) as (bytes' & u' & X' & O' & Q & ->). injection Q as ->.
  rewrite O in O'. injection O' as <- <-. split; [reflexivity|]. destruct H as (I & V & _ & R).
  destruct (saved_seen t bytes u [] O I ltac:(lia) V) as (_ & L).
  destruct (output_header t bytes u O I ltac:(lia)) as (_ & _ & _ & Z & _).
  rewrite Z.mod_small in L by lia. rewrite app_nil_r in L.
  assert (B : firstn (Z.to_nat (10 + th_tag_size (t_header t))) bytes = bytes) by (apply firstn_all2; unfold zlen in *; lia).
  assert (Q : forall rest, ID3v2_read_tag (Some (bytes ++ rest)) = ID3v2_read_tag (Some bytes)).
  { intros rest. rewrite <- B at 1. apply read_prefix; [exact L|lia]. }
  now rewrite !Q.
Qed.
