(** Proofs about failing input and output. *)
From Coq Require Import Lia ZArith List.
From Verif Require Import File Compat FileFail Calls Spec SpecEdit SpecFile SpecFail FileFacts.
From Verif Require Import HeaderFacts.

Lemma limit_at_most k l : limit k l = at_most k l.
Proof. reflexivity. Qed.

(** ** Reading *)

Lemma header_seen e f : ID3v2_read_tag_header_e e f = ID3v2_read_tag_header (seen e f).
Proof. unfold seen. destruct f as [l|]; [|now destruct (e_open e)]. cbn [ID3v2_read_tag_header_e]. destruct (e_open e); reflexivity. Qed.

Lemma seen_some e f h : ID3v2_read_tag_header (seen e f) = Ok (Some h) ->
  exists content, f = Some content /\ e_open e = true /\ seen e f = Some (at_most (e_file_reads e) content).
Proof.
  unfold seen. intros H. destruct (e_open e); [|discriminate H]. destruct f as [l|]; [|discriminate H].
  exists l. auto.
Qed.

Lemma read_seen e f :
  ID3v2_read_tag_e e f
  = match ID3v2_read_tag_header (seen e f) with
    | Ok (Some _) => if e_reopen e then if e_buffer e then ID3v2_read_tag (seen e f) else Ok None else Ub NullDeref
    | _ => ID3v2_read_tag (seen e f)
    end.
Proof.
  unfold ID3v2_read_tag_e, ID3v2_read_tag. rewrite header_seen.
  destruct (ID3v2_read_tag_header (seen e f)) as [[h|]| | |] eqn:E; try reflexivity.
  destruct (seen_some _ _ _ E) as (content & -> & _ & ->). cbn [bind].
  destruct (e_reopen e), (e_buffer e); reflexivity.
Qed.

Lemma load_seen e f :
  load_tag_e e f
  = match ID3v2_read_tag_header (seen e f) with
    | Ok (Some _) => if e_reopen e && e_buffer e then load_tag (seen e f) else Ub NullDeref
    | _ => load_tag (seen e f)
    end.
Proof.
  unfold load_tag_e, load_tag. rewrite header_seen.
  destruct (ID3v2_read_tag_header (seen e f)) as [[h|]| | |] eqn:E; try reflexivity.
  destruct (seen_some _ _ _ E) as (content & -> & _ & ->). cbn [bind deref].
  destruct (e_reopen e && e_buffer e); reflexivity.
Qed.

(** ** Copying *)

Lemma copy_e_limit k src : forall dst, (match k with None => True | Some k => (length dst <= k)%nat end) ->
  copy_e k src dst = at_most k (dst ++ src).
Proof.
  induction src as [|c src IH]; intros dst L.
  - cbn [copy_e]. rewrite app_nil_r. destruct k as [k|]; [|reflexivity]. cbn [at_most]. now rewrite firstn_all2.
  - cbn [copy_e]. destruct k as [k|]; cbn [putc_e].
    + destruct (Nat.ltb_spec (length dst) k) as [H|H].
      * rewrite IH; [now rewrite <- app_assoc|]. rewrite app_length. cbn [length]. lia.
      * rewrite IH by exact L. cbn [at_most]. rewrite !firstn_app.
        replace (k - length dst)%nat with 0%nat by lia. reflexivity.
    + rewrite IH by exact I. now rewrite <- app_assoc.
Qed.

Lemma copy_e_app k src src' dst : copy_e k src' (copy_e k src dst) = copy_e k (src ++ src') dst.
Proof. revert dst. induction src as [|c src IH]; intros dst; [reflexivity|]. cbn [copy_e app]. apply IH. Qed.

Lemma copy_e_none src : forall dst, copy_e None src dst = copy_loop src dst.
Proof. induction src as [|c src IH]; intros dst; [reflexivity|]. cbn [copy_e copy_loop putc_e]. apply IH. Qed.

Lemma copy_states_e_none src : forall dst, copy_states_e None src dst = copy_states src dst.
Proof. induction src as [|c src IH]; intros dst; [reflexivity|]. cbn [copy_states_e copy_states putc_e]. now rewrite IH. Qed.

Lemma copy_states_e_map k src : forall dst, (match k with None => True | Some k => (length dst <= k)%nat end) ->
  copy_states_e k src dst = map (fun i => at_most k (dst ++ firstn (S i) src)) (seq 0 (length src)).
Proof.
  induction src as [|c src IH]; intros dst L; [reflexivity|].
  cbn [copy_states_e length seq map]. f_equal.
  - rewrite <- (copy_e_limit k (firstn 1 (c :: src)) dst L). reflexivity.
  - assert (L' : match k with None => True | Some k' => (length (putc_e k dst c) <= k')%nat end).
    { destruct k as [k|]; [|exact I]. cbn [putc_e]. destruct (Nat.ltb_spec (length dst) k); [|exact L].
      rewrite app_length. cbn [length]. lia. }
    rewrite IH by exact L'. rewrite <- (seq_shift (length src) 0), map_map. apply map_ext. intros i.
    rewrite <- (copy_e_limit k _ _ L'), <- (copy_e_limit k _ _ L). reflexivity.
Qed.

Lemma at_most_firstn k l i : at_most k (firstn i l) = firstn i (at_most k l).
Proof. destruct k as [k|]; cbn [at_most]; [|reflexivity]. rewrite !firstn_firstn. now rewrite Nat.min_comm. Qed.

Lemma copy_states_last k src : forall dst d, last (copy_states_e k src dst) d = match src with [] => d | _ => copy_e k src dst end.
Proof.
  induction src as [|c src IH]; intros dst d; [reflexivity|]. cbn [copy_states_e copy_e].
  destruct src as [|c' src]; [reflexivity|]. rewrite <- (IH _ d). reflexivity.
Qed.

Lemma last_map {A B} (f : A -> B) l d : last (map f l) (f d) = f (last l d).
Proof. induction l as [|a l IH]; [reflexivity|]. destruct l; [reflexivity|]. exact IH. Qed.

Lemma last_any {A} l (d d' a : A) : last (a :: l) d = last (a :: l) d'.
Proof. revert a. induction l as [|b l IH]; intros a; [reflexivity|]. exact (IH b). Qed.

Lemma states_e k (f : file) src :
  let states := f :: Some [] :: map Some (copy_states_e k src []) in
  last states f = Some (at_most k src)
  /\ (forall s, In s states <-> s = f \/ exists i, s = Some (firstn i (at_most k src))).
Proof.
  cbn zeta. assert (L : match k with None => True | Some k => (length (@nil byte) <= k)%nat end) by (destruct k; cbn; auto with arith).
  pose proof (copy_e_limit k src [] L) as E. cbn [app] in E. split.
  - rewrite <- E. destruct src as [|c src]; [reflexivity|].
    change (last (f :: Some [] :: map Some (copy_states_e k (c :: src) [])) f)
      with (last (map Some (copy_states_e k (c :: src) [])) f).
    cbn [copy_states_e map]. rewrite (last_any _ f (Some [])).
    change (last (map Some (copy_states_e k (c :: src) [])) (Some []) = Some (copy_e k (c :: src) [])).
    rewrite last_map, copy_states_last. reflexivity.
  - intros s. rewrite copy_states_e_map by exact L. rewrite map_map. cbn [In]. split.
    + intros [H|[H|H]]; [left; auto|right; exists 0%nat; now rewrite <- H|].
      apply in_map_iff in H as (i & <- & _). right. exists (S i). cbn [app]. now rewrite at_most_firstn.
    + intros [H|(i & ->)]; [left; auto|]. right.
      destruct i as [|i]; [left; reflexivity|]. rewrite <- at_most_firstn.
      destruct src as [|c src]; [left; destruct k as [[|k]|]; reflexivity|]. right. apply in_map_iff.
      exists (Nat.min i (length src)). split.
      * cbn [app]. do 2 f_equal. cbn [firstn]. f_equal.
        destruct (Nat.le_ge_cases i (length src)); [now rewrite Nat.min_l|].
        rewrite Nat.min_r by assumption. rewrite !firstn_all2; auto.
      * apply in_seq. cbn [length]. lia.
Qed.

(** ** Writing *)

Lemma write_prepare e content t cs bytes :
  sees_extended e content = false -> 2048 - 2 ^ 31 < t_padding t < 2 ^ 31 ->
  Tag_to_char_stream t = Ok cs -> cs_stream cs = cells bytes -> cs_size cs = zlen bytes ->
  write_tag_prepare e (Some content) t
  = if e_temp e && e_update e then Ok (padded t, at_most (e_temp_holds e) (bytes ++ carried e content)) else Ub NullDeref.
Proof.
  intros X P W S Z.
  assert (exists h, ID3v2_read_tag_header_e e (Some content) = Ok h
    /\ from_offset (at_most (e_file_reads e) content) match h with Some h => declared_length h | None => 0 end = carried e content)
    as (h & E & H).
  { rewrite header_seen. unfold seen, carried, sees_extended in *. destruct (e_open e); [|exists None; auto].
    destruct (file_header _ X) as (h & E & H). exists h. split; [exact E|].
    unfold audio, from_offset. destruct h as [h|]; [destruct H as (-> & _ & _)|rewrite H]; reflexivity. }
  unfold write_tag_prepare. rewrite E. go.
  pose proof (padding_any (t_padding t) P) as Q. unfold bind in Q at 1.
  destruct (isub ID3v2_TAG_DEFAULT_PADDING_LENGTH (t_padding t)) eqn:I; try discriminate Q. go. rewrite Q. go.
  change (Tag_to_char_stream (mkTag (t_header t) (t_frames t) _ (t_fresh t))) with (Tag_to_char_stream t).
  rewrite W. go. destruct (e_temp e); cbn [negb andb]; [|reflexivity].
  rewrite S, Z. rewrite firstn_all2 by (pose proof (zlen_cells bytes); unfold zlen in *; lia).
  rewrite fwrite_cells. go. destruct (e_update e); cbn [negb]; [|reflexivity].
  rewrite limit_at_most, H, copy_e_app, copy_e_limit by (destruct (e_temp_holds e); cbn; auto with arith). reflexivity.
Qed.

Lemma write_fails e content t cs bytes :
  sees_extended e content = false -> 2048 - 2 ^ 31 < t_padding t < 2 ^ 31 ->
  Tag_to_char_stream t = Ok cs -> cs_stream cs = cells bytes -> cs_size cs = zlen bytes ->
  e_temp e && e_update e && e_replace e = true ->
  exists states, ID3v2_write_tag_e e (Some content) (Some t) = (states, Ok (Some (padded t)))
    /\ last states (Some content) = Some (passed e (bytes ++ carried e content))
    /\ (forall s, In s states <-> s = Some content \/ exists i, s = Some (firstn i (passed e (bytes ++ carried e content)))).
Proof.
  intros X P W S Z R. unfold ID3v2_write_tag_e. rewrite (write_prepare e content t cs bytes X P W S Z).
  apply andb_prop in R as (-> & ->). cbn [negb]. eexists. split; [reflexivity|].
  rewrite limit_at_most. apply states_e.
Qed.

Lemma write_refused e f t :
  e_temp e && e_update e && e_replace e = false ->
  exists r, ID3v2_write_tag_e e f (Some t) = ([f], r) /\ (forall v, r <> Ok v).
Proof.
  intros R. unfold ID3v2_write_tag_e.
  destruct (write_tag_prepare e f t) as [[t' temp]| | |] eqn:E;
    try (eexists; split; [reflexivity|discriminate]).
  assert (e_temp e && e_update e = true).
  { unfold write_tag_prepare in E. do 4 binv E. destruct (e_temp e); cbn [negb andb] in *; [|discriminate E].
    binv E. destruct f; [|discriminate E]. destruct (e_update e); [reflexivity|discriminate E]. }
  rewrite H in R. cbn [andb] in R. rewrite R. eexists. split; [reflexivity|discriminate].
Qed.

Lemma write_refused_exactly e content t cs bytes :
  sees_extended e content = false -> 2048 - 2 ^ 31 < t_padding t < 2 ^ 31 ->
  Tag_to_char_stream t = Ok cs -> cs_stream cs = cells bytes -> cs_size cs = zlen bytes ->
  e_temp e && e_update e && e_replace e = false ->
  ID3v2_write_tag_e e (Some content) (Some t) = ([Some content], Ub NullDeref).
Proof.
  intros X P W S Z R. unfold ID3v2_write_tag_e. rewrite (write_prepare e content t cs bytes X P W S Z).
  destruct (e_temp e && e_update e); [|reflexivity]. cbn [andb] in R. rewrite R. reflexivity.
Qed.

Lemma at_most_enough k l : at_most k l = l <-> enough k l.
Proof.
  destruct k as [k|]; cbn [at_most enough]; [|tauto]. split; [|apply firstn_all2].
  intros H. rewrite <- H, firstn_length. lia.
Qed.

Lemma at_most_length k l : (length (at_most k l) <= length l)%nat.
Proof. destruct k as [k|]; cbn [at_most]; [rewrite firstn_length; lia|lia]. Qed.

Lemma at_most_full k l : length (at_most k l) = length l -> at_most k l = l.
Proof. intros H. apply at_most_enough. destruct k as [k|]; cbn [at_most enough] in *; [|exact I]. rewrite firstn_length in H. lia. Qed.

Lemma passed_enough e l : passed e l = l <-> enough (e_temp_holds e) l /\ enough (e_temp_reads e) l /\ enough (e_file_holds e) l.
Proof.
  unfold passed. split.
  - intros H. pose proof (f_equal (@length _) H) as L.
    pose proof (at_most_length (e_file_holds e) (at_most (e_temp_reads e) (at_most (e_temp_holds e) l))).
    pose proof (at_most_length (e_temp_reads e) (at_most (e_temp_holds e) l)).
    pose proof (at_most_length (e_temp_holds e) l).
    assert (A : at_most (e_temp_holds e) l = l) by (apply at_most_full; lia). rewrite A in *.
    assert (B : at_most (e_temp_reads e) l = l) by (apply at_most_full; lia). rewrite B in *.
    rewrite <- !at_most_enough. auto.
  - rewrite <- !at_most_enough. now intros (-> & -> & ->).
Qed.

Lemma passed_prefix e l : exists i, passed e l = firstn i l.
Proof.
  unfold passed. destruct (e_temp_holds e) as [a|], (e_temp_reads e) as [b|], (e_file_holds e) as [c|]; cbn [at_most];
    rewrite ?firstn_firstn; eauto. exists (length l). now rewrite firstn_all.
Qed.

(** ** Deleting *)

Lemma delete_fails e content : sees_extended e content = false ->
  e_reopen e && e_temp e && e_replace e = true -> e_open e = true ->
  tag_length (at_most (e_file_reads e) content) <> None ->
  exists states, ID3v2_delete_tag_e e (Some content) = (states, Ok tt)
    /\ last states (Some content) = Some (passed e (carried e content))
    /\ (forall s, In s states <-> s = Some content \/ exists i, s = Some (firstn i (passed e (carried e content)))).
Proof.
  intros X R O T. unfold ID3v2_delete_tag_e. rewrite header_seen. unfold seen, sees_extended, carried in *. rewrite O in *.
  destruct (file_header _ X) as (h & -> & H). destruct h as [h|]; [|contradiction].
  apply andb_prop in R as (R & R2). apply andb_prop in R as (R0 & R1). rewrite R0, R1, R2. cbn [negb].
  eexists. split; [reflexivity|]. unfold audio. destruct H as (-> & _). rewrite !limit_at_most.
  unfold from_offset. rewrite copy_e_limit by (destruct (e_temp_holds e); cbn; auto with arith). apply states_e.
Qed.

Lemma delete_unseen e f : ID3v2_read_tag_header (seen e f) = Ok None -> ID3v2_delete_tag_e e f = ([f], Ok tt).
Proof. intros H. unfold ID3v2_delete_tag_e. now rewrite header_seen, H. Qed.

Lemma unseen_none e f :
  match seen e f with None => True | Some l => tag_length l = None end -> ID3v2_delete_tag_e e f = ([f], Ok tt).
Proof.
  intros H. apply delete_unseen. destruct (seen e f) as [l|]; [|reflexivity].
  unfold ID3v2_read_tag_header. pose proof (read_untagged l H) as U. unfold ID3v2_read_tag in U.
  destruct (ID3v2_read_tag_header (Some l)) as [[h|]| | |] eqn:E; try discriminate U; [|exact E].
  assert (X : announces_extended l = false).
  { destruct (at_least_ten l) as [S|(a & b & c & d & x & g & p & q & i & j & r & ->)].
    - destruct l as [|a [|b [|c [|d [|x [|g [|p [|q [|i [|j r]]]]]]]]]]; try reflexivity. cbn [length] in S. lia.
    - cbn [tag_length announces_extended] in *. now destruct (is_id3 a b c && known_version d). }
  destruct (file_header l X) as (h' & E' & H'). rewrite E in E'. injection E' as <-. destruct H' as (H' & _). congruence.
Qed.

Lemma delete_refused e content : sees_extended e content = false ->
  e_reopen e && e_temp e && e_replace e = false -> e_open e = true ->
  tag_length (at_most (e_file_reads e) content) <> None ->
  ID3v2_delete_tag_e e (Some content)
  = (if e_reopen e && e_replace e && match carried e content with [] => true | _ => false end
     then [Some content; Some []] else [Some content], Ub NullDeref).
Proof.
  intros X R O T. unfold ID3v2_delete_tag_e. rewrite header_seen. unfold seen, sees_extended, carried in *. rewrite O in *.
  destruct (file_header _ X) as (h & -> & H). destruct h as [h|]; [|contradiction].
  destruct H as (H & _). unfold audio. rewrite H. rewrite !limit_at_most.
  destruct (e_reopen e); [|reflexivity]. cbn [negb andb] in *.
  destruct (e_temp e); cbn [negb andb] in *.
  - rewrite R. reflexivity.
  - unfold from_offset. destruct (skipn _ _); destruct (e_replace e); reflexivity.
Qed.

(** ** Nothing refused *)

Lemma seen_all_well f : seen all_well f = f.
Proof. now destruct f. Qed.

Lemma ideal_write f tagp :
  ID3v2_write_tag_states f tagp
  = match ID3v2_write_tag_e all_well f tagp with (states, Ok t) => Ok (states, t) | (_, Ub u) => Ub u | (_, Exit n) => Exit n | (_, NoFuel) => NoFuel end.
Proof.
  destruct tagp as [t|]; [|reflexivity]. cbn [ID3v2_write_tag_states ID3v2_write_tag_e].
  unfold write_tag_prepare. rewrite header_seen, seen_all_well.
  destruct (ID3v2_read_tag_header f); cbn [bind]; try reflexivity.
  destruct (isub _ _); cbn [bind]; try reflexivity.
  destruct (iadd _ _); cbn [bind]; try reflexivity.
  destruct (Tag_to_char_stream _); cbn [bind]; try reflexivity. cbn [e_temp all_well negb].
  destruct (fwrite_bytes _); cbn [bind]; try reflexivity.
  destruct f as [l|]; [|reflexivity]. cbn [e_update e_replace e_temp_holds e_temp_reads e_file_reads e_file_holds all_well negb limit].
  rewrite !copy_e_none, copy_states_e_none, !copy_loop_app. reflexivity.
Qed.

Lemma ideal_delete f :
  ID3v2_delete_tag_states f
  = match ID3v2_delete_tag_e all_well f with (states, Ok _) => Ok states | (_, Ub u) => Ub u | (_, Exit n) => Exit n | (_, NoFuel) => NoFuel end.
Proof.
  unfold ID3v2_delete_tag_states, ID3v2_delete_tag_e. rewrite header_seen, seen_all_well.
  destruct (ID3v2_read_tag_header f) as [[h|]| | |]; cbn [bind]; try reflexivity.
  destruct f as [l|]; [|reflexivity]. cbn [e_temp e_reopen e_replace e_temp_holds e_temp_reads e_file_reads e_file_holds all_well negb limit].
  rewrite !copy_e_none, copy_states_e_none. reflexivity.
Qed.

Lemma ideal f :
  ID3v2_read_tag_header_e all_well f = ID3v2_read_tag_header f /\ ID3v2_read_tag_e all_well f = ID3v2_read_tag f
  /\ load_tag_e all_well f = load_tag f.
Proof.
  rewrite header_seen, read_seen, load_seen, seen_all_well. cbn [all_well e_reopen e_buffer andb].
  split; [reflexivity|]. destruct (ID3v2_read_tag_header f) as [[h|]| | |]; auto.
Qed.

Lemma ideal_all f tagp :
  ID3v2_read_tag_header_e all_well f = ID3v2_read_tag_header f
  /\ ID3v2_read_tag_e all_well f = ID3v2_read_tag f
  /\ load_tag_e all_well f = load_tag f
  /\ ID3v2_write_tag_states f tagp
     = match ID3v2_write_tag_e all_well f tagp with
       | (states, Ok t) => Ok (states, t) | (_, Ub u) => Ub u | (_, Exit n) => Exit n | (_, NoFuel) => NoFuel
       end
  /\ ID3v2_delete_tag_states f
     = match ID3v2_delete_tag_e all_well f with
       | (states, Ok _) => Ok states | (_, Ub u) => Ub u | (_, Exit n) => Exit n | (_, NoFuel) => NoFuel
       end.
Proof. destruct (ideal f) as (A & B & C). pose proof (ideal_write f tagp). pose proof (ideal_delete f). auto. Qed.

Lemma read_all e f :
  ID3v2_read_tag_header_e e f = ID3v2_read_tag_header (seen e f)
  /\ ID3v2_read_tag_e e f
     = match ID3v2_read_tag_header (seen e f) with
       | Ok (Some _) => if e_reopen e then if e_buffer e then ID3v2_read_tag (seen e f) else Ok None else Ub NullDeref
       | _ => ID3v2_read_tag (seen e f)
       end
  /\ load_tag_e e f
     = match ID3v2_read_tag_header (seen e f) with
       | Ok (Some _) => if e_reopen e && e_buffer e then load_tag (seen e f) else Ub NullDeref
       | _ => load_tag (seen e f)
       end.
Proof. exact (conj (header_seen e f) (conj (read_seen e f) (load_seen e f))). Qed.

Lemma passed_all e l :
  (passed e l = l <-> enough (e_temp_holds e) l /\ enough (e_temp_reads e) l /\ enough (e_file_holds e) l)
  /\ exists i, passed e l = firstn i l.
Proof. exact (conj (passed_enough e l) (passed_prefix e l)). Qed.

Lemma refused_all e f t :
  e_temp e && e_update e && e_replace e = false ->
  exists r, ID3v2_write_tag_e e f (Some t) = ([f], r) /\ (forall v, r <> Ok v)
    /\ forall content cs bytes, f = Some content ->
       sees_extended e content = false -> 2048 - 2 ^ 31 < t_padding t < 2 ^ 31 ->
       Tag_to_char_stream t = Ok cs -> cs_stream cs = cells bytes -> cs_size cs = zlen bytes ->
       r = Ub NullDeref.
Proof.
  intros R. destruct (write_refused e f t R) as (r & E & N). exists r. split; [exact E|]. split; [exact N|].
  intros content cs bytes -> X P W S Z. rewrite (write_refused_exactly e content t cs bytes X P W S Z R) in E. congruence.
Qed.
