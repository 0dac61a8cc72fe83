(** Several tags in one file: C93. *)
From Verif Require Import File Calls Spec SpecEdit SpecFile SpecSession SpecStack BaseFacts UtilsFacts HeaderFacts FrameFacts StreamFacts WriteFacts FileFacts CostFacts.
From Coq Require Import Lia.

Lemma tag_length_long l n : tag_length l = Some n -> 10 <= zlen l.
Proof.
  intros E. do 10 (destruct l as [|? l]; [discriminate E|]). rewrite !zlen_cons. pose proof (zlen_nonneg l). lia.
Qed.

Lemma tag_length_app l n r : tag_length l = Some n ->
  tag_length (l ++ r) = Some n /\ announces_extended (l ++ r) = announces_extended l.
Proof.
  intros E. do 10 (destruct l as [|? l]; [discriminate E|]). split; [exact E|reflexivity].
Qed.

Lemma whole_app l r : whole l -> announces_extended (l ++ r) = false /\ tag_length (l ++ r) = Some (zlen l) /\ audio (l ++ r) = r.
Proof.
  intros [X T]. destruct (tag_length_app l _ r T) as [T' X']. rewrite X', T'. split; [exact X|]. split; [reflexivity|].
  unfold audio. rewrite T'. unfold zlen. rewrite Nat2Z.id. apply skipn_app_exact. reflexivity.
Qed.

Lemma tag_bytes_whole maj mi fl n fs :
  known_version maj = true -> has_extended_header fl = false -> oks fs -> frames_size fs <= n -> n < 2 ^ 28 ->
  whole (tag_bytes maj mi fl n fs).
Proof.
  intros V X K L B. destruct (written_file maj mi fl n fs [] V X K L B) as (A & T & _). rewrite app_nil_r in *.
  split; [exact A|]. now rewrite T, tag_bytes_zlen.
Qed.

Lemma stack_read l r : whole l -> ID3v2_read_tag (Some (l ++ r)) = ID3v2_read_tag (Some l).
Proof.
  intros [X T]. rewrite <- (read_prefix l (zlen l) r T) by lia. f_equal. f_equal. f_equal.
  unfold zlen. rewrite Nat2Z.id. symmetry. apply firstn_all.
Qed.

Lemma stack_delete1 l r : whole l -> ID3v2_delete_tag (Some (l ++ r)) = Ok (Some r).
Proof. intros W. destruct (whole_app l r W) as (X & _ & A). now rewrite delete_file, A. Qed.

Lemma stack_delete sound : forall ps k, Forall whole ps -> (k <= length ps)%nat ->
  delete_times k (Some (concat ps ++ sound)) = Ok (Some (concat (skipn k ps) ++ sound)).
Proof.
  intros ps k H. revert k. induction H as [|p ps W H IH]; intros k L; destruct k as [|k]; try reflexivity; cbn [length] in L; [lia|].
  cbn [concat delete_times skipn]. rewrite <- app_assoc, stack_delete1 by exact W. go. apply IH. lia.
Qed.

Lemma write_followed l r t : whole l ->
  ID3v2_write_tag (Some (l ++ r)) (Some t)
  = let* (f, t') := ID3v2_write_tag (Some l) (Some t) in Ok (followed f r, t').
Proof.
  intros W. pose proof (proj2 W) as T. destruct (whole_app l r W) as (_ & T' & A).
  assert (Hd : ID3v2_read_tag_header (Some (l ++ r)) = ID3v2_read_tag_header (Some l)).
  { apply header_prefix. apply tag_length_long in T. unfold zlen in T. lia. }
  destruct (file_header l (proj1 W)) as (h & E & H). rewrite T in H. destruct h as [h|]; [|discriminate H].
  assert (Q : declared_length h = zlen l) by (destruct H as (H & _); congruence).
  unfold ID3v2_write_tag, ID3v2_write_tag_states. rewrite Hd, E. go. rewrite Q.
  destruct (isub _ _) as [d| | |]; try reflexivity. go.
  destruct (iadd _ _) as [p| | |]; try reflexivity. go.
  destruct (Tag_to_char_stream _) as [cs| | |]; try reflexivity. go.
  destruct (fwrite_bytes _) as [b| | |]; try reflexivity. go.
  rewrite !states_last. cbn [followed option_map]. rewrite !copy_loop_app. cbn [app]. unfold from_offset, zlen. rewrite Nat2Z.id.
  rewrite skipn_all, app_nil_r, skipn_app_exact by reflexivity. reflexivity.
Qed.

Lemma stack_session cs l r : whole l ->
  run_session cs (Some (l ++ r)) = let* f := run_session cs (Some l) in Ok (followed f r).
Proof.
  intros W. unfold run_session. rewrite stack_read by exact W.
  destruct (ID3v2_read_tag (Some l)) as [[t|]| | |]; try reflexivity. go.
  destruct (run_calls t cs) as [t'| | |]; try reflexivity. go. rewrite write_followed by exact W.
  destruct (ID3v2_write_tag (Some l) (Some t')) as [[f t'']| | |]; reflexivity.
Qed.

Lemma stack_reveal cs l w q r : whole l -> whole q -> run_session cs (Some l) = Ok (Some w) -> whole w ->
  exists f g, run_session cs (Some (l ++ q ++ r)) = Ok f /\ ID3v2_delete_tag f = Ok g
    /\ ID3v2_read_tag f = ID3v2_read_tag (Some w) /\ ID3v2_read_tag g = ID3v2_read_tag (Some q).
Proof.
  intros L Q E W. exists (Some (w ++ q ++ r)), (Some (q ++ r)). rewrite stack_session, E by exact L.
  rewrite stack_delete1, !stack_read by assumption. auto.
Qed.

Lemma delete_extended l : announces_extended l = true -> ID3v2_delete_tag (Some l) = Ub UninitRead.
Proof.
  intros X. do 10 (destruct l as [|? l]; [discriminate X|]). cbn [announces_extended] in X.
  apply andb_true_iff in X. destruct X as [X F]. apply andb_true_iff in X. destruct X as [I V].
  unfold is_id3 in I. apply andb_true_iff in I. destruct I as [I C]. apply andb_true_iff in I. destruct I as [A B].
  apply Byte.byte_dec_bl in A, B, C. subst.
  eapply (fun t => header_extended_file _ _ _ _ _ _ _ l t V F). exact ID3v2_Tag_new_empty.
Qed.

Lemma delete_bare l n : announces_extended l = false -> tag_length l = None -> delete_times n (Some l) = Ok (Some l).
Proof.
  intros X T. induction n as [|n IH]; [reflexivity|]. cbn [delete_times]. rewrite delete_file by exact X. go.
  unfold audio. now rewrite T.
Qed.

Lemma delete_ends content : exists n front left, content = front ++ left /\ 10 * Z.of_nat n <= zlen front
  /\ (forall k, (k < n)%nat -> exists l, delete_times k (Some content) = Ok (Some l) /\ announces_extended l = false /\ tag_length l <> None)
  /\ delete_times n (Some content) = Ok (Some left)
  /\ ((announces_extended left = true /\ forall m, (n < m)%nat -> delete_times m (Some content) = Ub UninitRead)
      \/ (announces_extended left = false /\ tag_length left = None
          /\ forall m, (n <= m)%nat -> delete_times m (Some content) = Ok (Some left))).
Proof.
  remember (length content) as len. assert (L : (length content <= len)%nat) by lia. clear Heqlen.
  revert content L. induction len as [len IH] using (well_founded_induction lt_wf). intros content L.
  destruct (announces_extended content) eqn:X.
  - exists 0%nat, [], content. split; [reflexivity|]. split; [change (zlen (@nil byte)) with 0; lia|]. split; [intros; lia|]. split; [reflexivity|].
    left. split; [exact X|]. intros [|m] M; [lia|]. cbn [delete_times]. now rewrite delete_extended.
  - destruct (tag_length content) as [n|] eqn:T.
    + pose proof (tag_length_range _ _ T) as R. pose proof (tag_length_long _ _ T) as Lg.
      assert (La : (length (audio content) <= length content - 10)%nat).
      { unfold audio. rewrite T, skipn_length. lia. }
      unfold zlen in Lg.
      destruct (IH (length (audio content))) with (content := audio content) as (k & front & left & E & A & B & C & D); [lia|lia|].
      assert (Cf : content = firstn (Z.to_nat n) content ++ audio content) by (unfold audio; rewrite T; symmetry; apply firstn_skipn).
      assert (St : forall m, delete_times (S m) (Some content) = delete_times m (Some (audio content))).
      { intros m. cbn [delete_times]. now rewrite delete_file. }
      exists (S k), (firstn (Z.to_nat n) content ++ front), left.
      split; [rewrite <- app_assoc, <- E; exact Cf|].
      split; [rewrite zlen_app; unfold zlen at 1; rewrite firstn_length; lia|].
      split. { intros [|j] J; [exists content; rewrite T; repeat split; [exact X|discriminate]|]. rewrite St. apply B. lia. }
      split; [now rewrite St|].
      destruct D as [(D1 & D2)|(D1 & D2 & D3)]; [left|right].
      * split; [exact D1|]. intros [|m] M; [lia|]. rewrite St. apply D2. lia.
      * split; [exact D1|]. split; [exact D2|]. intros [|m] M; [lia|]. rewrite St. apply D3. lia.
    + exists 0%nat, [], content. split; [reflexivity|]. split; [change (zlen (@nil byte)) with 0; lia|]. split; [intros; lia|]. split; [reflexivity|].
      right. split; [exact X|]. split; [exact T|]. intros m _. now apply delete_bare.
Qed.
