(** Tags copied from file to file: C95. *)
From Verif Require Import File Calls Spec SpecEdit SpecFile SpecStack SpecCopy BaseFacts TagFacts FileFacts StackFacts.
From Verif Require SysFacts.
From Coq Require Import Lia.

Lemma write_extended l t : announces_extended l = true -> ID3v2_write_tag (Some l) (Some t) = Ub UninitRead.
Proof.
  intros X. do 10 (destruct l as [|? l]; [discriminate X|]). cbn [announces_extended] in X.
  apply andb_true_iff in X. destruct X as [X F]. apply andb_true_iff in X. destruct X as [I V].
  unfold is_id3 in I. apply andb_true_iff in I. destruct I as [I C]. apply andb_true_iff in I. destruct I as [A B].
  apply Byte.byte_dec_bl in A, B, C. subst.
  eapply (fun t => header_extended_file _ _ _ _ _ _ _ l t V F).
Qed.

Lemma write_front t : exists r : outcome (list byte * Tag), forall c,
  ID3v2_write_tag (Some c) (Some t)
  = if announces_extended c then Ub UninitRead
    else let* (front, u) := r in Ok (Some (front ++ audio c), Some u).
Proof.
  exists (let* d := isub ID3v2_TAG_DEFAULT_PADDING_LENGTH (t_padding t) in
    let* padding := iadd (t_padding t) (clamp_int d 0 ID3v2_TAG_DEFAULT_PADDING_LENGTH) in
    let tag := mkTag (t_header t) (t_frames t) padding (t_fresh t) in
    let* tag_cs := Tag_to_char_stream tag in
    let* bytes := fwrite_bytes (firstn (Z.to_nat (cs_size tag_cs)) (cs_stream tag_cs)) in
    Ok (bytes, tag)).
  intros c. destruct (announces_extended c) eqn:X; [now apply write_extended|].
  rewrite SysFacts.write_file. destruct (file_header c X) as (h & -> & H). cbn [bind].
  destruct (isub _ _); cbn [bind]; auto. destruct (iadd _ _); cbn [bind]; auto.
  destruct (Tag_to_char_stream _); cbn [bind]; auto. destruct (fwrite_bytes _); cbn [bind]; auto.
  unfold audio. destruct h as [h|]; [destruct H as (-> & _)|rewrite H]; reflexivity.
Qed.

Lemma read_saved l s : saved l -> exists t, ID3v2_read_tag (Some (l ++ s)) = Ok (Some t)
  /\ forall c, announces_extended c = false -> exists u, ID3v2_write_tag (Some c) (Some t) = Ok (Some (l ++ audio c), u).
Proof.
  intros (maj & mi & fl & n & fs & V & X & S & L & B & ->). pose proof (frames_size_nonneg fs).
  destruct (file_read_back maj mi fl n fs s V X S L B) as (t & E & H' & T & P).
  destruct (survives_back maj fs S) as (K & _); [lia|].
  exists t. split; [exact E|]. intros c C. eexists. eapply write_file; eauto. lia.
Qed.

Lemma saved_audio l s : saved l -> announces_extended (l ++ s) = false /\ audio (l ++ s) = s.
Proof.
  intros (maj & mi & fl & n & fs & V & X & S & L & B & ->). pose proof (frames_size_nonneg fs).
  destruct (survives_back maj fs S) as (K & _); [lia|].
  destruct (written_file maj mi fl n fs s V X K L B) as (A & _ & D). auto.
Qed.

Lemma copy_saved l s c : saved l -> announces_extended c = false -> copy_tag (Some (l ++ s)) (Some c) = Ok (Some (l ++ audio c)).
Proof.
  intros S X. destruct (read_saved l s S) as (t & E & W). destruct (W c X) as (u & Ew).
  unfold copy_tag. rewrite E. cbn [bind]. rewrite Ew. reflexivity.
Qed.

Lemma copy_chain l : saved l -> forall cs s, Forall (fun c => announces_extended c = false) cs ->
  copy_along (Some (l ++ s)) (map Some cs) = Ok (map (fun c => Some (l ++ audio c)) cs).
Proof.
  intros S cs. induction cs as [|c cs IH]; intros s F; [reflexivity|]. inversion F as [|? ? X F']; subst.
  cbn [map copy_along]. rewrite copy_saved by assumption. cbn [bind]. rewrite IH by exact F'. reflexivity.
Qed.

Lemma swap_saved l m s r : saved l -> saved m ->
  swap_tags (Some (l ++ s)) (Some (m ++ r)) = Ok (Some (m ++ s), Some (l ++ r)).
Proof.
  intros L M. destruct (read_saved l s L) as (t & E & W). destruct (read_saved m r M) as (u & E' & W').
  destruct (saved_audio l s L) as [X A]. destruct (saved_audio m r M) as [X' A'].
  destruct (W _ X') as (t1 & Et). destruct (W' _ X) as (u1 & Eu). rewrite A' in Et. rewrite A in Eu.
  unfold swap_tags. rewrite E. cbn [bind]. rewrite E'. cbn [bind]. rewrite Eu. cbn [bind]. rewrite Et. reflexivity.
Qed.

Lemma swap_twice l m s r : saved l -> saved m ->
  (let* (a, b) := swap_tags (Some (l ++ s)) (Some (m ++ r)) in swap_tags a b) = Ok (Some (l ++ s), Some (m ++ r)).
Proof. intros L M. rewrite swap_saved by assumption. cbn [bind]. now apply swap_saved. Qed.

Lemma copy_none a b : ID3v2_read_tag a = Ok None -> copy_tag a b = Ok b.
Proof. intros E. unfold copy_tag. rewrite E. reflexivity. Qed.

Lemma written_saved c t fs maj mi fl n ext :
  announces_extended c = false -> known_version maj = true -> has_extended_header fl = false ->
  tag_has t (map frame_of fs) -> Forall (fun f => survives maj f = true) fs ->
  t_header t = mkTH (lit "ID3") maj mi fl n ext -> frames_size fs <= n -> n < 2 ^ 28 ->
  2048 - 2 ^ 31 < t_padding t < 2 ^ 31 ->
  exists l u, saved l /\ ID3v2_write_tag (Some c) (Some t) = Ok (Some (l ++ audio c), u).
Proof.
  intros X V E T S H L B P. pose proof (frames_size_nonneg fs). destruct (survives_back maj fs S) as (K & _); [lia|].
  exists (tag_bytes maj mi fl n fs). eexists. split; [repeat eexists; eauto|]. eapply write_file; eauto.
Qed.
