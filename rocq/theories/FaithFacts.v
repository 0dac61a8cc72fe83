(** What is in a file that was written: C94. *)
From Verif Require Import File Calls Spec SpecEdit SpecFile BaseFacts UtilsFacts FrameFacts StreamFacts ListFacts TagFacts WriteFacts FileFacts TestRunFacts.
From Coq Require Import Lia.

Lemma list_of_inj ps qs : list_of ps = list_of qs -> ps = qs.
Proof.
  intros E. destruct ps as [|p ps], qs as [|q qs]; [reflexivity|discriminate E|discriminate E|].
  cbn [list_of] in E. revert E. generalize (p :: ps) as a, (q :: qs) as b. clear.
  induction a as [|x a IH]; intros [|y b] E; try discriminate E; [reflexivity|].
  cbn [map] in E. injection E as -> E. f_equal. now apply IH.
Qed.

Lemma tag_has_inj t fs gs : tag_has t fs -> tag_has t gs -> fs = gs.
Proof. intros (ps & T & <- & _) (qs & T' & <- & _). rewrite T in T'. apply list_of_inj in T'. now subst. Qed.

Lemma be32_inj a b : 0 <= a < 2 ^ 28 -> 0 <= b < 2 ^ 28 -> be32 a = be32 b -> a = b.
Proof.
  intros A B E. apply (f_equal be_value) in E. rewrite !be_value_be32 in E.
  change (2 ^ 32) with 4294967296 in E. change (2 ^ 28) with 268435456 in A, B. rewrite !Z.mod_small in E by lia. exact E.
Qed.

Lemma ok_lengths f : frame_ok f = true -> length (frame_id f) = 4%nat /\ length (frame_flags f) = 2%nat.
Proof.
  intros K. unfold frame_ok in K. rewrite !andb_true_iff in K. destruct K as [[[A B] _] _].
  unfold len_is in *. rewrite Nat.eqb_eq in *. auto.
Qed.

(** The parts of a frame are found by their lengths. *)
Lemma image_parts f g r s : frame_ok f = true -> frame_ok g = true -> body_size f < 2 ^ 28 -> body_size g < 2 ^ 28 ->
  frame_image be32 f ++ r = frame_image be32 g ++ s ->
  frame_id f = frame_id g /\ frame_flags f = frame_flags g /\ frame_body f = frame_body g /\ r = s.
Proof.
  intros F G Bf Bg E. destruct (ok_lengths f F) as [I L]. destruct (ok_lengths g G) as [I' L'].
  pose proof (body_size_nonneg f). pose proof (body_size_nonneg g).
  unfold frame_image in E. rewrite <- !app_assoc in E.
  apply app_inv_length in E; [|congruence]. destruct E as [Ei E].
  apply app_inv_length in E; [|reflexivity]. destruct E as [Es E]. apply be32_inj in Es; [|lia|lia].
  apply app_inv_length in E; [|congruence]. destruct E as [El E].
  apply app_inv_length in E; [|unfold body_size, zlen in Es; lia]. destruct E as [Eb E]. auto.
Qed.

(** A frame of a kind that can be too short to be read, with one more byte. *)
Definition grow (f : fspec) : fspec :=
  match f with
  | FPicture fl m ty d pic => FPicture fl m ty d (pic ++ [x01])
  | FOther id fl body => FOther id fl (body ++ [x01])
  | _ => f
  end.

Definition grown (id : list byte) : list byte := if id_starts id "T" || id_starts id "C" then [] else [x01].

Lemma grow_id f : frame_id (grow f) = frame_id f /\ frame_flags (grow f) = frame_flags f.
Proof. destruct f; auto. Qed.

Lemma grow_readable f : readable (grow f) = true.
Proof. destruct f; cbn [grow readable]; auto; unfold len_is; rewrite app_length, Nat.add_comm; reflexivity. Qed.

Lemma grow_body f : frame_ok f = true -> frame_body (grow f) = frame_body f ++ grown (frame_id f).
Proof.
  intros K. unfold frame_ok in K. apply andb_true_iff in K. destruct K as [_ K]. unfold grown, frame_body.
  destruct f as [id fl t|fl lang d c|fl m ty d pic|id fl body]; cbn [grow frame_id frame_encoding body_with].
  - apply andb_true_iff in K. destruct K as [-> _]. now rewrite app_nil_r.
  - change (id_starts (lit "COMM") "C") with true. rewrite orb_true_r. now rewrite app_nil_r.
  - change (id_starts (lit "APIC") "C") with false. change (id_starts (lit "APIC") "T") with false. cbn [orb].
    now rewrite <- !app_assoc.
  - rewrite !andb_true_iff, !negb_true_iff in K. destruct K as [[[-> ->] _] _]. reflexivity.
Qed.

Lemma grow_size f : frame_ok f = true -> body_size f <= body_size (grow f) <= body_size f + 1.
Proof.
  intros K. unfold body_size. rewrite grow_body by exact K. rewrite zlen_app. unfold grown.
  destruct (_ || _); [change (zlen (@nil byte)) with 0|change (zlen [x01]) with 1]; lia.
Qed.

Lemma grow_ok f : frame_ok f = true -> body_size f < 2 ^ 28 -> frame_ok (grow f) = true.
Proof.
  intros K B. pose proof (grow_size f K) as S. unfold frame_ok in *. destruct (grow_id f) as [-> ->].
  rewrite !andb_true_iff in *. destruct K as [[[A C] _] D].
  repeat split; auto; [change (2 ^ 31) with 2147483648; change (2 ^ 28) with 268435456 in B; lia|].
  destruct f; exact D.
Qed.

Lemma grow_back f g : frame_of (grow f) = frame_of (grow g) ->
  frame_id f = frame_id g -> frame_flags f = frame_flags g -> frame_body f = frame_body g -> frame_of f = frame_of g.
Proof.
  intros E I L Bd. unfold frame_of in *. unfold body_size. rewrite I, L, Bd. f_equal.
  apply (f_equal f_data) in E. cbn [f_data] in E.
  destruct f, g; cbn [grow] in E; try discriminate E; try exact E.
  - assert (P : forall a b : list byte, cells (a ++ [x01]) = cells (b ++ [x01]) -> a = b)
      by (intros a b Q; apply cells_inj in Q; apply app_inj_tail in Q; apply Q).
    injection E as E1 E2 E3 E4 E5 _. apply P in E5. congruence.
  - injection E as E. apply cells_inj, app_inj_tail in E. destruct E as [-> _]. reflexivity.
Qed.

Lemma frame_inj f g : frame_ok f = true -> frame_ok g = true -> body_size f < 2 ^ 28 ->
  frame_id f = frame_id g -> frame_flags f = frame_flags g -> frame_body f = frame_body g -> frame_of f = frame_of g.
Proof.
  intros F G B I L E. assert (B' : body_size g < 2 ^ 28) by (unfold body_size in *; congruence).
  apply grow_back; auto.
  assert (R : forall h, frame_ok h = true -> body_size h < 2 ^ 28 -> reads_back 3 be32 (grow h)).
  { intros h K S. pose proof (grow_size h K). pose proof (body_size_nonneg h). apply reads_back_size; [now apply grow_ok|apply grow_readable|reflexivity|].
    unfold declared_size. change (3 =? 4) with false. cbv iota. rewrite be_value_be32. unfold to_i32.
    change (2 ^ 31) with 2147483648 in *. change (2 ^ 32) with 4294967296. change (2 ^ 28) with 268435456 in *. lia. }
  assert (Q : frame_image be32 (grow f) = frame_image be32 (grow g)).
  { unfold frame_image, body_size. rewrite !grow_body by assumption. destruct (grow_id f) as [-> ->], (grow_id g) as [-> ->].
    now rewrite I, L, E. }
  destruct (R f F B) as (_ & _ & Pf). destruct (R g G B') as (_ & _ & Pg). specialize (Pf [] []). specialize (Pg [] []).
  assert (Z : fits [] (cells (frame_image be32 (grow g)) ++ [])).
  { destruct (grow_id g) as [Gi Gl]. destruct (ok_lengths g G). pose proof (grow_size g G). unfold fits, frame_image.
    rewrite zlen_app, zlen_cells, !zlen_app, Gi, Gl. change (zlen (be32 _)) with 4. change (zlen (@nil cell)) with 0.
    fold (body_size (grow g)). unfold zlen. change (2 ^ 31) with 2147483648. change (2 ^ 28) with 268435456 in B'. lia. }
  rewrite Q in Pf. specialize (Pf Z). specialize (Pg Z). congruence.
Qed.

Lemma id_nonzero g : frame_ok g = true -> forallb is_zero (frame_id g) = false.
Proof.
  intros K. unfold frame_ok in K. apply andb_true_iff in K. destruct K as [_ K].
  destruct g as [id fl t|fl lang d c|fl m ty d pic|id fl body]; cbn [frame_id]; try reflexivity.
  - apply andb_true_iff in K. destruct K as [K _]. destruct id as [|x id]; [discriminate K|]. cbn [id_starts] in K.
    apply Byte.byte_dec_bl in K. subst x. reflexivity.
  - rewrite !andb_true_iff, !negb_true_iff in K. apply K.
Qed.

Lemma zeros_zero a : forallb is_zero (zeros a) = true.
Proof. unfold zeros. induction (Z.to_nat a) as [|k IH]; [reflexivity|exact IH]. Qed.

(** No frame begins like padding. *)
Lemma not_zeros g r a : frame_ok g = true -> frame_image be32 g ++ r <> zeros a.
Proof.
  intros K E. apply (f_equal (forallb is_zero)) in E. rewrite zeros_zero in E. unfold frame_image in E.
  rewrite !forallb_app, id_nonzero in E by exact K. discriminate E.
Qed.

(** The frames are known from their bytes, even with zeros behind. *)
Lemma images_inj fs : forall gs a b,
  Forall (fun f => frame_ok f = true) fs -> Forall (fun f => frame_ok f = true) gs ->
  frames_size fs < 2 ^ 28 -> frames_size gs < 2 ^ 28 ->
  images be32 fs ++ zeros a = images be32 gs ++ zeros b -> map frame_of fs = map frame_of gs.
Proof.
  induction fs as [|f fs IH]; intros [|g gs] a b F G Sf Sg E; [reflexivity| | |].
  - exfalso. rewrite images_cons, <- app_assoc in E. symmetry in E. apply not_zeros in E; [exact E|]. now inversion G.
  - exfalso. rewrite images_cons, <- app_assoc in E. apply not_zeros in E; [exact E|]. now inversion F.
  - inversion F as [|? ? Kf F']; subst. inversion G as [|? ? Kg G']; subst. rewrite frames_size_cons in Sf, Sg.
    pose proof (frames_size_nonneg fs). pose proof (frames_size_nonneg gs).
    pose proof (body_size_nonneg f). pose proof (body_size_nonneg g).
    rewrite !images_cons, <- !app_assoc in E. apply image_parts in E; auto; [|lia|lia].
    destruct E as (I & L & Bd & E). cbn [map]. f_equal; [apply frame_inj; auto; lia|].
    eapply IH; [exact F'|exact G'|lia|lia|exact E].
Qed.

Lemma images_same fs : forall gs, Forall (fun f => frame_ok f = true) fs -> Forall (fun f => frame_ok f = true) gs ->
  map frame_of fs = map frame_of gs -> images be32 fs = images be32 gs /\ frames_size fs = frames_size gs.
Proof.
  induction fs as [|f fs IH]; intros [|g gs] F G E; try discriminate E; [auto|].
  inversion F as [|? ? Hf F']; subst. inversion G as [|? ? Hg G']; subst. cbn [map] in E.
  assert (E1 : frame_of f = frame_of g) by congruence. assert (E2 : map frame_of fs = map frame_of gs) by congruence.
  pose proof (frame_write f Hf) as A. pose proof (frame_write g Hg) as C. rewrite E1, C in A.
  assert (S : body_size g = body_size f) by (injection A; lia).
  assert (I : cells (frame_image be32 g) = cells (frame_image be32 f)) by congruence. apply cells_inj in I.
  destruct (IH gs F' G' E2) as [Q1 Q2]. rewrite !images_cons, I, Q1. split; [reflexivity|].
  cbn [frames_size fold_right]. unfold frames_size in Q2. rewrite Q2, S. reflexivity.
Qed.

Lemma written_same maj mi fl n fs sound maj' mi' fl' n' fs' sound' :
  Forall (fun f => frame_ok f = true) fs ->
  Forall (fun f => frame_ok f = true) fs' ->
  frames_size fs <= n -> n < 2 ^ 28 -> frames_size fs' <= n' -> n' < 2 ^ 28 ->
  tag_bytes maj mi fl n fs ++ sound = tag_bytes maj' mi' fl' n' fs' ++ sound' <->
  (maj, mi, fl, n) = (maj', mi', fl', n') /\ map frame_of fs = map frame_of fs' /\ sound = sound'.
Proof.
  intros F F' L B L' B'.
  pose proof (frames_size_nonneg fs). pose proof (frames_size_nonneg fs'). split.
  - intros E.
    assert (S : forall ma m f k gs s, tag_bytes ma m f k gs ++ s
      = lit "ID3" ++ [ma; m; f] ++ synchsafe32 k ++ (images be32 gs ++ zeros (k - frames_size gs)) ++ s).
    { intros. unfold tag_bytes, header_image. now rewrite <- !app_assoc. }
    rewrite !S in E. apply app_inv_length in E; [|reflexivity]. destruct E as [_ E].
    apply app_inv_length in E; [|reflexivity]. destruct E as [V E].
    apply app_inv_length in E; [|reflexivity]. destruct E as [Q E]. injection V as -> -> ->.
    assert (N : n = n').
    { apply (f_equal synchsafe_value) in Q. clear - Q B B' L L' H H0.
      rewrite !synchsafe_value_synchsafe32 in Q; [exact Q|lia|lia]. }
    subst n'. apply app_inv_length in E.
    + destruct E as [E ->]. split; [reflexivity|]. split; [|reflexivity]. eapply images_inj; [exact F|exact F'|lia|lia|exact E].
    + pose proof (tag_bytes_zlen maj' mi' fl' n fs F L) as Z. pose proof (tag_bytes_zlen maj' mi' fl' n fs' F' L') as Z'.
      unfold tag_bytes, zlen in Z, Z'. rewrite app_length in Z, Z'. change (length (header_image _ _ _ _)) with 10%nat in Z, Z'. lia.
  - intros (Q & E & ->). injection Q as -> -> -> ->. destruct (images_same _ _ F F' E) as [I S].
    unfold tag_bytes. now rewrite I, S.
Qed.

Lemma write_same c t fs maj mi fl n ext c' t' fs' maj' mi' fl' n' ext' :
  announces_extended c = false -> announces_extended c' = false ->
  tag_has t (map frame_of fs) -> tag_has t' (map frame_of fs') ->
  Forall (fun f => frame_ok f = true) fs ->
  Forall (fun f => frame_ok f = true) fs' ->
  t_header t = mkTH (lit "ID3") maj mi fl n ext -> t_header t' = mkTH (lit "ID3") maj' mi' fl' n' ext' ->
  frames_size fs <= n -> n < 2 ^ 28 -> frames_size fs' <= n' -> n' < 2 ^ 28 ->
  2048 - 2 ^ 31 < t_padding t < 2 ^ 31 -> 2048 - 2 ^ 31 < t_padding t' < 2 ^ 31 ->
  exists w w' u u', ID3v2_write_tag (Some c) (Some t) = Ok (Some w, u) /\ ID3v2_write_tag (Some c') (Some t') = Ok (Some w', u')
    /\ (w = w' <-> (maj, mi, fl, n) = (maj', mi', fl', n') /\ map frame_of fs = map frame_of fs' /\ audio c = audio c').
Proof.
  intros X X' T T' F F' H H' L B L' B' P P'.
  do 4 eexists. split; [eapply write_file; eassumption|]. split; [eapply write_file; eassumption|]. now apply written_same.
Qed.
