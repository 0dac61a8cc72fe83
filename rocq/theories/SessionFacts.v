(** A tagged file is read, edited and written. *)
From Verif Require Import BaseFacts UtilsFacts StreamFacts FrameFacts HeaderFacts TagFacts.
From Verif Require Import File Calls Spec SpecEdit SpecFile SpecSession ListFacts EditFacts WriteFacts HistFacts ClaimFacts RoundFacts FileFacts.
From Coq Require Import Lia ZifyBool ZifyNat.

(** ** The two descriptions of edits *)

Lemma named_titled id f : named id (frame_of f) = titled id f.
Proof. unfold named, titled. now rewrite (id_bytes_cells _ (frame_id f)) by reflexivity. Qed.

Lemma put_map id f fs : put (named id) (frame_of f) (map frame_of fs) = map frame_of (put (titled id) f fs).
Proof. induction fs as [|g fs IH]; [reflexivity|]. cbn [map put]. rewrite named_titled. destruct (titled id g); [reflexivity|]. cbn [map]. now rewrite IH. Qed.

Lemma remove_first_map id fs : remove_first (named id) (map frame_of fs) = map frame_of (remove_first (titled id) fs).
Proof. induction fs as [|g fs IH]; [reflexivity|]. cbn [map remove_first]. rewrite named_titled. destruct (titled id g); [reflexivity|]. cbn [map]. now rewrite IH. Qed.

Lemma remove_nth_map id fs : forall i, remove_nth (named id) i (map frame_of fs) = map frame_of (remove_nth (titled id) i fs).
Proof.
  induction fs as [|g fs IH]; intros i; [reflexivity|]. cbn [map remove_nth]. rewrite named_titled.
  destruct (titled id g); [destruct (i =? 0); [reflexivity|]|]; cbn [map]; now rewrite IH.
Qed.

Lemma edited_map e fs : apply_edit e (map frame_of fs) = map frame_of (edited_once e fs).
Proof.
  destruct e; cbn [apply_edit edited_once].
  - apply put_map.
  - rewrite map_app. reflexivity.
  - apply remove_first_map.
  - apply remove_nth_map.
Qed.

Lemma edits_map es : forall fs, apply_edits es (map frame_of fs) = map frame_of (edited es fs).
Proof. induction es as [|e es IH]; intros fs; [reflexivity|]. cbn [apply_edits edited]. rewrite edited_map. apply IH. Qed.

Lemma first_pos_frames id fs : first_pos (named id) (map frame_of fs) = first_pos (titled id) fs.
Proof. induction fs as [|g fs IH]; [reflexivity|]. cbn [map first_pos]. rewrite named_titled, IH. reflexivity. Qed.

Lemma nth_pos_frames id fs : forall i, nth_pos (named id) i (map frame_of fs) = nth_pos (titled id) i fs.
Proof. induction fs as [|g fs IH]; intros i; [reflexivity|]. cbn [map nth_pos]. rewrite named_titled, !IH. reflexivity. Qed.

Lemma victim_frames e fs : victim_pos e (map frame_of fs) = victim_of e fs.
Proof. destruct e; cbn [victim_pos victim_of]; auto using first_pos_frames, nth_pos_frames. Qed.

Lemma proper_allowed e fs : edit_ok e && allowed e (map frame_of fs) = proper e fs.
Proof.
  unfold proper, allowed, leaves_no_hole. destruct (edit_ok e); [cbn [andb]|reflexivity]. rewrite map_length.
  destruct e; try reflexivity; rewrite victim_frames; destruct (victim_of _ fs); reflexivity.
Qed.

Lemma all_proper_allowed es : forall fs, all_allowed es (map frame_of fs) = all_proper es fs.
Proof.
  induction es as [|e es IH]; intros fs; [reflexivity|]. cbn [all_allowed all_proper].
  rewrite proper_allowed, edited_map, IH. reflexivity.
Qed.

Lemma find_frames id fs : find (named id) (map frame_of fs) = option_map frame_of (find (titled id) fs).
Proof. induction fs as [|g fs IH]; [reflexivity|]. cbn [map find]. rewrite named_titled. destruct (titled id g); auto. Qed.

Lemma find_existsb {A} (p : A -> bool) l : match find p l with Some _ => true | None => false end = existsb p l.
Proof. induction l as [|a l IH]; [reflexivity|]. cbn [find existsb]. destruct (p a); auto. Qed.

Lemma room_change_delta e fs : room_delta e (map frame_of fs) = room_change e fs.
Proof.
  destruct e as [f|f|id|id i]; cbn [room_delta room_change]; auto.
  - rewrite find_frames. rewrite <- find_existsb. destruct (find _ fs); reflexivity.
  - unfold victim. rewrite victim_frames. destruct (victim_of _ fs) as [n|]; [|reflexivity].
    rewrite nth_error_map. destruct (nth_error fs n); reflexivity.
Qed.

Lemma room_left_deltas es : forall fs room, room_left es fs room = room + room_deltas es (map frame_of fs).
Proof.
  induction es as [|e es IH]; intros fs room; cbn [room_left room_deltas]; [lia|].
  rewrite IH, <- edited_map, room_change_delta. lia.
Qed.

Lemma Forall_sub {A} (P : A -> Prop) l l' : Forall P l -> (forall x, In x l' -> In x l) -> Forall P l'.
Proof. rewrite !Forall_forall. auto. Qed.

Lemma edited_oks es : forall fs, oks fs -> all_proper es fs = true -> oks (edited es fs).
Proof.
  induction es as [|e es IH]; intros fs K P; [exact K|]. cbn [edited all_proper] in *.
  apply andb_true_iff in P. destruct P as (P & Ps). apply IH; [|exact Ps].
  unfold proper in P. apply andb_true_iff in P. destruct P as (Ke & _). unfold oks in *.
  destruct e as [f|f|id|id i]; cbn [edited_once edit_ok] in *.
  - now apply Forall_put.
  - apply Forall_app. auto.
  - eapply Forall_sub; [exact K|]. clear. induction fs as [|g fs IH]; [auto|]. cbn [remove_first]. intros x.
    destruct (titled id g); [now right|]. intros [->|H]; [now left|right; auto].
  - eapply Forall_sub; [exact K|]. clear. revert i. induction fs as [|g fs IH]; intros i; [auto|]. cbn [remove_nth]. intros x.
    destruct (titled id g); [destruct (i =? 0); [now right|]|]; (intros [->|H]; [now left|right; eauto]).
Qed.

(** ** The file *)

Lemma tagged_length major minor flags fs pad sound :
  known_version major = true -> has_extended_header flags = false -> 0 <= pad -> frames_size fs + pad < 2 ^ 28 ->
  let content := tagged_file major minor flags fs pad sound in
  announces_extended content = false /\ tag_length content = Some (10 + (frames_size fs + pad)).
Proof.
  intros V X P B content. pose proof (frames_size_nonneg fs). set (n := frames_size fs + pad) in *.
  assert (S : content
    = x49 :: x44 :: x33 :: major :: minor :: flags :: zb (n / 2 ^ 21 mod 128) :: zb (n / 2 ^ 14 mod 128)
      :: zb (n / 2 ^ 7 mod 128) :: zb (n mod 128) :: images (size_field_of major) fs ++ zeros pad ++ sound) by reflexivity.
  clearbody content. rewrite S. split.
  - cbn [announces_extended]. rewrite X. apply andb_false_r.
  - cbn [tag_length]. change (is_id3 x49 x44 x33) with true. rewrite V. cbn [andb]. do 2 f_equal.
    apply (synchsafe_value_synchsafe32 n). lia.
Qed.

Lemma tagged_zlen major minor flags fs pad sound : oks fs -> 0 <= pad ->
  zlen (tagged_file major minor flags fs pad sound) = 10 + (frames_size fs + pad) + zlen sound.
Proof.
  intros K P. unfold tagged_file, header_image, zeros. rewrite !zlen_app, images_zlen, zlen_repeat;
    [|exact K|intros; unfold size_field_of; destruct (Byte.eqb _ _); reflexivity].
  change (zlen (lit "ID3")) with 3. change (zlen [major; minor; flags]) with 3.
  change (zlen (synchsafe32 (frames_size fs + pad))) with 4. lia.
Qed.

Lemma tagged_read major minor flags fs pad sound :
  known_version major = true -> has_extended_header flags = false ->
  Forall (fun f => frame_ok f = true /\ readable f = true) fs ->
  0 <= pad -> frames_size fs + pad < 2 ^ 28 ->
  exists t, ID3v2_read_tag (Some (tagged_file major minor flags fs pad sound)) = Ok (Some t)
    /\ t_header t = mkTH (lit "ID3") major minor flags (frames_size fs + pad) 0
    /\ tag_has t (map frame_of fs) /\ t_padding t = pad.
Proof.
  intros V X K P B. pose proof (frames_size_nonneg fs).
  assert (Ko : oks fs) by (eapply Forall_impl; [|exact K]; cbn beta; intros ? (? & _); assumption).
  destruct (tagged_length major minor flags fs pad sound V X P B) as (Xc & Lc). cbv zeta in *.
  pose proof (tagged_zlen major minor flags fs pad sound Ko P) as Zc.
  set (content := tagged_file major minor flags fs pad sound) in *.
  destruct (file_header content Xc) as (h & E & H'). destruct h as [h|]; [|congruence].
  destruct H' as (H0 & _). assert (H1 : 10 + (frames_size fs + pad) = declared_length h) by congruence. clear H0.
  pose proof (zlen_nonneg sound).
  rewrite (read_file content h Xc E) by lia. rewrite <- H1.
  pose proof (tagged_zlen major minor flags fs pad [] Ko P) as Z0. change (zlen (@nil byte)) with 0 in Z0.
  assert (F : firstn (Z.to_nat (10 + (frames_size fs + pad))) content = tagged_file major minor flags fs pad []).
  { replace content with (tagged_file major minor flags fs pad [] ++ sound)
      by (unfold content, tagged_file; rewrite <- !app_assoc; reflexivity).
    apply firstn_app_exact. unfold zlen in Z0. lia. }
  rewrite F.
  destruct (read_tag_ok major minor flags fs pad [] (Some (cells (tagged_file major minor flags fs pad []))))
    as (t & Et & Ht & Tt & Pt); auto.
  - fold (tagged_file major minor flags fs pad []). change (2 ^ 31) with 2147483648. change (2 ^ 28) with 268435456 in B. lia.
  - exists []. now rewrite app_nil_r.
  - fold (tagged_file major minor flags fs pad []) in Et. rewrite Z0, Z.add_0_r in Et.
    exists t. split; [exact Et|]. split; [exact Ht|]. split; [exact Tt|]. rewrite Pt. change (zlen (@nil byte)) with 0. lia.
Qed.

Lemma write_fails content t u :
  announces_extended content = false -> 2048 - 2 ^ 31 < t_padding t < 2 ^ 31 ->
  Tag_to_char_stream t = Ub u -> ID3v2_write_tag (Some content) (Some t) = Ub u.
Proof.
  intros X P W. destruct (file_header content X) as (h & E & H).
  unfold ID3v2_write_tag. cbn [ID3v2_write_tag_states]. rewrite E. go.
  pose proof (padding_any (t_padding t) P) as Q. unfold bind in Q at 1.
  destruct (isub ID3v2_TAG_DEFAULT_PADDING_LENGTH (t_padding t)) eqn:I; try discriminate Q. go. rewrite Q. go.
  change (Tag_to_char_stream (mkTag (t_header t) (t_frames t) _ (t_fresh t))) with (Tag_to_char_stream t).
  now rewrite W.
Qed.

(** ** The session *)

(** The file holds this tag, and this is what follows it. *)
Definition holds (content : list byte) (major minor flags : byte) (fs : list fspec) (pad : Z) (sound : list byte) : Prop :=
  announces_extended content = false /\ audio content = sound
  /\ exists t, ID3v2_read_tag (Some content) = Ok (Some t)
       /\ t_header t = mkTH (lit "ID3") major minor flags (frames_size fs + pad) 0
       /\ tag_has t (map frame_of fs) /\ t_padding t = pad.

Lemma tagged_holds major minor flags fs pad sound :
  known_version major = true -> has_extended_header flags = false ->
  Forall (fun f => frame_ok f = true /\ readable f = true) fs ->
  0 <= pad -> frames_size fs + pad < 2 ^ 28 ->
  holds (tagged_file major minor flags fs pad sound) major minor flags fs pad sound.
Proof.
  intros V X K P B. pose proof (frames_size_nonneg fs).
  assert (Ko : oks fs) by (eapply Forall_impl; [|exact K]; cbn beta; intros ? (? & _); assumption).
  destruct (tagged_length major minor flags fs pad sound V X P B) as (Xc & Lc). cbv zeta in *.
  split; [exact Xc|]. split; [|now apply tagged_read].
  unfold audio. rewrite Lc. replace (tagged_file _ _ _ _ _ sound) with (tagged_file major minor flags fs pad [] ++ sound)
    by (unfold tagged_file; rewrite <- !app_assoc; reflexivity).
  apply skipn_app_exact. pose proof (tagged_zlen major minor flags fs pad [] Ko P) as Z0.
  change (zlen (@nil byte)) with 0 in Z0. unfold zlen in Z0. lia.
Qed.

Lemma written_holds major minor flags fs pad sound :
  known_version major = true -> has_extended_header flags = false ->
  Forall (fun f => survives major f = true) fs -> 0 <= pad -> frames_size fs + pad < 2 ^ 28 ->
  holds (tag_bytes major minor flags (frames_size fs + pad) fs ++ sound) major minor flags fs pad sound.
Proof.
  intros V X Sv P B. destruct (survives_back major fs Sv) as (K & _); [lia|].
  destruct (written_file major minor flags (frames_size fs + pad) fs sound V X K) as (Xc & _ & Au); try lia. cbv zeta in *.
  destruct (file_read_back major minor flags (frames_size fs + pad) fs sound V X Sv) as (t & E & H & T & Pt); try lia.
  split; [exact Xc|]. split; [exact Au|]. exists t. repeat split; auto. lia.
Qed.

Lemma session_gen content major minor flags fs pad sound cs es :
  holds content major minor flags fs pad sound -> oks fs ->
  0 <= pad -> frames_size fs + pad < 2 ^ 28 ->
  Forall2 means cs es -> all_proper es fs = true ->
  let fs' := edited es fs in
  let room := room_left es fs pad in
  let n := frames_size fs' + room in
  - 2 ^ 31 <= n < 2 ^ 28 ->
  exists t t', ID3v2_read_tag (Some content) = Ok (Some t) /\ run_calls t cs = Ok t'
    /\ if 0 <=? room
       then ID3v2_write_tag (Some content) (Some t')
            = Ok (Some (tag_bytes major minor flags n fs' ++ sound), Some (padded t'))
       else exists u, ID3v2_write_tag (Some content) (Some t') = Ub u.
Proof.
  intros (Xc & Au & t & Et & Ht & Tt & Pt) Ko P B M A fs' room n N.
  pose proof (frames_size_nonneg fs). pose proof (frames_size_nonneg fs') as Nf.
  assert (Ko' : oks fs') by now apply edited_oks.
  assert (Sa : Forall sane (map frame_of fs)) by (apply well_formed_sane, fspecs_well_formed; auto).
  assert (Rt : 0 <= th_tag_size (t_header t) < 2 ^ 32) by (rewrite Ht; cbn [th_tag_size]; change (2 ^ 32) with 4294967296; change (2 ^ 28) with 268435456 in B; lia).
  rewrite <- all_proper_allowed in A.
  destruct (edit_steps cs t (map frame_of fs) es Tt Sa Rt M A) as (t' & Er & T' & _ & H' & P').
  rewrite edits_map in T', H'. fold fs' in T', H'. rewrite !bytes_needed_frames in H'.
  exists t, t'. split; [exact Et|]. split; [exact Er|].
  assert (Hn : t_header t' = mkTH (lit "ID3") major minor flags (n mod 2 ^ 32) 0).
  { rewrite H', Ht. unfold sized. cbn [th_identifier th_major th_minor th_flags th_ext_size th_tag_size]. f_equal. f_equal.
    unfold n, room. rewrite room_left_deltas. lia. }
  assert (Pp : 2048 - 2 ^ 31 < t_padding t' < 2 ^ 31) by (rewrite P', Pt; change (2 ^ 31) with 2147483648; change (2 ^ 28) with 268435456 in B; lia).
  change (2 ^ 31) with 2147483648 in N. change (2 ^ 28) with 268435456 in N.
  destruct (0 <=? room) eqn:R.
  - rewrite Z.mod_small in Hn by (change (2 ^ 32) with 4294967296; lia).
    rewrite <- Au. apply (write_file content t' fs' major minor flags n 0); auto; lia.
  - assert (W : exists u, Tag_to_char_stream t' = Ub u).
    { pose proof (tag_write_iff t' fs' major minor flags (n mod 2 ^ 32) 0 T' Ko' Hn) as W.
      assert (Q : 0 <= n mod 2 ^ 32 < 2 ^ 32) by (apply Z.mod_pos_bound; reflexivity). specialize (W Q).
      replace ((frames_size fs' <=? n mod 2 ^ 32) && (n mod 2 ^ 32 + 10 <? 2 ^ 31)) with false in W; [exact W|].
      symmetry. change (2 ^ 32) with 4294967296. change (2 ^ 31) with 2147483648.
      destruct (Z.leb_spec 0 n).
      - rewrite Z.mod_small by lia. lia.
      - replace (n mod 4294967296) with (n + 4294967296); [lia|].
        apply Z.mod_unique with (-1); lia. }
    destruct W as (u & W). exists u. now apply write_fails.
Qed.

Lemma session major minor flags fs pad sound cs es :
  known_version major = true -> has_extended_header flags = false ->
  Forall (fun f => frame_ok f = true /\ readable f = true) fs ->
  0 <= pad -> frames_size fs + pad < 2 ^ 28 ->
  Forall2 means cs es -> all_proper es fs = true ->
  let content := tagged_file major minor flags fs pad sound in
  let fs' := edited es fs in
  let room := room_left es fs pad in
  let n := frames_size fs' + room in
  - 2 ^ 31 <= n < 2 ^ 28 ->
  exists t t', ID3v2_read_tag (Some content) = Ok (Some t) /\ run_calls t cs = Ok t'
    /\ if 0 <=? room
       then ID3v2_write_tag (Some content) (Some t')
            = Ok (Some (tag_bytes major minor flags n fs' ++ sound), Some (padded t'))
       else exists u, ID3v2_write_tag (Some content) (Some t') = Ub u.
Proof.
  intros V X K P B M A content fs' room n N.
  assert (Ko : oks fs) by (eapply Forall_impl; [|exact K]; cbn beta; intros ? (? & _); assumption).
  apply (session_gen content major minor flags fs pad sound cs es); auto. now apply tagged_holds.
Qed.

(** ** Any number of sessions *)

Lemma sessions_ok maj mi fl sound css : forall fs pad ess fs' pad',
  known_version maj = true -> has_extended_header fl = false ->
  Forall (fun f => survives maj f = true) fs -> 0 <= pad -> frames_size fs + pad < 2 ^ 28 ->
  Forall2 (Forall2 means) css ess -> after_sessions maj ess fs pad = Some (fs', pad') ->
  run_sessions css (Some (tag_bytes maj mi fl (frames_size fs + pad) fs ++ sound))
  = Ok (Some (tag_bytes maj mi fl (frames_size fs' + pad') fs' ++ sound)).
Proof.
  induction css as [|cs css IH]; intros fs pad ess fs' pad' V X Sv P B F A; inversion F as [|? es ? ess' M F']; subst.
  - injection A as <- <-. reflexivity.
  - cbn [after_sessions] in A. destruct (_ && _ && _ && _) eqn:E in A; [|discriminate A].
    apply andb_true_iff in E. destruct E as (E & E4). apply andb_true_iff in E. destruct E as (E & E3).
    apply andb_true_iff in E. destruct E as (E1 & E2).
    destruct (survives_back maj fs Sv) as (K & _); [lia|].
    destruct (session_gen (tag_bytes maj mi fl (frames_size fs + pad) fs ++ sound) maj mi fl fs pad sound cs es)
      as (t & t' & R & C & W); auto.
    + now apply written_holds.
    + pose proof (frames_size_nonneg (edited es fs)). split; [|lia]. change (2 ^ 31) with 2147483648. lia.
    + rewrite E2 in W. cbn [run_sessions]. unfold run_session. rewrite R. cbn [bind]. rewrite C. cbn [bind]. rewrite W. cbn [bind].
      apply (IH _ _ ess'); auto; try lia.
      apply Forall_forall. rewrite forallb_forall in E4. exact E4.
Qed.
