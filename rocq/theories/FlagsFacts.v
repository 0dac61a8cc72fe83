(** Lemmas for C83: flags of the tag header, footers. *)
From Verif Require Import File Calls Spec SpecEdit SpecFile SpecRead SpecRewrite SpecSession SpecFlags UtilsFacts HistFacts FrameFacts ParseFacts FileFacts ReadFacts RewriteFacts CutFacts TestMainFacts.
From Coq Require Import Lia ZifyBool ZifyNat.
Ltac Zify.zify_post_hook ::= Z.div_mod_to_equations.

(** ** Flags and footers *)

Lemma reflag content flags : has_extended_header flags = has_extended_header (flags_of content) ->
  forall r, file_read content r -> file_read (with_flags flags content) (reflagged flags r).
Proof.
  intros X r (A & R).
  destruct (Nat.le_gt_cases 10 (length content)) as [L|L].
  2:{ assert (S : forall c : list byte, (length c < 10)%nat -> announces_extended c = false).
      { intros c Lc. do 10 (destruct c as [|? c]; [reflexivity|]). cbn [length] in Lc. lia. }
      assert (W : (length (with_flags flags content) < 10)%nat).
      { do 6 (destruct content as [|? content]; [exact L|]). exact L. }
      rewrite tag_length_short in R by exact L. subst r. split; [now apply S|]. now rewrite tag_length_short. }
  destruct content as [|a [|b [|c [|major [|minor [|fl [|s3 [|s2 [|s1 [|s0 rest]]]]]]]]]]; try (exfalso; cbn [length] in L; lia).
  cbn [flags_of nth] in X. cbn [with_flags].
  assert (T : tag_length (a :: b :: c :: major :: minor :: flags :: s3 :: s2 :: s1 :: s0 :: rest)
              = tag_length (a :: b :: c :: major :: minor :: fl :: s3 :: s2 :: s1 :: s0 :: rest)) by reflexivity.
  split.
  { cbn [announces_extended] in A |- *. now rewrite X. }
  rewrite T. destruct (tag_length _) as [n|] eqn:Tn; [|now subst r].
  pose proof (tag_length_range _ _ Tn) as Rn.
  assert (F : forall f, firstn (Z.to_nat n) (a :: b :: c :: major :: minor :: f :: s3 :: s2 :: s1 :: s0 :: rest)
                        = [a; b; c; major; minor; f; s3; s2; s1; s0] ++ firstn (Z.to_nat (n - 10)) rest).
  { intros f. replace (Z.to_nat n) with (10 + Z.to_nat (n - 10))%nat by lia. reflexivity. }
  assert (Lk : forall f : byte, length (a :: b :: c :: major :: minor :: f :: s3 :: s2 :: s1 :: s0 :: rest) = (10 + length rest)%nat) by reflexivity.
  rewrite F in *. rewrite Lk in *. set (k := (Z.to_nat n - (10 + length rest))%nat) in *. set (body := firstn (Z.to_nat (n - 10)) rest) in *.
  clearbody k body.
  inversion R as [N|tail E V U|mj mi f size bd fs fin E Ls V Xf FR|mj mi f size ext bd fs fin E Ls Le V Xf e start FR]; subst r; cbn [reflagged].
  - exfalso. cbn [tag_length] in Tn. destruct (is_id3 a b c) eqn:I; [|discriminate Tn]. unfold is_id3 in I.
    apply andb_prop in I. destruct I as (I & I3). apply andb_prop in I. destruct I as (I1 & I2).
    apply Byte.byte_dec_bl in I1. apply Byte.byte_dec_bl in I2. apply Byte.byte_dec_bl in I3. subst a b c.
    apply (N [] ([major; minor; fl; s3; s2; s1; s0] ++ body)). rewrite app_nil_r. reflexivity.
  - exfalso. injection E as -> -> -> <-. cbn [tag_length] in Tn. cbn [app] in V. rewrite V in Tn. rewrite andb_false_r in Tn. discriminate Tn.
  - destruct size as [|t3 [|t2 [|t1 [|t0 [|? ?]]]]]; try discriminate Ls. injection E as -> -> -> -> -> -> -> -> -> -> Eb. subst bd.
    change (zlen ([_; _; _; mj; mi; f; t3; t2; t1; t0] ++ body)) with (zlen (lit "ID3" ++ [mj; mi; flags] ++ [t3; t2; t1; t0] ++ body)).
    cbn [th_major th_minor th_tag_size th_ext_size].
    apply ReadPlain with (body := body); auto. congruence.
  - exfalso. destruct size as [|t3 [|t2 [|t1 [|t0 [|? ?]]]]]; try discriminate Ls. injection E as -> -> -> -> -> -> -> -> -> -> Eb.
    cbn [announces_extended] in A. change (is_id3 "I" "D" "3") with true in A. rewrite V, Xf in A. discriminate A.
Qed.

Lemma with_flags_twice a b content : with_flags a (with_flags b content) = with_flags a content.
Proof. do 6 (destruct content as [|? content]; [reflexivity|]). reflexivity. Qed.

Lemma with_flags_same content : with_flags (flags_of content) content = content.
Proof. do 6 (destruct content as [|? content]; [reflexivity|]). reflexivity. Qed.

Lemma flags_of_with flags content : (6 <= length content)%nat -> flags_of (with_flags flags content) = flags.
Proof. intros L. do 6 (destruct content as [|? content]; [cbn [length] in L; lia|]). reflexivity. Qed.

Lemma with_flags_short flags content : (length content < 6)%nat -> with_flags flags content = content.
Proof. intros L. do 6 (destruct content as [|? content]; [reflexivity|]). cbn [length] in L. lia. Qed.

Lemma unreflag content flags : has_extended_header flags = has_extended_header (flags_of content) ->
  forall r, file_read (with_flags flags content) r -> exists r', file_read content r'.
Proof.
  intros X r R. destruct (Nat.le_gt_cases 6 (length content)) as [L|L].
  - exists (reflagged (flags_of content) r).
    assert (E : with_flags (flags_of content) (with_flags flags content) = content) by (rewrite with_flags_twice; apply with_flags_same).
    rewrite <- E at 1. apply reflag; [rewrite flags_of_with by exact L; now rewrite X|exact R].
  - exists r. now rewrite (with_flags_short flags) in R.
Qed.

Lemma flags_ignored content flags : has_extended_header flags = has_extended_header (flags_of content) ->
  (forall t, ID3v2_read_tag (Some content) = Ok (Some t) ->
     exists t' gs, ID3v2_read_tag (Some (with_flags flags content)) = Ok (Some t')
       /\ tag_has t gs /\ tag_has t' gs /\ t_padding t' = t_padding t
       /\ th_flags (t_header t) = flags_of content
       /\ t_header t' = mkTH (lit "ID3") (th_major (t_header t)) (th_minor (t_header t)) flags
                             (th_tag_size (t_header t)) (th_ext_size (t_header t)))
  /\ (ID3v2_read_tag (Some content) = Ok None -> ID3v2_read_tag (Some (with_flags flags content)) = Ok None)
  /\ (forall u, ID3v2_read_tag (Some content) = Ub u -> exists u', ID3v2_read_tag (Some (with_flags flags content)) = Ub u').
Proof.
  intros X. destruct (read_file_exactly content) as [(r & t & R & E & S)|(N & u & E)].
  - pose proof (reflag _ _ X _ R) as R'.
    destruct (read_file_exactly (with_flags flags content)) as [(r' & t' & R'' & E' & S')|(N & _)]; [|now apply N in R'].
    pose proof (file_read_once _ _ _ R' R'') as <-. rewrite E, E'.
    split; [|split; [|discriminate]].
    + intros t0 Et. injection Et as ->. destruct r as [((h & gs) & pad)|]; [|destruct S].
      destruct S as (Sh & Sg & Sp). cbn [reflagged] in S'. destruct t' as [t'|]; [|destruct S'].
      destruct S' as (Sh' & Sg' & Sp'). exists t', gs. split; [reflexivity|]. split; [exact Sg|]. split; [exact Sg'|].
      split; [congruence|].
      destruct (file_seen _ _ _ _ R) as (major & minor & fl & n & Eh & _ & _ & _ & _).
      split.
      * rewrite Sh. destruct R as (A & R). destruct (tag_length content) as [m|] eqn:T; [|discriminate R].
        pose proof (tag_length_range _ _ T) as Rm.
        assert (F : forall l unknown, tag_read l unknown (Some (h, gs, pad)) -> th_flags h = flags_of l).
        { intros l k Rd. inversion Rd; subst; reflexivity. }
        rewrite (F _ _ R). destruct (Nat.le_gt_cases 10 (length content)) as [L|L]; [|rewrite tag_length_short in T by exact L; discriminate T].
        unfold flags_of. replace (Z.to_nat m) with (10 + Z.to_nat (m - 10))%nat by lia.
        do 10 (destruct content as [|? content]; [cbn [length] in L; lia|]). reflexivity.
      * rewrite Sh', Sh, Eh. reflexivity.
    + intros Et. injection Et as ->. destruct r as [((h & gs) & pad)|]; [destruct S|].
      cbn [reflagged] in S'. destruct t'; [destruct S'|reflexivity].
  - rewrite E. split; [discriminate|]. split; [discriminate|]. intros u0 _.
    destruct (read_file_exactly (with_flags flags content)) as [(r' & t' & R'' & E' & S')|(_ & u' & E')]; [|eauto].
    apply unreflag in R''; [|exact X]. destruct R'' as (r & R). now apply N in R.
Qed.

Lemma cons_inv {A} (x y : A) l m : x :: l = y :: m -> x = y /\ l = m.
Proof. intros E. split; congruence. Qed.

Lemma frames_of_inj fs : forall fs', oks fs -> oks fs' -> map frame_of fs = map frame_of fs' -> fs = fs'.
Proof.
  induction fs as [|f fs IH]; intros [|f' fs'] K K' E; try discriminate E; [reflexivity|].
  cbn [map] in E. apply cons_inv in E. destruct E as (E1 & E2). inversion K; inversion K'; subst. f_equal; [|now apply IH].
  now apply frame_of_inj.
Qed.

Lemma audio_with_flags flags content n : tag_length content = Some n -> audio (with_flags flags content) = audio content.
Proof.
  intros T. pose proof (tag_length_range _ _ T) as R.
  destruct (Nat.le_gt_cases 10 (length content)) as [L|L]; [|rewrite tag_length_short in T by exact L; discriminate T].
  destruct content as [|a [|b [|c [|major [|minor [|fl [|s3 [|s2 [|s1 [|s0 rest]]]]]]]]]]; try (exfalso; cbn [length] in L; lia).
  cbn [with_flags]. unfold audio.
  change (tag_length (a :: b :: c :: major :: minor :: flags :: s3 :: s2 :: s1 :: s0 :: rest))
    with (tag_length (a :: b :: c :: major :: minor :: fl :: s3 :: s2 :: s1 :: s0 :: rest)).
  rewrite T. replace (Z.to_nat n) with (10 + Z.to_nat (n - 10))%nat by lia. reflexivity.
Qed.

Lemma flags_kept content flags h gs pad cs es out :
  has_extended_header flags = false ->
  file_read content (Some (h, gs, pad)) -> Forall sane gs ->
  Forall2 means cs es -> all_allowed es gs = true ->
  - 2 ^ 31 <= bytes_needed (apply_edits es gs) + (th_tag_size h - bytes_needed gs) + room_deltas es gs < 2 ^ 28 ->
  run_session cs (Some content) = Ok (Some out) ->
  run_session cs (Some (with_flags flags content)) = Ok (Some (with_flags flags out)).
Proof.
  intros Xf R Sa M A B E.
  destruct (any_edit _ _ _ _ _ _ R Sa M A B) as (t & t' & Et & Ec & _ & W).
  destruct (file_seen _ _ _ _ R) as (major & minor & fl & n & -> & _ & X & _ & T & _).
  assert (Xe : has_extended_header flags = has_extended_header (flags_of content)).
  { rewrite Xf. symmetry. destruct R as (_ & R). rewrite T in R.
    pose proof (tag_length_range _ _ T) as Rm.
    assert (F : forall l unknown h gs pad, tag_read l unknown (Some (h, gs, pad)) -> th_flags h = flags_of l).
    { intros l k h' gs' pad' Rd. inversion Rd; subst; reflexivity. }
    apply F in R. cbn [th_flags] in R. destruct (Nat.le_gt_cases 10 (length content)) as [L|L]; [|rewrite tag_length_short in T by exact L; discriminate T].
    rewrite <- X, R. unfold flags_of. replace (Z.to_nat (10 + n)) with (10 + Z.to_nat n)%nat by lia.
    do 10 (destruct content as [|? content]; [exfalso; cbn [length] in L; lia|]). reflexivity. }
  pose proof (reflag _ _ Xe _ R) as R'. cbn [reflagged th_identifier th_major th_minor th_tag_size th_ext_size] in R'.
  destruct (any_edit _ _ _ _ _ _ R' Sa M A B) as (u & u' & Eu & Euc & _ & W').
  unfold run_session in *. rewrite Et in E. rewrite Eu. cbn [bind] in *. rewrite Ec in E. rewrite Euc. cbn [bind] in *.
  set (n' := bytes_needed _ + _ + _) in *. cbn [th_major th_minor th_flags th_tag_size] in W, W'. clearbody n'.
  destruct W as [(fs & G & K & W)|(_ & v & W)]; [|rewrite W in E; discriminate E].
  destruct W' as [(fs' & G' & K' & W')|(C & _)].
  - assert (fs' = fs) by (apply frames_of_inj; congruence). subst fs'.
    destruct (frames_size fs <=? n') eqn:Le.
    + rewrite W in E. rewrite W'. cbn [bind] in *. injection E as <-. rewrite (audio_with_flags _ _ _ T). reflexivity.
    + destruct W as (v & W). rewrite W in E. discriminate E.
  - exfalso. rewrite G in C. exact (whole_not_cut _ C).
Qed.

(** ** Footers *)

Lemma footer_stays content minor flags n sound : announces_extended content = false ->
  audio content = footer minor flags n ++ sound ->
  ID3v2_delete_tag (Some content) = Ok (Some (footer minor flags n ++ sound))
  /\ ID3v2_read_tag (Some (footer minor flags n ++ sound)) = Ok None
  /\ ID3v2_delete_tag (Some (footer minor flags n ++ sound)) = Ok (Some (footer minor flags n ++ sound)).
Proof.
  intros X A. split; [rewrite <- A; now apply delete_file|].
  assert (Y : announces_extended (footer minor flags n ++ sound) = false) by reflexivity.
  split.
  - destruct (delete_then_read content X) as (l & D & R); [rewrite A; reflexivity|].
    rewrite (delete_file _ X) in D. injection D as <-. now rewrite <- A.
  - rewrite (delete_file _ Y). reflexivity.
Qed.

Lemma footer_written content minor flags n pad fs sound cs es :
  file_read content (Some (mkTH (lit "ID3") x04 minor flags n 0, map frame_of fs, pad)) ->
  Forall (fun f => frame_ok f = true) fs -> n < 2 ^ 28 ->
  audio content = footer minor flags n ++ sound ->
  Forall2 means cs es -> all_proper es fs = true ->
  let fs' := edited es fs in
  let room := room_left es fs (n - frames_size fs) in
  let n' := frames_size fs' + room in
  0 <= room -> n' < 2 ^ 28 ->
  run_session cs (Some content) = Ok (Some (tag_bytes x04 minor flags n' fs' ++ footer minor flags n ++ sound)).
Proof.
  intros R K B Ea M A fs' room n' Rm Bn. pose proof (frames_size_nonneg fs') as Nf.
  destruct (any_session content x04 minor flags n pad fs cs es R K B M A ltac:(fold fs' room n'; unfold n' in *; lia)) as (t & t' & Et & Ec & W).
  fold fs' room n' in W. rewrite (proj2 (Z.leb_le 0 room)) in W by exact Rm.
  unfold run_session. rewrite Et. cbn [bind]. rewrite Ec. cbn [bind]. rewrite W. cbn [bind]. now rewrite Ea.
Qed.
