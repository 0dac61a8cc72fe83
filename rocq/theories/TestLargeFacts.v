(** What the test programs see of frames that do not survive rewriting. *)
From Verif Require Import BaseFacts UtilsFacts StreamFacts FrameFacts HeaderFacts TagFacts ParseFacts.
From Verif Require Import Tests Spec SpecEdit SpecFile SpecRead SpecSession SpecTests.
From Verif Require Import ListFacts EditFacts HistFacts ClaimFacts FileFacts WriteFacts ReadFacts RoundFacts SessionFacts RewriteFacts StandardOpenFacts.
From Verif Require Import TestFacts TestRunFacts TestEditFacts.
From Coq Require Import Lia ZifyBool ZifyNat.

(** ** The frames that are seen in a written file *)

Lemma written_frames major minor flags n fs sound h gs pad :
  known_version major = true -> has_extended_header flags = false -> oks fs -> frames_size fs <= n -> n < 2 ^ 28 ->
  file_read (tag_bytes major minor flags n fs ++ sound) (Some (h, gs, pad)) ->
  exists fin, frames_read (bv major) n 0 10 (images be32 fs ++ zeros (n - frames_size fs)) gs fin
    /\ th_tag_size h = n /\ pad = 10 + n - fin.
Proof.
  intros V X K L B (_ & R). pose proof (frames_size_nonneg fs).
  destruct (written_file major minor flags n fs sound V X K L B) as (_ & Tl & _). cbv zeta in *.
  rewrite Tl in R. pose proof (tag_bytes_zlen major minor flags n fs K L) as Z.
  rewrite firstn_app_exact in R by (unfold zlen in Z; lia). rewrite app_length in R.
  replace (Z.to_nat (10 + n) - _)%nat with O in R by (unfold zlen in Z; lia).
  assert (Sv : synchsafe_value (synchsafe32 n) = n) by (apply synchsafe_value_synchsafe32; lia).
  remember (tag_bytes major minor flags n fs) as l eqn:El. clear Tl.
  inversion R as [| |mj mi' fl' sz body fs' fin Hl Ls Kv Hx Hf|mj mi' fl' sz ext body fs' fin Hl Ls Le Kv Hx]; subst h gs' pad || subst h pad; rewrite El in Hl; clear El R.
  - unfold tag_bytes, header_image in Hl. rewrite <- !app_assoc in Hl. apply app_inv_head in Hl.
    apply (app_same_length [major; minor; flags] _ [mj; mi'; fl'] _ eq_refl) in Hl as (Hh & Hl). injection Hh as <- <- <-.
    apply app_same_length in Hl as (<- & <-); [|now rewrite Ls].
    rewrite Sv in *. exists fin. split; [exact Hf|]. split; [reflexivity|]. change (Z.of_nat 0) with 0. lia.
  - unfold tag_bytes, header_image in Hl. rewrite <- !app_assoc in Hl. apply app_inv_head in Hl.
    apply (app_same_length [major; minor; flags] _ [mj; mi'; fl'] _ eq_refl) in Hl as (Hh & Hl). injection Hh as <- <- <-.
    congruence.
Qed.

Lemma frame_read_used ver used gap rest f : frame_read ver used gap rest (Some f) -> 8 <= zlen used.
Proof. inversion 1; subst; rewrite ?zlen_app; unfold zlen in *; lia. Qed.

Lemma frames_read_ends ver limit pos l gs fin : frames_read ver limit 0 pos l gs fin ->
  pos <= fin <= pos + zlen l /\ (gs <> [] -> pos + 8 <= fin).
Proof.
  intros R. remember 0%nat as k eqn:Ek. induction R as [k pos l L|k pos l L _|k pos used gap rest f fs fin L F _ IH]; subst.
  - pose proof (zlen_nonneg l). split; [lia|congruence].
  - pose proof (zlen_nonneg l). split; [lia|congruence].
  - apply frame_read_used in F. rewrite Nat.min_0_r in IH. destruct (IH eq_refl) as (I1 & _). rewrite zlen_app. lia.
Qed.

(** The first frame is seen, as a frame. *)
Lemma first_seen ver limit f rest gs fin : frame_ok f = true -> 10 < limit ->
  frames_read ver limit 0 10 (frame_image be32 f ++ rest) gs fin -> gs <> [].
Proof.
  intros K L R ->. inversion R as [? ? ? Q|? ? ? Q F|]; subst; [lia|].
  pose proof (frame_ok_common _ K) as (Hi & _). pose proof (frame_id_nonzero _ K) as Nz.
  remember (frame_image be32 f ++ rest) as l eqn:E. unfold frame_image in E. rewrite <- app_assoc in E.
  inversion F as [r El| | | | |]; subst. change (x00 :: x00 :: x00 :: x00 :: r) with ([x00; x00; x00; x00] ++ r) in *.
  match goal with Q : _ = frame_id f ++ _ |- _ => apply app_same_length in Q as (E & _); [|now rewrite Hi] end.
  rewrite <- E in Nz. discriminate Nz.
Qed.

(** Frames that survive are seen as they are, up to the first that does not. *)
Lemma seen_through major limit fs : forall pos l gs fin,
  Forall (fun f => survives major f = true) fs -> pos + frames_size fs < limit -> frames_size fs + zlen l < 2 ^ 31 ->
  frames_read (bv major) limit 0 pos (images be32 fs ++ l) gs fin ->
  exists more, gs = map frame_of fs ++ more /\ frames_read (bv major) limit 0 (pos + frames_size fs) l more fin.
Proof.
  induction fs as [|f fs IH]; intros pos l gs fin S L B R.
  - exists gs. change (frames_size []) with 0. rewrite Z.add_0_r. split; [reflexivity|exact R].
  - inversion S as [|? ? Sf S']; subst. rewrite frames_size_cons in *. pose proof (frames_size_nonneg fs). pose proof (body_size_nonneg f).
    rewrite images_cons, <- app_assoc in R. cbn [map app].
    destruct (survives_ok _ _ S') as (K' & _).
    assert (Kf : frame_ok f = true /\ readable f = true) by (unfold survives in Sf; apply andb_prop in Sf; destruct Sf as [Sf _]; now apply andb_prop in Sf).
    destruct Kf as (Kf & Rf).
    assert (G : frame_read (bv major) (frame_image be32 f) 0 (images be32 fs ++ l) (Some (frame_of f))).
    { apply frame_again; [exact Kf|destruct f; try exact I; cbn [readable] in Rf; cbn [shown]; now destruct pic|].
      pose proof (frame_ok_common _ Kf) as (_ & _ & Bf). unfold survives in Sf. apply andb_prop in Sf. destruct Sf as [_ Sf].
      apply orb_prop in Sf. destruct Sf as [Sf|Sf].
      - apply beq_true in Sf. subst major. left. apply declared_be32; [discriminate|lia].
      - apply andb_prop in Sf. destruct Sf as [Sm Sf]. apply beq_true in Sm. subst major. apply orb_prop in Sf. destruct Sf as [Sf|Sf]; [left|now right].
        apply declared_be32_v4; lia. }
    assert (Zf : zlen (frame_image be32 f) = 10 + body_size f) by (now apply frame_image_zlen).
    assert (Zi : zlen (images be32 fs) = frames_size fs) by (now apply images_zlen).
    assert (Bl : zlen (frame_image be32 f ++ images be32 fs ++ l) < 2 ^ 31) by (rewrite !zlen_app; lia).
    inversion R as [|? ? ? ? Hs|? ? used gap r g gs' ? Hp Hf Hr]; subst; [lia| |].
    + destruct (frame_read_det _ _ _ _ _ _ _ _ _ Bl G Hs eq_refl) as (_ & _ & Q). discriminate Q.
    + destruct (frame_read_det _ _ _ _ _ _ _ _ _ Bl G Hf ltac:(congruence)) as (Eu1 & Et & Eg). subst used r. injection Eg as <-.
      cbn [Nat.sub] in Hr. rewrite Nat.min_0_r in Hr. change (Z.of_nat 0) with 0 in Hr. rewrite Zf in Hr.
      apply IH in Hr; auto; try lia. destruct Hr as (more & -> & Hr). exists more. split; [reflexivity|].
      replace (pos + (10 + body_size f + frames_size fs)) with (pos + (10 + body_size f) + 0 + frames_size fs) by lia. exact Hr.
Qed.

(** A large picture is seen with another size. *)
Lemma picture_seen limit pos fl m ty d pic rest gs fin :
  let f := FPicture fl m ty d pic in
  frame_ok f = true -> 256 <= body_size f -> pos < limit ->
  frames_read 4 limit 0 pos (frame_image be32 f ++ rest) gs fin ->
  exists g more, gs = g :: more /\ named (lit "APIC") g = true /\ fh_size (f_hdr g) <> body_size f.
Proof.
  intros f K L P R. pose proof (frame_ok_common _ K) as (_ & _ & Bf).
  assert (Sz : declared_size 4 (be32 (body_size f)) <> body_size f) by (rewrite declared_be32_v4; lia).
  remember (frame_image be32 f ++ rest) as l eqn:E. unfold frame_image in E. change (frame_id f) with (lit "APIC") in E. rewrite <- !app_assoc in E.
  assert (Four : forall (i s : list byte) r, length i = 4%nat -> length s = 4%nat -> i ++ s ++ r = l ->
                 i = lit "APIC" /\ s = be32 (body_size f)).
  { intros i s r Li Ls Q. rewrite E in Q. apply app_same_length in Q as (Q1 & Q); [|now rewrite Li].
    apply app_same_length in Q as (Q2 & _); [|now rewrite Ls]. auto. }
  inversion R as [|? ? ? ? Hs|? ? used gap r g gs' ? Hp Hf Hr Ek Ep El]; subst gs fin; [lia| |].
  - exfalso. rewrite E in Hs. inversion Hs.
  - subst. exists g, gs'. split; [reflexivity|]. clear R Hr. rename El into Q.
    inversion Hf; subst; rewrite <- ?app_assoc in Q;
      (match goal with Li : length ?i = 4%nat, Ls : length ?s = 4%nat |- _ => destruct (Four i s _ Li Ls Q) as (-> & ->) end);
      try discriminate.
    split; [reflexivity|exact Sz].
Qed.

(** All frames of a v2.4 tag have sizes below the limit of an [int]. *)
Lemma seen_sane limit pos l gs fin : frames_read 4 limit 0 pos l gs fin -> zlen l < 2 ^ 29 -> Forall sane gs.
Proof.
  intros R B. remember 0%nat as k eqn:Ek. induction R as [k pos l L|k pos l L _|k pos used gap rest f fs fin L F _ IH]; subst;
    [constructor..|].
  rewrite zlen_app in B. pose proof (zlen_nonneg used). pose proof (zlen_nonneg rest).
  constructor; [|apply IH; [reflexivity|lia]]. clear IH.
  assert (D : forall s, 0 <= declared_size 4 s < 2 ^ 31 - 10).
  { intros s. pose proof (synchsafe_value_range s) as Q. change (declared_size 4 s) with (synchsafe_value s). lia. }
  inversion F; subst; (split; [cbn [frame_of f_hdr fh_id frame_id]; first [exists (lit "APIC"); split; reflexivity | exists (lit "COMM"); split; reflexivity | eexists; split; [reflexivity|assumption]]|]);
    cbn [frame_of f_hdr fh_size]; try apply D;
    rewrite ?body_size_text, ?body_size_comment; rewrite !zlen_app in *;
    repeat match goal with |- context [zlen (text_image ?t)] => lazymatch goal with _ : 0 <= zlen (text_image t) |- _ => fail | _ => pose proof (zlen_nonneg (text_image t)) end end.
  - pose proof (zlen_nonneg junk). unfold zlen in *. lia.
  - unfold zlen in *. lia.
Qed.

(** ** What the assertions say of any frames *)

Lemma size_asserted o de d cover :
  has_bom de = Ok true -> ID3v2_strlent de = Ok (zlen (text_image d)) -> 0 <= zlen (text_image d) < 100 -> zlen cover < 2 ^ 28 ->
  assert_apic_frame o (mkApicInput NO_FLAGS ID3v2_MIME_TYPE_PNG de ID3v2_PIC_TYPE_FRONT_COVER (zlen cover) (Some (cells cover))) = Ok true ->
  exists g, o = Some g /\ fh_size (f_hdr g) = body_size (png x03 d cover).
Proof.
  intros Hb Hs Bd Bc E. unfold assert_apic_frame in E. cbn [ai_description ai_mime_type ai_picture_size ai_flags ai_data] in E.
  rewrite Hb, bind_is in E. apply assert_and in E as (_ & E). rewrite Hs, bind_is in E. apply assert_and in E as (_ & E).
  change (ID3v2_strlent ID3v2_MIME_TYPE_PNG) with (Ok 10) in E. rewrite bind_is in E.
  pose proof (zlen_nonneg cover). change (2 ^ 28) with 268435456 in Bc.
  change (iadd ID3v2_FRAME_ENCODING_LENGTH 10) with (Ok 11) in E. rewrite bind_is in E.
  change (iadd 11 ID3v2_APIC_FRAME_PICTURE_TYPE_LENGTH) with (Ok 12) in E. rewrite bind_is in E.
  rewrite iadd_ok, bind_is, iadd_ok, bind_is in E by (change (2 ^ 31) with 2147483648; lia).
  apply assert_and in E as (E & _). unfold assert_frame_header in E. destruct o as [g|]; [|discriminate E]. cbn [deref] in E. rewrite bind_is in E.
  apply assert_and in E as (_ & E). apply assert_and in E as (E & _). exists g. split; [reflexivity|].
  assert (Q : (fh_size (f_hdr g) =? 12 + zlen (text_image d) + zlen cover) = true) by congruence.
  unfold png. rewrite picture_size. change (zlen (text_image (narrow "image/png"))) with 10. lia.
Qed.

Lemma filter_nodes {A B} (p : B -> bool) (f : A -> B) l : filter p (map f l) = map f (filter (fun x => p (f x)) l).
Proof. induction l as [|a l IH]; [reflexivity|]. cbn [map filter]. rewrite IH. now destruct (p (f a)). Qed.

Lemma find_nodes {A B} (p : B -> bool) (f : A -> B) l : find p (map f l) = option_map f (find (fun x => p (f x)) l).
Proof. induction l as [|a l IH]; [reflexivity|]. cbn [map find]. rewrite IH. now destruct (p (f a)). Qed.

Lemma sizes_asserted cover t gs : tag_has t gs -> Forall sane gs -> zlen cover < 2 ^ 28 -> set_assertions cover (Some t) = Ok true ->
  (exists g, find (named (lit "APIC")) gs = Some g /\ fh_size (f_hdr g) = body_size (new_cover cover))
  /\ (exists g, nth_error (filter (named (lit "APIC")) gs) 1 = Some g /\ fh_size (f_hdr g) = body_size (other_cover x03 cover)).
Proof.
  intros (ps & Hl & <- & _) Sa B E.
  destruct (lookup_named t ps Hl Sa) as (_ & _ & _ & _ & _ & _ & _ & _ & _ & G10 & G11 & G12 & G13). cbv zeta in *.
  unfold set_assertions in E. do 9 (apply assert_and in E as (_ & E)).
  rewrite G10, bind_is in E. apply assert_and in E as (_ & E). rewrite G12, bind_is in E. apply bind_true in E as (? & _ & E).
  apply assert_and in E as (_ & E). rewrite G11, bind_is in E. apply assert_and in E as (E1 & E). rewrite G13, bind_is in E.
  apply bind_true in E as (s & Es & E). apply assert_and in E as (E2 & _).
  apply (size_asserted _ _ (wide "")) in E1; [|reflexivity|reflexivity|vm_compute; split; congruence|exact B].
  apply (size_asserted _ _ (wide "Description")) in E2; [|reflexivity|reflexivity|vm_compute; split; congruence|exact B].
  destruct E1 as (g1 & Q1 & S1), E2 as (g2 & -> & S2). split.
  - exists g1. split; [|exact S1]. rewrite find_nodes, <- Q1. now destruct (find _ ps).
  - exists g2. split; [|exact S2]. rewrite filter_nodes, nth_error_map.
    destruct (filter (fun p => named (lit "APIC") (fp_frame p)) ps) as [|a [|b l]]; try discriminate Es. exact (f_equal (fun o => match o with Ok x => x | _ => None end) Es).
Qed.

(** ** The cover in a v2.4 tag *)

Lemma find_cut {A} (p : A -> bool) l x : find p l = Some x ->
  exists a b, l = a ++ x :: b /\ Forall (fun y => p y = false) a /\ p x = true.
Proof.
  induction l as [|y l IH]; [discriminate|]. cbn [find]. destruct (p y) eqn:E.
  - intros Q. injection Q as ->. exists [], l. auto.
  - intros Q. destruct (IH Q) as (a & b & -> & F & Px). exists (y :: a), b. auto.
Qed.

Lemma filter_none {A} (p : A -> bool) l : Forall (fun y => p y = false) l -> filter p l = [].
Proof. induction 1 as [|y l E _ IH]; [reflexivity|]. cbn [filter]. now rewrite E. Qed.

Lemma find_filter {A} (p : A -> bool) l : find p l = nth_error (filter p l) 0.
Proof. induction l as [|x l IH]; [reflexivity|]. cbn [find filter]. destruct (p x); [reflexivity|exact IH]. Qed.

Lemma find_past {A} (p : A -> bool) a b : Forall (fun y => p y = false) a -> find p (a ++ b) = find p b.
Proof. induction 1 as [|y l E _ IH]; [reflexivity|]. cbn [app find]. now rewrite E. Qed.

Lemma named_none id fs : Forall (fun f => titled id f = false) fs -> Forall (fun g => named id g = false) (map frame_of fs).
Proof. induction 1 as [|f fs E _ IH]; constructor; [now rewrite named_titled|exact IH]. Qed.

Section Large.
  Variables (minor flags : byte) (fs : list fspec) (pad : Z) (sound cover : list byte).
  Hypothesis X : has_extended_header flags = false.
  Hypothesis K : Forall (fun f => frame_ok f = true /\ readable f = true) fs.
  Hypothesis Sv : Forall (fun f => titled (lit "APIC") f = true \/ survives x04 f = true) fs.
  Hypothesis P : 0 <= pad.
  Hypothesis B : frames_size fs + pad < 2 ^ 28.
  Hypothesis B' : frames_size (edited (set_edits cover) fs) + pad < 2 ^ 28.
  Hypothesis L : 256 <= body_size (new_cover cover) \/ 256 <= body_size (other_cover x03 cover) /\ second "APIC" fs = None.

  Local Notation original := (Some (tagged_file x04 minor flags fs pad sound)).
  Local Notation es := (edited (set_edits cover) fs).

  Lemma large_size : zlen cover < 2 ^ 28.
  Proof.
    assert (I : In (new_cover cover) es) by (eapply find_some; apply set_cover_found).
    apply frames_size_in in I. unfold new_cover, png in I. rewrite picture_size in I.
    pose proof (text_image_pos (narrow "image/png")). pose proof (text_image_pos (wide "")). lia.
  Qed.

  Lemma large_oks : oks (set_frames_of cover).
  Proof.
    pose proof large_size as Bc. unfold oks, set_frames_of, put_frames_of, new_texts. cbn [app].
    do 10 (apply Forall_cons; [reflexivity|]). apply Forall_cons; [apply png_ok; (reflexivity || exact Bc)|].
    apply Forall_cons; [reflexivity|]. apply Forall_cons; [apply png_ok; (reflexivity || exact Bc)|]. apply Forall_nil.
  Qed.

  Lemma large_kept : Forall (fun f => titled (lit "APIC") f = true \/ survives x04 f = true) es.
  Proof.
    apply set_survives. apply Forall_app. split; [exact Sv|]. unfold set_frames_of, put_frames_of, new_texts. cbn [app].
    do 10 (apply Forall_cons; [right; reflexivity|]). apply Forall_cons; [left; reflexivity|].
    apply Forall_cons; [right; reflexivity|]. apply Forall_cons; [left; reflexivity|]. apply Forall_nil.
  Qed.

  Lemma large_oks_all : oks es.
  Proof.
    apply set_survives. apply Forall_app. split; [|exact large_oks].
    rewrite Forall_forall in *. intros f I. now apply K.
  Qed.

  (** One of the two covers is seen with another size. *)
  Lemma large_seen n gs fin : frames_size es <= n -> n < 2 ^ 28 ->
    frames_read 4 n 0 10 (images be32 es ++ zeros (n - frames_size es)) gs fin ->
    ~ ((exists g, find (named (lit "APIC")) gs = Some g /\ fh_size (f_hdr g) = body_size (new_cover cover))
       /\ (exists g, nth_error (filter (named (lit "APIC")) gs) 1 = Some g /\ fh_size (f_hdr g) = body_size (other_cover x03 cover))).
  Proof.
    intros Ln Bn R ((g1 & F1 & S1) & (g2 & F2 & S2)).
    pose proof (frames_size_nonneg es) as Ne. change (2 ^ 28) with 268435456 in Bn.
    pose proof large_oks as Ks. unfold oks, set_frames_of, put_frames_of in Ks. rewrite !Forall_app in Ks. destruct Ks as ((_ & Kn) & Ko).
    inversion Kn as [|? ? _ Kn']; subst. inversion Kn' as [|? ? Knc _]; subst. inversion Ko as [|? ? _ Ko']; subst. inversion Ko' as [|? ? Koc _]; subst.
    clear Kn Kn' Ko Ko'.
    destruct (find_cut _ _ _ (set_cover_found cover fs)) as (l1 & l2 & E & N1 & _).
    pose proof large_kept as Ek. pose proof large_oks_all as Eo. unfold oks in Eo. rewrite E in Ek, Eo, R, Ne, Ln.
    apply Forall_app in Ek as (Ek1 & Ek2). inversion Ek2 as [|? ? _ Ek3]; subst. clear Ek2.
    apply Forall_app in Eo as (Eo1 & Eo2). inversion Eo2 as [|? ? _ Eo3]; subst. clear Eo2.
    assert (St1 : Forall (fun f => survives x04 f = true) l1).
    { rewrite Forall_forall in *. intros f I. destruct (Ek1 f I) as [Q|Q]; [|exact Q]. rewrite (N1 f I) in Q. discriminate Q. }
    rewrite frames_size_app, frames_size_cons in *. pose proof (frames_size_nonneg l1). pose proof (frames_size_nonneg l2).
    pose proof (body_size_nonneg (new_cover cover)). unfold images in R. rewrite flat_map_app in R. cbn [flat_map] in R. fold (images be32 l1) (images be32 l2) in R.
    rewrite <- !app_assoc in R. change 4 with (bv x04) in R.
    set (tail := zeros _) in *.
    assert (Zt : zlen tail <= n) by (unfold tail, zeros; rewrite zlen_repeat; lia). clearbody tail.
    assert (Zi2 : zlen (images be32 l2) = frames_size l2) by (now apply images_zlen).
    assert (Zn : zlen (frame_image be32 (new_cover cover)) = 10 + body_size (new_cover cover)) by (now apply frame_image_zlen).
    destruct (Z.le_gt_cases 256 (body_size (new_cover cover))) as [La|La].
    - apply seen_through in R; [|exact St1|lia|rewrite !zlen_app; change (2 ^ 31) with 2147483648; lia].
      destruct R as (more & -> & R). change (bv x04) with 4 in R.
      apply picture_seen in R; [|exact Knc|exact La|lia]. destruct R as (g & more' & -> & Ng & Sg).
      rewrite find_past in F1 by (now apply named_none). cbn [find] in F1. rewrite Ng in F1. injection F1 as <-. now apply Sg.
    - destruct L as [La'|(Lb & Sc)]; [lia|].
      assert (Snc : survives x04 (new_cover cover) = true).
      { unfold survives. rewrite Knc. cbn [andb]. replace (readable (new_cover cover)) with true.
        - cbn [andb]. change (Byte.eqb x04 x03) with false. change (Byte.eqb x04 x04) with true. cbn [orb andb]. lia.
        - unfold new_cover, png. cbn [readable]. destruct cover; [|reflexivity]. vm_compute in Lb. congruence. }
      pose proof (set_second_cover cover fs) as Q. rewrite Sc in Q. unfold second in Q. rewrite E in Q.
      rewrite filter_app, (filter_none _ l1 N1) in Q. cbn [app filter] in Q. change (titled (lit "APIC") (new_cover cover)) with true in Q. cbn [nth_error] in Q.
      assert (Fo : find (titled (lit "APIC")) l2 = Some (other_cover x03 cover)).
      { rewrite find_filter. exact Q. }
      destruct (find_cut _ _ _ Fo) as (l3 & l4 & -> & N3 & _).
      apply Forall_app in Ek3 as (Ek3 & _). apply Forall_app in Eo3 as (_ & Eo4). inversion Eo4 as [|? ? _ Eo5]; subst.
      assert (St3 : Forall (fun f => survives x04 f = true) l3).
      { rewrite Forall_forall in *. intros f I. destruct (Ek3 f I) as [Q'|Q']; [|exact Q']. rewrite (N3 f I) in Q'. discriminate Q'. }
      rewrite frames_size_app, frames_size_cons in *. pose proof (frames_size_nonneg l3). pose proof (frames_size_nonneg l4).
      pose proof (body_size_nonneg (other_cover x03 cover)).
      assert (Zi4 : zlen (images be32 l4) = frames_size l4) by (now apply images_zlen).
      assert (Zo : zlen (frame_image be32 (other_cover x03 cover)) = 10 + body_size (other_cover x03 cover)) by (now apply frame_image_zlen).
      replace (images be32 l1 ++ frame_image be32 (new_cover cover) ++ images be32 (l3 ++ other_cover x03 cover :: l4) ++ tail)
        with (images be32 (l1 ++ new_cover cover :: l3) ++ frame_image be32 (other_cover x03 cover) ++ images be32 l4 ++ tail) in R
        by (unfold images; rewrite !flat_map_app; cbn [flat_map]; now rewrite <- !app_assoc).
      apply seen_through in R.
      2:{ apply Forall_app. split; [exact St1|]. now constructor. }
      2:{ rewrite frames_size_app, frames_size_cons. lia. }
      2:{ rewrite frames_size_app, frames_size_cons, !zlen_app. change (2 ^ 31) with 2147483648. lia. }
      destruct R as (more & -> & R). change (bv x04) with 4 in R.
      apply picture_seen in R; [|exact Koc|exact Lb|rewrite frames_size_app, frames_size_cons; lia]. destruct R as (g & more' & -> & Ng & Sg).
      rewrite map_app, <- app_assoc, filter_app, (filter_none _ _ (named_none _ _ N1)) in F2. cbn [map app filter] in F2.
      change (named (lit "APIC") (frame_of (new_cover cover))) with true in F2. cbn iota in F2.
      rewrite filter_app, (filter_none _ _ (named_none _ _ N3)) in F2. cbn [app filter] in F2. rewrite Ng in F2. cbn [nth_error] in F2.
      injection F2 as <-. now apply Sg.
  Qed.

  Lemma edit_large : edit_test (Some cover) original <> Ok true.
  Proof.
    pose proof large_size as Bc. pose proof (missing_range cover fs) as Mr. pose proof (frames_size_nonneg es) as Nf.
    pose proof (set_room cover fs pad) as Ro. change (2 ^ 28) with 268435456 in B, B'.
    destruct (session x04 minor flags fs pad sound _ _ eq_refl X K P B (set_calls_mean cover) (set_ok_edits cover fs large_oks)) as (t & t' & Et & Er & W).
    { rewrite Ro. change (2 ^ 31) with 2147483648. change (2 ^ 28) with 268435456. lia. }
    rewrite Ro in W. rewrite (edit_test_is cover _ _ _ eq_refl Bc Et). cbn [or_new].
    cbn [app]. rewrite Er, bind_is. fold (tagged_file x04 minor flags fs pad sound) in W.
    destruct (0 <=? pad - 10 * (2 + missing cover fs)) eqn:Rm; [|destruct W as (u & ->); discriminate].
    rewrite W, bind_is. set (n := frames_size es + (pad - 10 * (2 + missing cover fs))) in *.
    assert (Ln : frames_size es <= n) by (unfold n; lia). assert (Bn : n < 2 ^ 28) by (unfold n; change (2 ^ 28) with 268435456; lia).
    destruct (read_file_exactly (tag_bytes x04 minor flags n es ++ sound)) as [(r & ot & R & E & Sh)|(_ & u & ->)]; [|discriminate].
    rewrite E, bind_is. destruct ot as [t2|]; [|discriminate]. rewrite bind_is. destruct r as [[[h gs] p]|]; [|destruct Sh].
    destruct Sh as (_ & T & _). intros A.
    apply (written_frames x04 minor flags n es sound) in R; [|reflexivity|exact X|exact large_oks_all|exact Ln|exact Bn].
    destruct R as (fin & R & _). change (bv x04) with 4 in R.
    apply (large_seen n gs fin Ln Bn R). apply (sizes_asserted cover t2); auto.
    apply (seen_sane n 10 _ gs fin R). rewrite zlen_app, images_zlen by (exact large_oks_all || reflexivity).
    unfold zeros. rewrite zlen_repeat. change (2 ^ 28) with 268435456 in Bn. change (2 ^ 29) with 536870912. lia.
  Qed.
End Large.
