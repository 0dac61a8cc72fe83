(** What is seen of a tag that is bigger than its size field says: C97. *)
From Verif Require Import File Calls Spec SpecEdit SpecFile SpecRead SpecSession SpecRewrite SpecBig SpecBigRead.
From Verif Require Import BaseFacts UtilsFacts FrameFacts StreamFacts ParseFacts ListFacts TagFacts WriteFacts FileFacts.
From Verif Require Import HistFacts EditFacts ClaimFacts RoundFacts SessionFacts ReadFacts RewriteFacts CutFacts BigFacts StandardOpenFacts.
From Coq Require Import Lia ZifyBool ZifyNat.

Lemma frames_before ver limit B gs fin ss : forall pos, oks ss -> Forall shown ss ->
  Forall (fun s => declared_size ver (be32 (body_size s)) = body_size s \/ is_comment s = true) ss ->
  reached limit pos ss -> frames_read ver limit 0 (pos + frames_size ss) B gs fin ->
  frames_read ver limit 0 pos (images be32 ss ++ B) (map frame_of ss ++ gs) fin.
Proof.
  induction ss as [|s ss IH]; intros pos K Sh D R F.
  - change (frames_size []) with 0 in F. rewrite Z.add_0_r in F. exact F.
  - inversion K; inversion Sh; inversion D; subst. destruct R as (R1 & R2).
    rewrite images_cons, <- app_assoc, frames_size_cons in *. cbn [map app].
    apply ReadFrame with (gap := 0%nat); [exact R1|now apply frame_again|].
    cbn [Nat.min]. change (Z.of_nat 0) with 0. rewrite Z.add_0_r. cbn [Nat.sub].
    rewrite frame_image_length by auto. apply IH; auto.
    + replace (pos + (body_size s + 10)) with (pos + (10 + body_size s)) by lia. exact R2.
    + replace (pos + (body_size s + 10) + frames_size ss) with (pos + (10 + body_size s + frames_size ss)) by lia. exact F.
Qed.

Lemma readable_shown f : readable f = true -> shown f.
Proof. destruct f; cbn [readable shown]; auto. intros H ->. discriminate H. Qed.

Lemma readable_body f : readable f = true -> 0 < body_size f.
Proof.
  destruct f as [id fl t|fl lang d c|fl m ty d pic|id fl body]; intros H.
  - rewrite body_size_text. pose proof (zlen_nonneg (text_image t)). lia.
  - unfold body_size, frame_body. cbn [body_with frame_encoding app]. rewrite zlen_cons.
    match goal with |- 0 < 1 + zlen ?l => pose proof (zlen_nonneg l) end. lia.
  - rewrite body_size_picture. pose proof (zlen_nonneg (text_image m)). pose proof (zlen_nonneg (text_image d)).
    pose proof (zlen_nonneg pic). lia.
  - rewrite body_size_other. cbn [readable] in H. unfold len_is in H. destruct body; [discriminate H|].
    rewrite zlen_cons. pose proof (zlen_nonneg body). lia.
Qed.

Lemma reached_readable limit fs : forall pos, Forall (fun f => readable f = true) fs ->
  pos + frames_size fs <= limit + 10 -> reached limit pos fs.
Proof.
  induction fs as [|f fs IH]; intros pos R L; [exact I|]. inversion R; subst. rewrite frames_size_cons in L.
  pose proof (readable_body f H1). pose proof (frames_size_nonneg fs). split; [lia|]. apply IH; [assumption|lia].
Qed.

Lemma big_seen mi fl n all fs B rest s gs :
  has_extended_header fl = false -> oks all -> frames_size all <= n -> 0 <= n -> n + 10 < 2 ^ 31 ->
  Forall (fun f => frame_ok f = true /\ readable f = true) fs ->
  let r := n mod 2 ^ 29 in
  images be32 all ++ zeros (n - frames_size all) ++ s = images be32 fs ++ B ++ rest ->
  frames_size fs <= r -> zlen B = r - frames_size fs ->
  forall fin, frames_read 3 r 0 (10 + frames_size fs) B gs fin ->
  file_read (big_bytes x03 mi fl n all ++ s)
    (Some (mkTH (lit "ID3") x03 mi fl r 0, map frame_of fs ++ gs, 10 + r - fin)).
Proof.
  intros X Ka L N Bn R r E Lr Zb fin F.
  assert (M : 0 <= r < 2 ^ 29) by (unfold r; apply Z.mod_pos_bound; reflexivity).
  assert (K : oks fs) by (eapply Forall_impl; [|exact R]; intros f [A _]; exact A).
  assert (Rd : Forall (fun f => readable f = true) fs) by (eapply Forall_impl; [|exact R]; intros f [_ A]; exact A).
  destruct (big_file x03 mi fl n all s eq_refl X Ka L Bn) as (P & T & _ & _). fold r in T.
  split; [exact P|]. rewrite T.
  set (front := lit "ID3" ++ [x03; mi; fl] ++ size_bytes n ++ images be32 fs ++ B).
  assert (Q : big_bytes x03 mi fl n all ++ s = front ++ rest).
  { unfold big_bytes, front. rewrite <- !app_assoc. do 3 f_equal. exact E. }
  assert (Zf : zlen front = 10 + r).
  { unfold front. rewrite !zlen_app, images_zlen, Zb by (auto; reflexivity).
    change (zlen (lit "ID3")) with 3. change (zlen [x03; mi; fl]) with 3. change (zlen (size_bytes n)) with 4. lia. }
  rewrite Q. rewrite firstn_app_exact by (unfold zlen in Zf; lia). rewrite app_length.
  replace (Z.to_nat (10 + r) - _)%nat with O by (unfold zlen in Zf; lia).
  replace (10 + r - fin) with (zlen front + Z.of_nat 0 - fin) by lia.
  assert (Sv : synchsafe_value (size_bytes n) = r) by (apply size_bytes_value; lia).
  rewrite <- Sv at 1. apply ReadPlain with (body := images be32 fs ++ B); auto.
  rewrite Sv. apply frames_before; auto.
  - eapply Forall_impl; [|exact Rd]. intros f. apply readable_shown.
  - eapply Forall_impl; [|exact K]. intros f Kf. left. pose proof (frame_ok_common _ Kf) as (_ & _ & Bs).
    pose proof (body_size_nonneg f). apply declared_be32; [discriminate|lia].
  - apply reached_readable; [exact Rd|lia].
Qed.

Lemma frames_size_all fs1 fs2 : frames_size (fs1 ++ fs2) = frames_size fs1 + frames_size fs2.
Proof. induction fs1 as [|f fs1 IH]; [reflexivity|]. cbn [app]. rewrite !frames_size_cons, IH. lia. Qed.

Lemma images_all fs1 fs2 : images be32 (fs1 ++ fs2) = images be32 fs1 ++ images be32 fs2.
Proof. unfold images. apply flat_map_app. Qed.

(** The recorded size ends between two frames, or within the header of one. *)
Lemma big_between mi fl n fs fs2 s :
  has_extended_header fl = false -> Forall (fun f => frame_ok f = true /\ readable f = true) fs -> oks fs2 ->
  frames_size (fs ++ fs2) <= n -> n + 10 < 2 ^ 31 ->
  let r := n mod 2 ^ 29 in
  frames_size fs <= r <= frames_size fs + 10 ->
  file_read (big_bytes x03 mi fl n (fs ++ fs2) ++ s)
    (Some (mkTH (lit "ID3") x03 mi fl r 0, map frame_of fs, r - frames_size fs)).
Proof.
  intros X R K2 L Bn r E. pose proof (frames_size_nonneg (fs ++ fs2)).
  assert (M : 0 <= r <= n) by (unfold r; change (2 ^ 29) with 536870912; lia).
  rewrite <- (app_nil_r (map frame_of fs)).
  replace (r - frames_size fs) with (10 + r - (10 + frames_size fs)) by lia.
  assert (K1 : oks fs) by (eapply Forall_impl; [|exact R]; intros f [A _]; exact A).
  set (tail := images be32 fs2 ++ zeros (n - frames_size (fs ++ fs2)) ++ s).
  assert (Zt : r - frames_size fs <= zlen tail).
  { unfold tail, zeros. rewrite !zlen_app, images_zlen, zlen_repeat by (auto; reflexivity).
    rewrite frames_size_all in *. pose proof (zlen_nonneg s). lia. }
  apply big_seen with (B := firstn (Z.to_nat (r - frames_size fs)) tail) (rest := skipn (Z.to_nat (r - frames_size fs)) tail);
    auto; try lia.
  - now apply Forall_app.
  - rewrite firstn_skipn. unfold tail. rewrite images_all, <- !app_assoc. reflexivity.
  - unfold zlen in *. rewrite firstn_length. lia.
  - apply ReadEnd. lia.
Qed.

Lemma part_kept (l : list byte) known : 0 <= known < zlen l ->
  l = firstn (Z.to_nat known) l ++ skipn (Z.to_nat known) l
  /\ zlen (firstn (Z.to_nat known) l) = known.
Proof.
  intros H. split; [symmetry; apply firstn_skipn|]. unfold zlen in *. rewrite firstn_length. lia.
Qed.

(** The recorded size ends within a picture, or within an unknown frame. *)
Lemma within_frame f known : frame_ok f = true -> 0 <= known < part_length f ->
  exists B rest gap, frame_image be32 f = B ++ rest /\ zlen B = known + part_before f
    /\ frame_read 3 B gap [] (Some (cut_short known f)) /\ Z.of_nat gap = part_length f - known.
Proof.
  intros Kf Hk. pose proof (frame_ok_common _ Kf) as (Hi & Hf & Bs). pose proof (frame_ok_kind _ Kf) as Hkd.
  pose proof (body_size_nonneg f).
  assert (D : declared_size 3 (be32 (body_size f)) = body_size f) by (apply declared_be32; [discriminate|lia]).
  destruct f as [id flg t|flg lang d c|flg m ty d pic|id flg body]; cbn [part_length part_before] in *; try lia.
  - destruct (part_kept pic known Hk) as (Ep & Zp).
    set (p1 := firstn (Z.to_nat known) pic) in *. set (p2 := skipn (Z.to_nat known) pic) in *.
    assert (Z2 : zlen pic = known + zlen p2) by (rewrite Ep at 1; rewrite zlen_app; lia).
    exists (lit "APIC" ++ be32 (body_size (FPicture flg m ty d pic)) ++ flg ++ [text_encoding d] ++ text_image m ++ [ty] ++ text_image d ++ p1), p2,
      (Z.to_nat (zlen pic - known)).
    pose proof (zlen_nonneg (text_image m)). pose proof (zlen_nonneg (text_image d)).
    split; [|split; [|split; [|lia]]].
    + unfold frame_image, frame_body. cbn [body_with frame_encoding frame_id frame_flags].
      rewrite <- !app_assoc. rewrite Ep at 2. reflexivity.
    + rewrite !zlen_app, Zp. change (zlen (lit "APIC")) with 4. change (zlen (be32 _)) with 4.
      change (zlen [_]) with 1. cbn [frame_flags] in Hf. rewrite (zlen_of flg 2 Hf). lia.
    + pose proof (ReadPicture 3 (lit "APIC") (be32 (body_size (FPicture flg m ty d pic))) flg (text_encoding d) m ty d p1
        (Z.to_nat (zlen pic - known)) [] eq_refl eq_refl Hf eq_refl (proj1 Hkd) (proj2 Hkd)) as Q.
      cbv zeta in Q. rewrite D in Q. rewrite Zp in Q.
      replace (known + Z.of_nat (Z.to_nat (zlen pic - known))) with (zlen pic) in Q by lia.
      unfold cut_short. fold p1. apply Q; [lia| |now right]. rewrite body_size_picture. lia.
  - destruct (part_kept body known Hk) as (Ep & Zp).
    set (p1 := firstn (Z.to_nat known) body) in *. set (p2 := skipn (Z.to_nat known) body) in *.
    exists (id ++ be32 (body_size (FOther id flg body)) ++ flg ++ p1), p2, (Z.to_nat (zlen body - known)).
    split; [|split; [|split; [|lia]]].
    + unfold frame_image, frame_body. cbn [body_with frame_encoding frame_id frame_flags].
      rewrite <- !app_assoc. rewrite Ep at 2. reflexivity.
    + rewrite !zlen_app, Zp. change (zlen (be32 _)) with 4. cbn [frame_flags frame_id] in Hf, Hi.
      rewrite (zlen_of flg 2 Hf), (zlen_of id 4 Hi). lia.
    + destruct Hkd as (K3 & K4 & K5 & K6).
      pose proof (ReadOther 3 id (be32 (body_size (FOther id flg body))) flg p1 (Z.to_nat (zlen body - known)) []
        Hi eq_refl Hf K3 K4 K5 K6) as Q. rewrite D, Zp in Q. unfold cut_short. fold p1.
      apply Q; [|now right]. rewrite body_size_other. lia.
Qed.

Lemma big_within mi fl n fs f fs2 s :
  has_extended_header fl = false -> Forall (fun f => frame_ok f = true /\ readable f = true) fs ->
  frame_ok f = true -> oks fs2 ->
  frames_size (fs ++ f :: fs2) <= n -> n + 10 < 2 ^ 31 ->
  let known := n mod 2 ^ 29 - frames_size fs - part_before f in
  10 + frames_size fs < n mod 2 ^ 29 -> 0 <= known < part_length f ->
  file_read (big_bytes x03 mi fl n (fs ++ f :: fs2) ++ s)
    (Some (mkTH (lit "ID3") x03 mi fl (n mod 2 ^ 29) 0, map frame_of fs ++ [cut_short known f], 0)).
Proof.
  intros X R Kf K2 L Bn known Lo Hk. pose proof (frames_size_nonneg (fs ++ f :: fs2)).
  pose proof (frames_size_nonneg fs) as N1.
  set (r := n mod 2 ^ 29) in *.
  set (tail := images be32 fs2 ++ zeros (n - frames_size (fs ++ f :: fs2)) ++ s).
  destruct (within_frame f known Kf Hk) as (B & rest & gap & Ef & Zb & Fr & _).
  replace 0 with (10 + r - (10 + r)) at 2 by lia.
  assert (K1 : oks fs) by (eapply Forall_impl; [|exact R]; intros g [A _]; exact A).
  apply big_seen with (B := B) (rest := rest ++ tail); auto; try (unfold known in *; lia).
  - apply Forall_app. split; [exact K1|now constructor].
  - rewrite images_all, images_cons, Ef, <- !app_assoc. reflexivity.
  - rewrite <- (app_nil_r B). apply ReadFrame with (gap := gap); [lia|exact Fr|].
    rewrite Nat.min_0_r. change (Z.of_nat 0) with 0. cbn [Nat.sub].
    replace (10 + frames_size fs + zlen B + 0) with (10 + r) by lia. apply ReadEnd. lia.
Qed.

Lemma read_seen content h gs pad : file_read content (Some (h, gs, pad)) ->
  exists t, ID3v2_read_tag (Some content) = Ok (Some t) /\ t_header t = h /\ tag_has t gs /\ t_padding t = pad.
Proof.
  intros R. destruct (read_file_exactly content) as [(r' & ot & R' & Et & Sh)|(Nr & _)]; [|now apply Nr in R].
  pose proof (file_read_once _ _ _ R R') as <-. destruct ot as [t|]; [|destruct Sh]. exists t. auto.
Qed.

(** Saving it again. *)
Lemma big_lost mi fl n fs fs2 s :
  has_extended_header fl = false -> Forall (fun f => frame_ok f = true /\ readable f = true) fs -> oks fs2 ->
  frames_size (fs ++ fs2) <= n -> n + 10 < 2 ^ 31 ->
  let r := n mod 2 ^ 29 in
  frames_size fs <= r <= frames_size fs + 10 ->
  run_session [] (Some (big_bytes x03 mi fl n (fs ++ fs2) ++ s))
  = Ok (Some (big_bytes x03 mi fl r fs ++ left_over x03 mi fl n (fs ++ fs2) ++ s)).
Proof.
  intros X R K2 L Bn r E. pose proof (big_between mi fl n fs fs2 s X R K2 L Bn E) as F.
  assert (M : 0 <= r < 2 ^ 29) by (unfold r; apply Z.mod_pos_bound; reflexivity).
  assert (K1 : oks fs) by (eapply Forall_impl; [|exact R]; intros f [A _]; exact A).
  assert (Ka : oks (fs ++ fs2)) by (now apply Forall_app).
  destruct (big_file x03 mi fl n (fs ++ fs2) s eq_refl X Ka L Bn) as (P & _ & A & _).
  destruct (read_seen _ _ _ _ F) as (t & Et & Ht & Tt & Pt). fold r in Ht, Pt.
  unfold run_session. rewrite Et. cbn [bind]. rewrite run_no_calls. cbn [bind].
  rewrite (big_write _ t fs x03 mi fl r 0); auto; try (change (2 ^ 31) with 2147483648; change (2 ^ 29) with 536870912 in *; lia).
  cbn [bind]. now rewrite A.
Qed.

Lemma cut_short_cut known f : 0 <= known < part_length f -> cut_frame (cut_short known f).
Proof.
  intros H. right. destruct f; cbn [part_length] in H; try lia; unfold cut_short; cbn [f_data ad_data];
    apply in_or_app; right; apply in_repeat_none; lia.
Qed.

Lemma big_torn mi fl n fs f fs2 s :
  has_extended_header fl = false -> Forall (fun f => frame_ok f = true /\ readable f = true) fs ->
  frame_ok f = true -> oks fs2 ->
  frames_size (fs ++ f :: fs2) <= n -> n + 10 < 2 ^ 31 ->
  let known := n mod 2 ^ 29 - frames_size fs - part_before f in
  10 + frames_size fs < n mod 2 ^ 29 -> 0 <= known < part_length f ->
  exists u, run_session [] (Some (big_bytes x03 mi fl n (fs ++ f :: fs2) ++ s)) = Ub u.
Proof.
  intros X R Kf K2 L Bn known Lo Hk. pose proof (big_within mi fl n fs f fs2 s X R Kf K2 L Bn Lo Hk) as F.
  set (r := n mod 2 ^ 29) in *.
  assert (M : 0 <= r < 2 ^ 29) by (unfold r; apply Z.mod_pos_bound; reflexivity).
  destruct (read_seen _ _ _ _ F) as (t & Et & Ht & Tt & Pt).
  pose proof (file_parts _ _ _ _ F) as Pa.
  unfold run_session. rewrite Et. cbn [bind]. rewrite run_no_calls. cbn [bind].
  destruct (parts_split _ Pa) as [W|Cu].
  - exfalso. rewrite Forall_app in W. destruct W as (_ & W). inversion W as [|g l Wg _]. subst. clear W.
    destruct Wg as (f' & _ & Ef). apply (whole_not_cut [f']). cbn [map]. rewrite <- Ef. constructor. now apply cut_short_cut.
  - destruct (cut_anywhere (big_bytes x03 mi fl n (fs ++ f :: fs2) ++ s) t (map frame_of fs ++ [cut_short known f]) x03 mi fl r (proj1 F)) as (u & U); auto.
    + rewrite Pt. split; reflexivity.
    + change (2 ^ 32) with 4294967296. change (2 ^ 29) with 536870912 in M. lia.
    + exists u. now rewrite U.
Qed.

(** ** The recorded size ends within a text *)

Lemma app_split {A} (a b c d : list A) : length a = length c -> a ++ b = c ++ d -> a = c /\ b = d.
Proof. revert c. induction a as [|x a IH]; intros [|y c] L E; try discriminate L; [now split|]. injection E as -> E. destruct (IH c) as (-> & ->); auto. Qed.

Lemma image_prefix t t' a b : text_ok t = true -> text_ok t' = true -> zlen (text_image t ++ a) < 2 ^ 31 ->
  text_image t ++ a = text_image t' ++ b -> text_image t = text_image t' /\ a = b.
Proof.
  intros H H' L E. pose proof L as L'. rewrite E in L'. rewrite zlen_app in L, L'.
  pose proof (zlen_nonneg a). pose proof (zlen_nonneg b).
  pose proof (strlent_text t (cells a) H ltac:(lia)) as P. pose proof (strlent_text t' (cells b) H' ltac:(lia)) as P'.
  rewrite <- cells_app in P, P'. rewrite E, P' in P.
  assert (Q : zlen (text_image t') = zlen (text_image t)) by congruence.
  apply app_split; [unfold zlen in Q; lia|exact E].
Qed.

Ltac peel E := apply app_split in E; [let P := fresh "P" in destruct E as (P & E)|cbn [length]; lia].

Lemma cut_no_frame f B miss : frame_ok f = true -> frame_image be32 f = B ++ miss -> in_text f (zlen B) ->
  forall used gap rest r, frame_read 3 used gap rest r -> used ++ rest <> B.
Proof.
  intros K E T used gap rest r R Eb. subst B.
  pose proof (frame_ok_common _ K) as (Hi & Hf & Bs). pose proof (frame_ok_kind _ K) as Hk.
  assert (Zt : zlen (frame_image be32 f) = body_size f + 10) by (apply frame_image_length; auto).
  rewrite E, zlen_app in Zt. unfold frame_image in E. set (sz := be32 (body_size f)) in *.
  assert (Ls : length sz = 4%nat) by reflexivity. clearbody sz.
  assert (St : (id_starts (frame_id f) "T" = true \/ id_starts (frame_id f) "C" = true \/ id_starts (frame_id f) "A" = true)).
  { destruct f; cbn [frame_id in_text] in *; try contradiction; [left; tauto|right; now left|right; now right]. }
  assert (Ne : forall a b, id_starts (frame_id f) a = true -> id_starts (frame_id f) b = true -> a = b).
  { intros a b Ha Hb. destruct (frame_id f) as [|x l]; [discriminate Ha|]. cbn [id_starts] in Ha, Hb.
    apply beq_true in Ha, Hb. congruence. }
  destruct R as [rest|id size flags enc t junk gap rest Li Lz Lf I T1 D C|id size flags enc lang d c0 rest Li Lz Lf Ll I T1 T2
    |id size flags enc m ty d pic gap rest Li Lz Lf I T1 T2 n N D C|id size flags body gap rest Li Lz Lf I1 I2 I3 Nz D C
    |id size flags gap Li Lz Lf I1 I2 I3 Nz D]; rewrite <- ?app_assoc in E; rewrite ?zlen_app in T; rewrite ?zlen_app in Zt.
  - change ([] ++ [x00; x00; x00; x00] ++ rest ++ miss) with ([x00; x00; x00; x00] ++ rest ++ miss) in E. peel E.
    rewrite P in St. cbn [id_starts] in St. destruct St as [St|[St|St]]; discriminate St.
  - peel E. peel E. peel E. subst id.
    destruct f as [id' fl' t'|fl' lang' d' c'|fl' m' ty' d' pic'|id' fl' body']; cbn [frame_id frame_flags in_text] in *;
      try contradiction; try discriminate I.
    unfold frame_body in E. cbn [body_with frame_encoding] in E. peel E.
    rewrite <- (app_nil_r (text_image t')) in E. rewrite body_size_text in *.
    destruct (image_prefix t' t [] (junk ++ rest ++ miss)) as (Q & Q'); auto; try tauto.
    { rewrite app_nil_r. pose proof (zlen_nonneg (text_image t')). lia. }
    apply (f_equal (@zlen byte)) in Q, Q'. rewrite !zlen_app in Q'. change (zlen (@nil byte)) with 0 in Q'.
    change (zlen [enc]) with 1 in *. pose proof (zlen_nonneg junk). pose proof (zlen_nonneg rest). pose proof (zlen_nonneg miss).
    rewrite (zlen_of _ _ Hi), (zlen_of _ _ Lz), (zlen_of _ _ Lf) in *. lia.
  - peel E. peel E. peel E. subst id.
    destruct f as [id' fl' t'|fl' lang' d' c'|fl' m' ty' d' pic'|id' fl' body']; cbn [frame_id frame_flags in_text] in *;
      try contradiction; try discriminate I; try (destruct Hk as (Hk & _); discriminate (Ne _ _ Hk I)).
    unfold frame_body in E. cbn [body_with frame_encoding] in E. peel E. destruct Hk as (Ll' & Hk). peel E.
    assert (Zc : body_size (FComment fl' lang' d' c') = 4 + zlen (text_image d') + zlen (text_image c')).
    { unfold body_size, frame_body. cbn [body_with frame_encoding]. rewrite !zlen_app, (zlen_of _ _ Ll').
      change (zlen [_]) with 1. lia. }
    rewrite Zc in *. pose proof (zlen_nonneg (text_image d')). pose proof (zlen_nonneg (text_image c')).
    destruct (image_prefix d' d (text_image c') (text_image c0 ++ rest ++ miss)) as (Q & Q'); auto; try tauto.
    { rewrite zlen_app. lia. }
    rewrite <- (app_nil_r (text_image c')) in Q'.
    destruct (image_prefix c' c0 [] (rest ++ miss)) as (Q1 & Q2); auto; try tauto.
    { rewrite app_nil_r. lia. }
    apply (f_equal (@zlen byte)) in Q, Q1, Q2. rewrite !zlen_app in Q2. change (zlen (@nil byte)) with 0 in Q2.
    change (zlen [enc]) with 1 in *. pose proof (zlen_nonneg rest). pose proof (zlen_nonneg miss).
    rewrite (zlen_of _ _ Li), (zlen_of _ _ Lz), (zlen_of _ _ Lf), (zlen_of _ _ Ll) in *. lia.
  - peel E. peel E. peel E. subst id.
    destruct f as [id' fl' t'|fl' lang' d' c'|fl' m' ty' d' pic'|id' fl' body']; cbn [frame_id frame_flags in_text] in *;
      try contradiction; try discriminate I; try (destruct Hk as (Hk & _); discriminate (Ne _ _ Hk I)).
    unfold frame_body in E. cbn [body_with frame_encoding part_before] in E, T. peel E. rewrite body_size_picture in *.
    pose proof (zlen_nonneg (text_image d')). pose proof (zlen_nonneg (text_image m')). pose proof (zlen_nonneg pic').
    destruct (image_prefix m' m ([ty'] ++ text_image d' ++ pic') ([ty] ++ text_image d ++ pic ++ rest ++ miss)) as (Q & Q'); auto; try tauto.
    { rewrite !zlen_app. change (zlen [_]) with 1. lia. }
    peel Q'.
    destruct (image_prefix d' d pic' (pic ++ rest ++ miss)) as (Q1 & Q2); auto; try tauto.
    { rewrite zlen_app. lia. }
    apply (f_equal (@zlen byte)) in Q, Q1.
    change (zlen [enc]) with 1 in *. change (zlen [ty]) with 1 in *.
    pose proof (zlen_nonneg rest). pose proof (zlen_nonneg miss). pose proof (zlen_nonneg pic).
    rewrite (zlen_of _ _ Li), (zlen_of _ _ Lz), (zlen_of _ _ Lf) in *. lia.
  - peel E. subst id. destruct St as [St|[St|St]]; congruence.
  - peel E. subst id. destruct St as [St|[St|St]]; congruence.
Qed.

Lemma no_frame_there f B miss limit fs : frame_ok f = true -> frame_image be32 f = B ++ miss -> in_text f (zlen B) ->
  Forall (fun f => frame_ok f = true /\ readable f = true) fs -> frames_size fs + zlen B < 2 ^ 31 ->
  forall pos gs fin, pos + frames_size fs < limit -> ~ frames_read 3 limit 0 pos (images be32 fs ++ B) gs fin.
Proof.
  intros K E T. induction fs as [|g fs IH]; intros R L pos gs fin P F.
  - change (frames_size []) with 0 in P. cbn [images flat_map app] in F.
    inversion F as [|? ? ? ? H0|? ? used gap r f' fs' ? Hp Hf Hr]; subst; [lia| |].
    + now apply (cut_no_frame _ _ _ K E T) in H0.
    + now apply (cut_no_frame _ _ _ K E T) in Hf.
  - inversion R as [|? ? (Kg & Rg) R']; subst. rewrite images_cons, <- app_assoc in F. rewrite frames_size_cons in *.
    pose proof (frames_size_nonneg fs). pose proof (body_size_nonneg g). pose proof (zlen_nonneg B).
    assert (G : frame_read 3 (frame_image be32 g) 0 (images be32 fs ++ B) (Some (frame_of g))).
    { apply frame_again; [exact Kg|now apply readable_shown|left].
      pose proof (frame_ok_common _ Kg) as (_ & _ & Bs). apply declared_be32; [discriminate|lia]. }
    assert (Zg : zlen (frame_image be32 g) = body_size g + 10) by (apply frame_image_length; auto).
    assert (K' : oks fs) by (eapply Forall_impl; [|exact R']; intros h [A _]; exact A).
    assert (L' : zlen (frame_image be32 g ++ images be32 fs ++ B) < 2 ^ 31).
    { rewrite !zlen_app, Zg, images_zlen by (auto; reflexivity). lia. }
    inversion F as [|? ? ? ? H2|? ? used gap r f' fs' ? Hp Hf Hr]; subst.
    + lia.
    + destruct (frame_read_det _ _ _ _ _ _ _ _ _ L' G H2 eq_refl) as (_ & _ & X). discriminate X.
    + destruct (frame_read_det _ _ _ _ _ _ _ _ _ L' G Hf ltac:(congruence)) as (Eu1 & Et & _). subst used r.
      cbn [Nat.sub] in Hr. rewrite Nat.min_0_r in Hr. change (Z.of_nat 0) with 0 in Hr. rewrite Zg in Hr.
      eapply IH; [exact R'| | |exact Hr]; lia.
Qed.

Lemma big_text mi fl n fs f fs2 s :
  has_extended_header fl = false -> Forall (fun f => frame_ok f = true /\ readable f = true) fs ->
  frame_ok f = true -> oks fs2 ->
  frames_size (fs ++ f :: fs2) <= n -> n + 10 < 2 ^ 31 ->
  let r := n mod 2 ^ 29 in
  10 + frames_size fs < r -> in_text f (r - frames_size fs) ->
  exists u, ID3v2_read_tag (Some (big_bytes x03 mi fl n (fs ++ f :: fs2) ++ s)) = Ub u.
Proof.
  intros X R Kf K2 L Bn r Lo T. pose proof (frames_size_nonneg (fs ++ f :: fs2)). pose proof (frames_size_nonneg fs).
  set (content := big_bytes x03 mi fl n (fs ++ f :: fs2) ++ s).
  destruct (read_file_exactly content) as [(r' & t & F & _)|(_ & F)]; [exfalso|exact F].
  assert (M : 0 <= r < 2 ^ 29) by (unfold r; apply Z.mod_pos_bound; reflexivity).
  assert (K1 : oks fs) by (eapply Forall_impl; [|exact R]; intros g [A _]; exact A).
  assert (Ka : oks (fs ++ f :: fs2)) by (apply Forall_app; split; [exact K1|now constructor]).
  destruct (big_file x03 mi fl n (fs ++ f :: fs2) s eq_refl X Ka L Bn) as (_ & Tl & _). fold content r in Tl.
  destruct F as (_ & F). rewrite Tl in F.
  assert (Zt : zlen (frame_image be32 f) = body_size f + 10) by (apply frame_image_length; auto).
  assert (Tb : r - frames_size fs < 10 + body_size f).
  { destruct f; cbn [in_text part_before] in T; try contradiction; try exact T.
    rewrite body_size_picture. pose proof (zlen_nonneg pic). lia. }
  set (B := firstn (Z.to_nat (r - frames_size fs)) (frame_image be32 f)).
  set (miss := skipn (Z.to_nat (r - frames_size fs)) (frame_image be32 f)).
  assert (Ef : frame_image be32 f = B ++ miss) by (symmetry; apply firstn_skipn).
  assert (Zb : zlen B = r - frames_size fs) by (unfold B, zlen in *; rewrite firstn_length; lia).
  clearbody B miss. clear Zt Tb.
  set (front := lit "ID3" ++ [x03; mi; fl] ++ size_bytes n ++ images be32 fs ++ B).
  set (tail := miss ++ images be32 fs2 ++ zeros (n - frames_size (fs ++ f :: fs2)) ++ s).
  assert (Q : content = front ++ tail).
  { unfold content, big_bytes, front, tail. rewrite images_all, images_cons, Ef, <- !app_assoc. reflexivity. }
  assert (Zf : zlen front = 10 + r).
  { unfold front. rewrite !zlen_app, images_zlen, Zb by (auto; reflexivity).
    change (zlen (lit "ID3")) with 3. change (zlen [x03; mi; fl]) with 3. change (zlen (size_bytes n)) with 4. lia. }
  rewrite Q in F. rewrite firstn_app_exact in F by (unfold zlen in Zf; lia). rewrite app_length in F.
  replace (Z.to_nat (10 + r) - _)%nat with O in F by (unfold zlen in Zf; lia).
  assert (Sv : synchsafe_value (size_bytes n) = r) by (apply size_bytes_value; lia).
  assert (No : forall gs fin, ~ frames_read 3 r 0 10 (images be32 fs ++ B) gs fin).
  { intros gs fin. apply (no_frame_there f B miss); [exact Kf|exact Ef|now rewrite Zb|exact R| |lia].
    rewrite Zb. change (2 ^ 31) with 2147483648. change (2 ^ 29) with 536870912 in M. lia. }
  assert (Lz : length (size_bytes n) = 4%nat) by reflexivity.
  clear Q Tl Ef Zb Zf. clearbody content tail. subst front. set (z := size_bytes n) in *. clearbody z.
  inversion F as [Hn|tl Ht Hv _|mj mi' fl' sz body fs' fin Hl Ls Kv Hx Hf|mj mi' fl' sz ext body fs' fin Hl Ls Le Kv Hx]; subst.
  - apply (Hn [] ([x03; mi; fl] ++ z ++ images be32 fs ++ B)). now rewrite app_nil_r.
  - apply app_inv_head in Ht. subst tl. cbn [app] in Hv. discriminate Hv.
  - apply app_inv_head in Hl.
    apply (app_split [x03; mi; fl] _ [mj; mi'; fl'] _ eq_refl) in Hl as (Hh & Hl). injection Hh as <- <- <-.
    apply app_split in Hl as (<- & <-); [|lia]. rewrite Sv in Hf. now apply No in Hf.
  - apply app_inv_head in Hl.
    apply (app_split [x03; mi; fl] _ [mj; mi'; fl'] _ eq_refl) in Hl as (Hh & Hl). injection Hh as <- <- <-. congruence.
Qed.

(** ** As calls *)

Lemma read_between mi fl n fs fs2 s :
  has_extended_header fl = false -> Forall (fun f => frame_ok f = true /\ readable f = true) fs -> oks fs2 ->
  frames_size (fs ++ fs2) <= n -> n + 10 < 2 ^ 31 ->
  let r := n mod 2 ^ 29 in
  frames_size fs <= r <= frames_size fs + 10 ->
  exists t, ID3v2_read_tag (Some (big_bytes x03 mi fl n (fs ++ fs2) ++ s)) = Ok (Some t)
    /\ t_header t = mkTH (lit "ID3") x03 mi fl r 0 /\ tag_has t (map frame_of fs) /\ t_padding t = r - frames_size fs.
Proof. intros. now apply read_seen, big_between. Qed.

Lemma read_within mi fl n fs f fs2 s :
  has_extended_header fl = false -> Forall (fun f => frame_ok f = true /\ readable f = true) fs ->
  frame_ok f = true -> oks fs2 ->
  frames_size (fs ++ f :: fs2) <= n -> n + 10 < 2 ^ 31 ->
  let r := n mod 2 ^ 29 in
  let known := r - frames_size fs - part_before f in
  10 + frames_size fs < r -> 0 <= known < part_length f ->
  (exists t, ID3v2_read_tag (Some (big_bytes x03 mi fl n (fs ++ f :: fs2) ++ s)) = Ok (Some t)
    /\ t_header t = mkTH (lit "ID3") x03 mi fl r 0 /\ tag_has t (map frame_of fs ++ [cut_short known f]) /\ t_padding t = 0)
  /\ exists u, run_session [] (Some (big_bytes x03 mi fl n (fs ++ f :: fs2) ++ s)) = Ub u.
Proof. intros. split; [now apply read_seen, big_within|now apply big_torn]. Qed.

Lemma ends_somewhere r all : oks all -> 0 <= r < frames_size all ->
  exists fs f fs2, all = fs ++ f :: fs2
    /\ (frames_size fs <= r <= frames_size fs + 10
        \/ (10 + frames_size fs < r /\ in_text f (r - frames_size fs))
        \/ (10 + frames_size fs < r /\ 0 <= r - frames_size fs - part_before f < part_length f)).
Proof.
  revert r. induction all as [|f all IH]; intros r K H; [change (frames_size []) with 0 in H; lia|].
  rewrite frames_size_cons in H. inversion K as [|? ? Kf K']; subst.
  destruct (Z.lt_ge_cases r (10 + body_size f)) as [L|L].
  - exists [], f, all. split; [reflexivity|]. change (frames_size []) with 0.
    destruct (Z.le_gt_cases r 10) as [L'|L']; [left; lia|right].
    destruct f as [id flg t|flg lang d c|flg m ty d pic|id flg body]; cbn [in_text part_before part_length].
    + left. lia.
    + left. lia.
    + rewrite body_size_picture in L.
      destruct (Z.lt_ge_cases r (12 + zlen (text_image m) + zlen (text_image d))); [left|right]; lia.
    + rewrite body_size_other in L. right. lia.
  - destruct (IH (r - (10 + body_size f)) K') as (fs & g & fs2 & -> & C); [lia|].
    exists (f :: fs), g, fs2. split; [reflexivity|]. rewrite frames_size_cons.
    replace (r - (10 + body_size f + frames_size fs)) with (r - (10 + body_size f) - frames_size fs) by lia.
    destruct C as [C|[(C1 & C2)|(C1 & C2)]]; [left; lia|right; left; split; [lia|exact C2]|right; right; split; lia].
Qed.
