(** The stack that is needed to read tags of 2^29 bytes and more: C97. *)
From Verif Require Import File Calls Spec SpecEdit SpecFile SpecRead SpecSession SpecRewrite SpecBig SpecBigRead Platform SpecPlatform.
From Verif Require Import BaseFacts UtilsFacts FrameFacts StreamFacts ParseFacts ListFacts TagFacts WriteFacts FileFacts.
From Verif Require Import HistFacts EditFacts ClaimFacts RoundFacts SessionFacts ReadFacts RewriteFacts CutFacts BigFacts BigReadFacts PlatformFacts.
From Verif Require Import SpecPlatform.
From Coq Require Import Lia ZifyBool ZifyNat.

Lemma need_before ver limit B m ss : forall pos, oks ss -> Forall shown ss ->
  Forall (fun s => declared_size ver (be32 (body_size s)) = body_size s \/ is_comment s = true) ss ->
  reached limit pos ss -> frames_need ver limit 0 (pos + frames_size ss) B m ->
  frames_need ver limit 0 pos (images be32 ss ++ B) (Z.max (arrays_bytes ss) m).
Proof.
  induction ss as [|s ss IH]; intros pos K Sh D R F.
  - change (frames_size []) with 0 in F. rewrite Z.add_0_r in F. pose proof (frames_need_nonneg _ _ _ _ _ _ F).
    cbn [arrays_bytes fold_right images flat_map app]. now rewrite Z.max_r.
  - inversion K; inversion Sh; inversion D; subst. destruct R as (R1 & R2).
    rewrite images_cons, <- app_assoc, frames_size_cons in *.
    change (arrays_bytes (s :: ss)) with (Z.max (array_bytes s) (arrays_bytes ss)). rewrite <- Z.max_assoc.
    rewrite <- image_need by auto.
    apply NeedFrame with (f := frame_of s); [exact R1|now apply frame_again|].
    cbn [Nat.min]. change (Z.of_nat 0) with 0. rewrite Z.add_0_r. cbn [Nat.sub].
    rewrite frame_image_length by auto. rewrite (Z.add_comm (body_size s) 10). apply IH; auto.
    now replace (pos + (10 + body_size s) + frames_size ss) with (pos + (10 + body_size s + frames_size ss)) by lia.
Qed.

Lemma big_need mi fl n all fs B rest s m :
  has_extended_header fl = false -> oks all -> frames_size all <= n -> 0 <= n -> n + 10 < 2 ^ 31 ->
  Forall (fun f => frame_ok f = true /\ readable f = true) fs ->
  let r := n mod 2 ^ 29 in
  images be32 all ++ zeros (n - frames_size all) ++ s = images be32 fs ++ B ++ rest ->
  frames_size fs <= r -> zlen B = r - frames_size fs ->
  frames_need 3 r 0 (10 + frames_size fs) B m ->
  file_need (big_bytes x03 mi fl n all ++ s) (Z.max (arrays_bytes fs) m).
Proof.
  intros X Ka L N Bn R r E Lr Zb F.
  assert (M : 0 <= r < 2 ^ 29) by (unfold r; apply Z.mod_pos_bound; reflexivity).
  assert (K : oks fs) by (eapply Forall_impl; [|exact R]; intros f [A _]; exact A).
  assert (Rd : Forall (fun f => readable f = true) fs) by (eapply Forall_impl; [|exact R]; intros f [_ A]; exact A).
  destruct (big_file x03 mi fl n all s eq_refl X Ka L Bn) as (P & T & _ & _). fold r in T.
  unfold file_need. rewrite T.
  set (front := lit "ID3" ++ [x03; mi; fl] ++ size_bytes n ++ images be32 fs ++ B).
  assert (Q : big_bytes x03 mi fl n all ++ s = front ++ rest).
  { unfold big_bytes, front. rewrite <- !app_assoc. do 3 f_equal. exact E. }
  assert (Zf : zlen front = 10 + r).
  { unfold front. rewrite !zlen_app, images_zlen, Zb by (auto; reflexivity).
    change (zlen (lit "ID3")) with 3. change (zlen [x03; mi; fl]) with 3. change (zlen (size_bytes n)) with 4. lia. }
  rewrite Q. rewrite firstn_app_exact by (unfold zlen in Zf; lia). rewrite app_length.
  replace (Z.to_nat (10 + r) - _)%nat with O by (unfold zlen in Zf; lia).
  assert (Sv : synchsafe_value (size_bytes n) = r) by (apply size_bytes_value; lia).
  apply NeedPlain with (major := x03) (minor := mi) (flags := fl) (size := size_bytes n) (body := images be32 fs ++ B); auto.
  rewrite Sv. apply need_before; auto.
  - eapply Forall_impl; [|exact Rd]. intros f. apply readable_shown.
  - eapply Forall_impl; [|exact K]. intros f Kf. left. pose proof (frame_ok_common _ Kf) as (_ & _ & Bs).
    pose proof (body_size_nonneg f). apply declared_be32; [discriminate|lia].
  - apply reached_readable; [exact Rd|lia].
Qed.

Lemma within_need f B rest gap : frame_ok f = true -> frame_image be32 f = B ++ rest ->
  match f with FPicture _ _ _ _ _ => True | FOther _ _ _ => True | _ => False end -> 4 <= zlen B ->
  zlen B + Z.of_nat gap = 10 + body_size f -> stack_need B gap = array_bytes f.
Proof.
  intros K E Hf Z4 Zb. pose proof (frame_ok_common _ K) as (Hi & _). pose proof (frame_ok_kind _ K) as Hk.
  assert (Es : forall c, id_starts B c = id_starts (frame_id f) c).
  { intros c. destruct (frame_id f) as [|a l] eqn:Ei; [discriminate Hi|]. destruct B as [|b B]; [cbv in Z4; congruence|].
    unfold frame_image in E. rewrite Ei in E. injection E as -> _. reflexivity. }
  unfold stack_need. rewrite !Es. destruct f as [id flg t|flg lang d c|flg m ty d pic|id flg body]; try contradiction.
  - cbn [frame_id]. change (id_starts (lit "APIC") "T") with false. change (id_starts (lit "APIC") "C") with false.
    change (id_starts (lit "APIC") "A") with true. cbn [array_bytes]. rewrite body_size_picture in Zb. lia.
  - cbn [frame_id]. destruct Hk as (-> & -> & -> & _). reflexivity.
Qed.

Lemma arrays_bytes_app fs1 fs2 : arrays_bytes (fs1 ++ fs2) = Z.max (arrays_bytes fs1) (arrays_bytes fs2).
Proof.
  assert (N : forall fs, 0 <= arrays_bytes fs) by (induction fs as [|f fs IH]; [reflexivity|]; cbn [arrays_bytes fold_right]; fold (arrays_bytes fs); lia).
  induction fs1 as [|f fs1 IH]; [symmetry; apply Z.max_r, N|].
  cbn [app arrays_bytes fold_right]. fold (arrays_bytes (fs1 ++ fs2)) (arrays_bytes fs1). rewrite IH. lia.
Qed.

Lemma stack_within P mi fl n fs f fs2 s :
  has_extended_header fl = false -> Forall (fun f => frame_ok f = true /\ readable f = true) fs ->
  frame_ok f = true -> oks fs2 ->
  frames_size (fs ++ f :: fs2) <= n -> n + 10 < 2 ^ 31 ->
  let r := n mod 2 ^ 29 in
  let known := r - frames_size fs - part_before f in
  10 + frames_size fs < r -> 0 <= known < part_length f ->
  let content := big_bytes x03 mi fl n (fs ++ f :: fs2) ++ s in
  ID3v2_read_tag_on P (Some content)
  = if holds P (arrays_bytes (fs ++ [f])) then ID3v2_read_tag (Some content) else Ub StackOverflow.
Proof.
  intros X R Kf K2 L Bn r known Lo Hk content. pose proof (frames_size_nonneg (fs ++ f :: fs2)).
  pose proof (frames_size_nonneg fs) as N1.
  set (tail := images be32 fs2 ++ zeros (n - frames_size (fs ++ f :: fs2)) ++ s).
  destruct (within_frame f known Kf Hk) as (B & rest & gap & Ef & Zb & Fr & Zg).
  assert (K1 : oks fs) by (eapply Forall_impl; [|exact R]; intros g [A _]; exact A).
  assert (Ka : oks (fs ++ f :: fs2)) by (apply Forall_app; split; [exact K1|now constructor]).
  destruct (big_file x03 mi fl n (fs ++ f :: fs2) s eq_refl X Ka L Bn) as (Xc & _).
  assert (Hs : stack_need B gap = array_bytes f).
  { apply within_need with (rest := rest); auto.
    - destruct f; cbn [part_length] in Hk; try lia; exact I.
    - rewrite Zb. destruct f; cbn [part_before]; try lia.
      pose proof (zlen_nonneg (text_image mime)). pose proof (zlen_nonneg (text_image desc)). lia.
    - destruct f; cbn [part_before part_length] in *; try lia.
      + rewrite body_size_picture. lia.
      + rewrite body_size_other. lia. }
  assert (N : file_need content (arrays_bytes (fs ++ [f]))).
  { rewrite arrays_bytes_app. change (arrays_bytes [f]) with (Z.max (array_bytes f) 0). rewrite <- Hs.
    apply big_need with (B := B) (rest := rest ++ tail); auto; try (unfold known in *; fold r; lia).
    - rewrite images_all, images_cons, Ef, <- !app_assoc. reflexivity.
    - fold r. rewrite <- (app_nil_r B) at 1. apply NeedFrame with (f := cut_short known f); [lia|exact Fr|].
      rewrite Nat.min_0_r. change (Z.of_nat 0) with 0. cbn [Nat.sub].
      replace (10 + frames_size fs + zlen B + 0) with (10 + r) by (unfold known in *; lia). apply NeedEnd. lia. }
  destruct (file_need_on P content _ Xc N) as (-> & _). apply unless_if.
Qed.
