(** The same with the version 1 interface: load, set, save, load. *)
From Verif Require Import BaseFacts UtilsFacts StreamFacts FrameFacts HeaderFacts TagFacts.
From Verif Require Import File Calls Spec SpecEdit SpecFile ListFacts EditFacts WriteFacts HistFacts ClaimFacts RoundFacts FileFacts.
From Verif Require Import Compat SpecCompat SpecSession CompatFacts SessionFacts.
From Coq Require Import Lia ZifyBool ZifyNat.

Lemma set_inner ccs : forall c fs gs fs',
  mirrors c fs -> Forall2 cmeans ccs gs -> put_frames gs fs = Some fs' ->
  exists c' cs, run_ccalls ccs c = Ok c' /\ mirrors c' fs' /\ ct_header c' = ct_header c
    /\ Forall2 means cs (map Put gs) /\ run_calls (ct_tag c) cs = Ok (ct_tag c').
Proof.
  induction ccs as [|cc ccs IH]; intros c fs gs fs' M F P; inversion F as [|? g ? gs' C F']; subst.
  - injection P as <-. exists c, []. cbn. auto.
  - cbn [put_frames] in P. destruct (frame_ok g && existsb (has_id (frame_id g)) fs) eqn:E; [|discriminate P].
    apply andb_true_iff in E. destruct E as (K & E).
    destruct M as (afs & M & <-). rewrite has_phas in E. pose proof (set_mirrored c afs cc g M C K) as H. rewrite E in H.
    destruct H as (c1 & R & M1 & _ & Hh & Rc).
    assert (Ms : mirrors c1 (put_frame g (map snd afs))).
    { eexists. split; [exact M1|]. unfold put_frame. apply map_snd_put. }
    destruct (IH c1 _ _ _ Ms F' P) as (c2 & cs & R2 & M2 & Hh2 & Fm & Rc2).
    exists c2, (call_of cc g :: cs). cbn [run_ccalls run_calls map]. rewrite R, Rc. cbn [bind].
    split; [exact R2|]. split; [exact M2|]. split; [congruence|]. split; [|exact Rc2].
    constructor; [now apply cmeans_means|exact Fm].
Qed.

Lemma puts_proper gs : forall fs fs' pad, put_frames gs fs = Some fs' ->
  all_proper (map Put gs) fs = true /\ edited (map Put gs) fs = fs' /\ room_left (map Put gs) fs pad = pad.
Proof.
  induction gs as [|g gs IH]; intros fs fs' pad P; cbn [put_frames map all_proper edited room_left] in *.
  - injection P as ->. auto.
  - destruct (frame_ok g) eqn:K; [|discriminate P]. destruct (existsb (has_id (frame_id g)) fs) eqn:E; [|discriminate P].
    cbn [andb] in P. destruct (IH _ _ pad P) as (A & B & C). cbn [room_change edited_once].
    assert (E' : existsb (titled (frame_id g)) fs = true) by exact E. rewrite E', Z.add_0_r.
    unfold proper. cbn [edit_ok]. rewrite K. auto.
Qed.

Lemma put_frames_none ccs : forall c fs gs,
  mirrors c fs -> Forall2 cmeans ccs gs -> forallb frame_ok gs = true -> put_frames gs fs = None ->
  run_ccalls ccs c = Ub NullDeref.
Proof.
  induction ccs as [|cc ccs IH]; intros c fs gs M F K P; inversion F as [|? g ? gs' C F']; subst; [discriminate P|].
  cbn [forallb put_frames] in *. apply andb_true_iff in K. destruct K as (K & Ks). rewrite K in P. cbn [andb] in P.
  destruct (existsb (has_id (frame_id g)) fs) eqn:E; cbn [run_ccalls].
  - destruct (set_ok c fs cc g M C K E) as (c1 & -> & M1 & _). cbn [bind]. eauto.
  - now rewrite (set_absent c fs cc g M C K E).
Qed.

Lemma put_frames_some gs : forall fs fs', fs <> [] -> put_frames gs fs = Some fs' -> fs' <> [].
Proof.
  induction gs as [|g gs IH]; intros fs fs' Ne P; cbn [put_frames] in P; [congruence|].
  destruct (frame_ok g && existsb (has_id (frame_id g)) fs); [|discriminate P].
  eapply IH; [|exact P]. apply put_not_nil.
Qed.

Lemma session_v1 major minor flags fs pad sound ccs gs :
  known_version major = true -> has_extended_header flags = false ->
  Forall (fun f => frame_ok f = true /\ readable f = true) fs -> fs <> [] ->
  0 <= pad -> frames_size fs + pad < 2 ^ 28 ->
  Forall2 cmeans ccs gs -> forallb frame_ok gs = true ->
  let content := tagged_file major minor flags fs pad sound in
  exists c, load_tag (Some content) = Ok c /\ mirrors c fs
    /\ ct_header c = compat_header major minor flags (frames_size fs + pad)
    /\ match put_frames gs fs with
       | None => run_ccalls ccs c = Ub NullDeref
       | Some fs' =>
           let n := frames_size fs' + pad in
           exists c', run_ccalls ccs c = Ok c' /\ mirrors c' fs' /\ ct_header c' = ct_header c
           /\ (n < 2 ^ 28 ->
               exists c'', set_tag (Some content) (Some c') = Ok (Some (tag_bytes major minor flags n fs' ++ sound), c'')
               /\ mirrors c'' fs'
               /\ (Forall (fun f => survives major f = true) fs' ->
                   exists c2, load_tag (Some (tag_bytes major minor flags n fs' ++ sound)) = Ok c2 /\ mirrors c2 fs'
                     /\ ct_header c2 = compat_header major minor flags n))
       end.
Proof.
  intros V X K Ne P B F Kg content. pose proof (frames_size_nonneg fs).
  assert (Ko : oks fs) by (eapply Forall_impl; [|exact K]; cbn beta; intros ? (? & _); assumption).
  destruct (tagged_read major minor flags fs pad sound V X K P B) as (t & Et & Ht & Tt & Pt). fold content in Et.
  pose proof (load_file_gen (Some content) t fs Et Tt Ko) as G. destruct fs as [|f0 fs0]; [congruence|].
  set (fs := f0 :: fs0) in *. destruct G as (c & Ec & Hc & Mc & Hh).
  exists c. split; [exact Ec|]. split; [exact Mc|]. split.
  { rewrite Hh, Ht. cbn [th_identifier th_major th_minor th_flags th_tag_size th_ext_size]. unfold compat_header.
    change (2 ^ 28) with 268435456 in B. rewrite to_i32_id by (change (2 ^ 31) with 2147483648; lia). reflexivity. }
  destruct (put_frames gs fs) as [fs'|] eqn:E; [|now apply (put_frames_none ccs c fs gs)].
  destruct (set_inner ccs c fs gs fs' Mc F E) as (c' & cs & R & M' & Hh' & Fm & Rc).
  exists c'. split; [exact R|]. split; [exact M'|]. split; [exact Hh'|]. intros N.
  destruct (puts_proper gs fs fs' pad E) as (A & Ed & Rl). pose proof (frames_size_nonneg fs').
  destruct (session major minor flags fs pad sound cs (map Put gs) V X K P B Fm A) as (t0 & t' & E0 & R' & W).
  { rewrite Ed, Rl. change (2 ^ 31) with 2147483648. lia. }
  fold content in E0, W. rewrite Et in E0. injection E0 as <-. rewrite Hc in Rc. rewrite Rc in R'. injection R' as <-.
  rewrite Rl, Ed in W. replace (0 <=? pad) with true in W by lia. 
  eexists. unfold set_tag. cbn [deref bind]. rewrite W. cbn [bind deref]. split; [reflexivity|]. split.
  - destruct M' as (afs & (Hl & Hcf & D & Bf & Kf) & Hs). exists afs. split; [|exact Hs].
    split; [exact Hl|]. split; [exact Hcf|]. split; [exact D|]. split; [exact Bf|exact Kf].
  - intros Sv. destruct (file_read_back major minor flags (frames_size fs' + pad) fs' sound V X Sv) as (t2 & E2 & H2 & T2 & _); try lia.
    destruct (mirrors_has c' fs' M') as (_ & Ko').
    pose proof (load_file_gen _ t2 fs' E2 T2 Ko') as G. destruct fs' as [|f1 fs1].
    + destruct gs as [|g gs]; [discriminate E|]. exfalso. eapply put_frames_some; eauto.
    + destruct G as (c2 & G & _ & Gm & Gh). exists c2. split; [exact G|]. split; [exact Gm|].
      rewrite Gh, H2. cbn [th_identifier th_major th_minor th_flags th_tag_size th_ext_size]. unfold compat_header.
      change (2 ^ 28) with 268435456 in N. rewrite to_i32_id by (change (2 ^ 31) with 2147483648; lia). reflexivity.
Qed.
