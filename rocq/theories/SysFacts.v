(** What the functions of Stdio.v do to the system. *)
From Coq Require Import Lia.
From Verif Require Import FileFacts SpecStdio StdioFacts.
Local Open Scope nat_scope.

(** ** The files with names *)
Definition quiet (s s' : sys) : Prop :=
  (forall m, s_disk s' (Named m) = s_disk s (Named m)) /\
  exists l, since s s' l /\ forall d, In d l -> forall m, d (Named m) = s_disk s (Named m).

Lemma quiet_trans s s1 s2 : quiet s s1 -> quiet s1 s2 -> quiet s s2.
Proof.
  intros (A & l & B & C) (A' & l' & B' & C'). split; [intros m; now rewrite A'|].
  exists (l' ++ l). unfold since in *. split; [now rewrite B', B, app_assoc|].
  intros d I m. apply in_app_or in I as [I|I]; [now rewrite C', A|auto].
Qed.
Lemma quiet_untouched s s' : untouched s s' -> quiet s s'.
Proof. intros [A B]. split; auto. exists []. split; [exact B|intros d []]. Qed.
Lemma quiet_refl s : quiet s s.
Proof. apply quiet_untouched, untouched_refl. Qed.
Lemma quiet_longer k s s' : longer (Temp k) s s' -> quiet s s'.
Proof.
  intros (c & x & A & B & C & l & D & E). split; [intros m; apply C; congruence|].
  exists l. split; [exact D|]. intros d I m. rewrite Forall_forall in E. apply (E d I). congruence.
Qed.
Lemma quiet_step k s s' : (forall u, u <> Temp k -> s_disk s' u = s_disk s u) ->
  s_log s' = s_disk s' :: s_log s -> quiet s s'.
Proof.
  intros V L. split; [intros m; apply V; congruence|]. exists [s_disk s']. split; [exact L|].
  intros d [<-|[]] m. apply V; congruence.
Qed.

(** The named file has become longer, the others have not changed. *)
Definition building (n : list byte) (s s' : sys) : Prop :=
  exists c x, s_disk s (Named n) = Some c /\ s_disk s' (Named n) = Some (c ++ x) /\
  (forall m, m <> n -> s_disk s' (Named m) = s_disk s (Named m)) /\
  exists l, since s s' l /\ forall d, In d l ->
    (forall m, m <> n -> d (Named m) = s_disk s (Named m)) /\
    exists y z, d (Named n) = Some (c ++ y) /\ x = y ++ z.

Lemma building_trans n s s1 s2 : building n s s1 -> building n s1 s2 -> building n s s2.
Proof.
  intros (c & x & A & B & C & l & D & E) (c' & x' & A' & B' & C' & l' & D' & E').
  assert (c' = c ++ x) by congruence. subst c'.
  exists c, (x ++ x'). cj; auto.
  - now rewrite app_assoc.
  - intros m N. rewrite C', C; auto.
  - exists (l' ++ l). unfold since in *. split; [now rewrite D', D, app_assoc|].
    intros d I. apply in_app_or in I as [I|I].
    + destruct (E' d I) as (P & y & z & Q & ->). split; [intros m N; rewrite P, C; auto|].
      exists (x ++ y), z. rewrite Q, !app_assoc. auto.
    + destruct (E d I) as (P & y & z & Q & ->). split; auto. exists y, (z ++ x'). rewrite app_assoc. auto.
Qed.
Lemma building_quiet n s s' : s_disk s (Named n) <> None -> quiet s s' -> building n s s'.
Proof.
  intros N (A & l & B & C). destruct (s_disk s (Named n)) as [c|] eqn:E; [|congruence].
  exists c, []. cj; auto.
  - rewrite A, app_nil_r; auto.
  - exists l. split; auto. intros d I. split; [auto|]. exists [], []. rewrite app_nil_r, C; auto.
Qed.
Lemma building_longer n s s' : longer (Named n) s s' -> building n s s'.
Proof.
  intros (c & x & A & B & C & l & D & E). exists c, x. cj; auto.
  - intros m N. apply C. congruence.
  - exists l. split; [exact D|]. intros d I. rewrite Forall_forall in E.
    destruct (E d I) as (P & y & z & Q & R). split; [intros m N; apply P; congruence|eauto].
Qed.
Lemma building_some n s s' : building n s s' -> s_disk s' (Named n) <> None.
Proof. intros (c & x & _ & -> & _). congruence. Qed.

Lemma careful_quiet n s s' : quiet s s' -> careful n s s'.
Proof.
  intros (A & l & B & C). exists l. split; auto. intros d [<-|I]; split; auto.
Qed.

(** Nothing to begin with, then the file is emptied, then it is filled. *)
Lemma careful_build n s s1 s2 s3 : quiet s s1 ->
  s_disk s2 (Named n) = Some [] -> (forall u, u <> Named n -> s_disk s2 u = s_disk s1 u) ->
  s_log s2 = s_disk s2 :: s_log s1 -> building n s2 s3 -> careful n s s3.
Proof.
  intros (A & l & B & C) D V L (c & x & A' & B' & C' & l' & D' & E').
  assert (c = []) by congruence. subst c. cbn [app] in *.
  exists (l' ++ s_disk s2 :: l). unfold since in *. split.
  - rewrite D', L, B, <- app_assoc. reflexivity.
  - intros d [<-|I].
    + split.
      * intros m N. rewrite C', V, A; auto; congruence.
      * right. exists x, []. rewrite app_nil_r. auto.
    + apply in_app_or in I as [I|[<-|I]].
      * destruct (E' d I) as (P & y & z & Q & ->). split.
        -- intros m N. rewrite P, V, A; auto; congruence.
        -- right. exists y, z. auto.
      * split; [intros m N; rewrite V, A; auto; congruence|]. right. exists [], x. auto.
      * split; auto.
Qed.

(** ** Streams and temporary files, but for one *)
Definition apart (K : list nat) (s s' : sys) : Prop :=
  (forall j, ~ In j K -> s_open s' j = s_open s j /\ s_disk s' (Temp j) = s_disk s (Temp j)) /\
  s_next s <= s_next s' /\ later s s'.

Lemma later_trans s s1 s2 : later s s1 -> later s1 s2 -> later s s2.
Proof. intros [l A] [l' B]. exists (l ++ l'). now rewrite A, B, app_assoc. Qed.
Lemma apart_refl K s : apart K s s.
Proof. split; [auto|split; auto]. exists []; auto. Qed.
Lemma apart_trans K s s1 s2 : apart K s s1 -> apart K s1 s2 -> apart K s s2.
Proof.
  intros (A & B & C) (A' & B' & C'). split; [|split; [lia|eapply later_trans; eauto]].
  intros j N. destruct (A j N), (A' j N). split; congruence.
Qed.
Lemma apart_sub K L s s' : incl K L -> apart K s s' -> apart L s s'.
Proof. intros I (A & B). split; auto. Qed.
Lemma apart_run K s s' : run K s s' -> (forall j, ~ In j K -> s_disk s' (Temp j) = s_disk s (Temp j)) -> apart K s s'.
Proof. intros (A & B & C) D. split; [auto|split; auto]. lia. Qed.
Lemma apart_idle K s s' : run K s s' -> untouched s s' -> apart K s s'.
Proof. intros R U. apply apart_run; auto. intros j _. now apply untouched_disk. Qed.
Lemma apart_opened k t s s' : opened k t s s' -> (forall j, j <> k -> s_disk s' (Temp j) = s_disk s (Temp j)) -> apart [k] s s'.
Proof.
  intros (A & -> & B & C & D) V. split; [|split; [lia|auto]]. intros j N. cbn [In] in N. split; [apply D|apply V]; intuition congruence.
Qed.
Lemma apart_calm K s s' : apart K s s' -> calm s -> calm s'.
Proof. intros (_ & _ & L). now apply later_calm. Qed.
Lemma apart_open K s s' j : apart K s s' -> ~ In j K -> s_open s' j = s_open s j.
Proof. intros (A & _) N. now apply A. Qed.
Lemma apart_temp K s s' j : apart K s s' -> ~ In j K -> s_disk s' (Temp j) = s_disk s (Temp j).
Proof. intros (A & _) N. now apply A. Qed.

(** A stream that was not there and is not there. *)
Lemma apart_done k K s s' : apart (k :: K) s s' -> s_open s' k = s_open s k ->
  s_disk s' (Temp k) = s_disk s (Temp k) -> apart K s s'.
Proof.
  intros (A & B) O D. split; auto. intros j N. destruct (Nat.eq_dec j k) as [->|M]; [auto|].
  apply A. cbn [In]. intuition congruence.
Qed.
Lemma apart_tidy s s' : sound s -> apart [] s s' -> tidy s s'.
Proof.
  intros S A. pose proof A as (B & C & D). unfold tidy. cj.
  - intros k. now apply B.
  - intros k. now apply B.
  - intros k L. destruct (B k (fun x => x)) as [-> ->]. apply S. lia.
  - now apply later_calm.
Qed.
Lemma apart_sound s s' : sound s -> apart [] s s' -> sound s'.
Proof. intros S A. now apply (apart_tidy s s'). Qed.

(** ** Reading *)
Lemma read_header_idle n s : sound s ->
  exists s' f, ID3v2_read_tag_header_s n s = (ID3v2_read_tag_header f, s') /\ untouched s s' /\ apart [] s s' /\
  (f = None \/ exists c j, s_disk s (Named n) = Some c /\ f = Some (firstn j c)) /\
  (calm s -> ID3v2_read_tag_header f = ID3v2_read_tag_header (s_disk s (Named n))).
Proof.
  intros S. unfold ID3v2_read_tag_header_s.
  destruct (fopen_existing_ok n s) as (s1 & o & E1 & U1 & H). rewrite (bind_ok _ _ _ _ _ E1).
  destruct o as [k|].
  - destruct H as (O1 & c & D). pose proof O1 as (R1 & K1 & N1 & _).
    assert (D1 : s_disk s1 (Named n) = Some c) by (rewrite (untouched_disk s s1); auto).
    destruct (fread_ok (Z.to_nat ID3v2_TAG_HEADER_LENGTH) k _ 0 c s1 R1 D1) as (s2 & j & p & E2 & J & U2 & R2 & O2 & C2).
    rewrite (bind_ok _ _ _ _ _ E2).
    destruct (fclose_read k n p s2 O2) as (s3 & E3 & U3 & R3 & O3). rewrite (bind_ok _ _ _ _ _ E3).
    cbn [skipn] in *.
    assert (A : apart [k] s s3).
    { eapply apart_trans; [eapply apart_opened; [exact O1|intros; now apply untouched_disk]|].
      eapply apart_trans; apply apart_idle; eauto. }
    assert (U : untouched s s3) by (eapply untouched_trans, U3; eapply untouched_trans; eauto).
    exists s3, (Some (firstn j c)). cj; auto.
    + unfold ID3v2_read_tag_header. rewrite firstn_firstn, Nat.min_r by auto.
      destruct (zlen (firstn j c) <? ID3v2_TAG_HEADER_LENGTH)%Z; reflexivity.
    + apply (apart_done k); auto; [|now apply untouched_disk].
      rewrite O3. symmetry. apply S. lia.
    + right. eauto.
    + intros C. rewrite D. unfold ID3v2_read_tag_header. rewrite firstn_firstn, Nat.min_r by auto.
      rewrite C2; auto. destruct O1 as (_ & _ & _ & L & _). eapply later_calm; eauto.
  - destruct H as (R & C). exists s1, None. cj; auto.
    + now apply apart_idle.
    + intros Cs. now rewrite C.
Qed.

Lemma buffer_whole c n : buffer_of (firstn (Z.to_nat n) c) n = fread_into c n.
Proof. unfold buffer_of, fread_into, cells. now rewrite map_length. Qed.

(** Opening a file, reading from its start, and closing it. *)
Lemma read_whole n (m : nat) s k s1 c : sound s -> opened k (Named n) s s1 -> untouched s s1 ->
  s_disk s (Named n) = Some c ->
  exists s' j, (forall A (f : list byte -> io A), bindio (fread m (Some k)) (fun l => bindio (fclose (Some k)) (fun _ => f l)) s1
     = f (firstn j c) s') /\ untouched s s' /\ apart [] s s' /\ (calm s -> firstn j c = firstn m c).
Proof.
  intros S O1 U1 D. pose proof O1 as (R1 & K1 & N1 & L1 & _).
  assert (D1 : s_disk s1 (Named n) = Some c) by (rewrite (untouched_disk s s1); auto).
  destruct (fread_ok m k _ 0 c s1 R1 D1) as (s2 & j & p & E2 & J & U2 & R2 & O2 & C2).
  destruct (fclose_read k n p s2 O2) as (s3 & E3 & U3 & R3 & O3).
  cbn [skipn] in *.
  assert (U : untouched s s3) by (eapply untouched_trans, U3; eapply untouched_trans; eauto).
  exists s3, j. cj; auto.
  - intros A f. now rewrite (bind_ok _ _ _ _ _ E2), (bind_ok _ _ _ _ _ E3).
  - apply (apart_done k); auto; [|rewrite O3; symmetry; apply S; lia|now apply untouched_disk].
    eapply apart_trans; [eapply apart_opened; [exact O1|intros; now apply untouched_disk]|].
    eapply apart_trans; apply apart_idle; eauto.
  - intros C. apply C2. eapply later_calm; eauto.
Qed.

(** A header that is seen is the header of the file. *)
Lemma header_cut c j h : ID3v2_read_tag_header (Some (firstn j c)) = Ok (Some h) ->
  ID3v2_read_tag_header (Some c) = Ok (Some h).
Proof.
  intros E. assert (L : 10 <= length (firstn j c)).
  { unfold ID3v2_read_tag_header in E.
    destruct (Z.ltb_spec (zlen (firstn (Z.to_nat ID3v2_TAG_HEADER_LENGTH) (firstn j c))) ID3v2_TAG_HEADER_LENGTH);
      [discriminate E|].
    unfold zlen, ID3v2_TAG_HEADER_LENGTH in *. rewrite firstn_length in H. lia. }
  rewrite <- E, <- (firstn_skipn j c) at 1. now apply header_prefix.
Qed.
Lemma header_seen_is n s f h :
  f = None \/ (exists c j, s_disk s (Named n) = Some c /\ f = Some (firstn j c)) ->
  ID3v2_read_tag_header f = Ok (Some h) -> ID3v2_read_tag_header (s_disk s (Named n)) = Ok (Some h).
Proof. intros [->|(c & j & -> & ->)] E; [discriminate E|]. eapply header_cut; eauto. Qed.

Lemma malloc_ok s : exists b s', malloc_succeeds s = (Ok b, s') /\ run [] s s' /\ untouched s s' /\ (calm s -> b = true).
Proof.
  unfold malloc_succeeds. destruct (ask_ok s) as (a & s1 & E1 & R1 & U1 & C1). rewrite (bind_ok _ _ _ _ _ E1).
  eexists _, _. split; [reflexivity|]. cj; auto. intros C. destruct a as [| |m]; auto. now destruct (C1 C m).
Qed.

Lemma opened_run k t s s1 s2 : opened k t s s1 -> run [] s1 s2 -> opened k t s s2.
Proof.
  intros (A & B & C & D & E) (F & G & H). split; [unfold reading; now rewrite F|].
  split; [auto|split; [congruence|split; [eapply later_trans; eauto|]]]. intros j N. now rewrite F, E.
Qed.

Lemma read_header_s n s : sound s ->
  exists s' f, ID3v2_read_tag_header_s n s = (ID3v2_read_tag_header f, s') /\ untouched s s' /\ tidy s s' /\
  (f = None \/ exists c j, s_disk s (Named n) = Some c /\ f = Some (firstn j c)) /\
  (calm s -> ID3v2_read_tag_header f = ID3v2_read_tag_header (s_disk s (Named n))).
Proof.
  intros S. destruct (read_header_idle n s S) as (s1 & f & E & U & A & F & C).
  exists s1, f. cj; auto. now apply apart_tidy.
Qed.

Lemma read_tag_idle n s : sound s ->
  exists s' o, ID3v2_read_tag_s n s = (o, s') /\ untouched s s' /\ apart [] s s' /\
  (calm s -> o = ID3v2_read_tag (s_disk s (Named n))) /\
  (forall t, o = Ok (Some t) -> exists c h j, s_disk s (Named n) = Some c /\
     ID3v2_read_tag_header (Some c) = Ok (Some h) /\
     ID3v2_read_tag_from_buffer (Some (buffer_of (firstn j c) (declared_length h))) (declared_length h) = Ok (Some t)).
Proof.
  intros S. unfold ID3v2_read_tag_s.
  destruct (read_header_idle n s S) as (s1 & f & E1 & U1 & A1 & F1 & C1).
  assert (S1 : sound s1) by (eapply apart_sound; eauto).
  unfold bindio at 1. rewrite E1. unfold ID3v2_read_tag.
  destruct (ID3v2_read_tag_header f) as [[h|]|u|x|] eqn:Ef.
  2: { exists s1, (Ok None). cj; auto; [|discriminate]. intros C. now rewrite <- C1. }
  2: { exists s1, (Ub u). cj; auto; [|discriminate]. intros C. now rewrite <- C1. }
  2: { exists s1, (Exit x). cj; auto; [|discriminate]. intros C. now rewrite <- C1. }
  2: { exists s1, NoFuel. cj; auto; [|discriminate]. intros C. now rewrite <- C1. }
  assert (Hd : ID3v2_read_tag_header (s_disk s (Named n)) = Ok (Some h)) by (eapply header_seen_is; eauto).
  rewrite Hd. cbn [bind].
  destruct (fopen_existing_ok n s1) as (s2 & o & E2 & U2 & H). rewrite (bind_ok _ _ _ _ _ E2).
  destruct (malloc_ok s2) as (b & s3 & E3 & R3 & U3 & C3). rewrite (bind_ok _ _ _ _ _ E3).
  assert (U03 : untouched s s3) by (eapply untouched_trans, U3; eapply untouched_trans; eauto).
  destruct o as [k|].
  - destruct H as (O2 & c & D). rewrite (untouched_disk s s1) in D by auto. rewrite D in *.
    assert (U13 : untouched s1 s3) by (eapply untouched_trans; eauto).
    assert (O3 : opened k (Named n) s1 s3) by (eapply opened_run; eauto).
    assert (D1 : s_disk s1 (Named n) = Some c) by (rewrite (untouched_disk s s1); auto).
    destruct (read_whole n (Z.to_nat (declared_length h)) s1 k s3 c S1 O3 U13 D1) as (s4 & j & E4 & U4 & A4 & C4).
    destruct b; cbn [negb].
    + rewrite E4. exists s4, (ID3v2_read_tag_from_buffer (Some (buffer_of (firstn j c) (declared_length h))) (declared_length h)).
      cj; auto.
      * eapply untouched_trans; [exact U1|exact U4].
      * eapply apart_trans; [exact A1|exact A4].
      * intros C. rewrite C4 by (eapply apart_calm; eauto). now rewrite buffer_whole.
      * intros t Et. exists c, h, j. auto.
    + pose proof O3 as (R & Kn & _ & L3 & _).
      destruct (fclose_read k n 0 s3 R) as (s5 & E5 & U5 & R5 & O5). rewrite (bind_ok _ _ _ _ _ E5).
      exists s5, (Ok None). cj; auto.
      * eapply untouched_trans; eauto.
      * eapply apart_trans; [exact A1|]. apply (apart_done k).
        -- eapply apart_trans; [eapply apart_opened; [exact O3|intros; now apply untouched_disk]|]. now apply apart_idle.
        -- rewrite O5. symmetry. apply S1. lia.
        -- apply untouched_disk. eapply untouched_trans; [exact U13|exact U5].
      * intros C. assert (K2 : calm s2) by (destruct O2 as (_ & _ & _ & L & _); eapply later_calm, apart_calm; eauto).
        discriminate (C3 K2).
      * discriminate.
  - destruct H as (R2 & C2). exists s3, (Ub NullDeref). cj; auto.
    + destruct b; reflexivity.
    + eapply apart_trans; [exact A1|]. eapply apart_trans; apply apart_idle; eauto.
    + intros C. assert (Z : s_disk s1 (Named n) = None) by (apply C2; eapply apart_calm; eauto).
      rewrite (untouched_disk s s1) in Z by auto. rewrite Z in Hd. discriminate Hd.
    + discriminate.
Qed.

Lemma read_tag_sys n s : sound s ->
  exists s' o, ID3v2_read_tag_s n s = (o, s') /\ untouched s s' /\ tidy s s' /\
  (calm s -> o = ID3v2_read_tag (s_disk s (Named n))) /\
  (forall t, o = Ok (Some t) -> exists c h j, s_disk s (Named n) = Some c /\
     ID3v2_read_tag_header (Some c) = Ok (Some h) /\
     ID3v2_read_tag_from_buffer (Some (buffer_of (firstn j c) (declared_length h))) (declared_length h) = Ok (Some t)).
Proof.
  intros S. destruct (read_tag_idle n s S) as (s1 & o & E & U & A & C & T).
  exists s1, o. cj; auto. now apply apart_tidy.
Qed.

Lemma load_tag_sys n s : sound s ->
  exists s' o, load_tag_s n s = (o, s') /\ untouched s s' /\ (forall t, o = Ok t -> tidy s s') /\
  (calm s -> o = load_tag (s_disk s (Named n))) /\
  (forall t, o = Ok t -> exists c h j, s_disk s (Named n) = Some c /\
     ID3v2_read_tag_header (Some c) = Ok (Some h) /\
     load_tag_with_buffer (Some (buffer_of (firstn j c) (declared_length h))) (declared_length h) = Ok t).
Proof.
  intros S. unfold load_tag_s, load_tag.
  destruct (read_header_idle n s S) as (s1 & f & E1 & U1 & A1 & F1 & C1).
  assert (S1 : sound s1) by (eapply apart_sound; eauto).
  unfold bindio at 1. rewrite E1.
  destruct (ID3v2_read_tag_header f) as [hp|u|x|] eqn:Ef.
  2: { exists s1, (Ub u). cj; auto; try discriminate. intros C. now rewrite <- C1. }
  2: { exists s1, (Exit x). cj; auto; try discriminate. intros C. now rewrite <- C1. }
  2: { exists s1, NoFuel. cj; auto; try discriminate. intros C. now rewrite <- C1. }
  destruct (fopen_existing_ok n s1) as (s2 & o & E2 & U2 & H). rewrite (bind_ok _ _ _ _ _ E2).
  assert (U12 : untouched s s2) by (eapply untouched_trans; [exact U1|exact U2]).
  destruct hp as [h|].
  2: { exists s2, (Ub NullDeref). cj; auto; try discriminate. intros C. now rewrite <- C1. }
  assert (Hd : ID3v2_read_tag_header (s_disk s (Named n)) = Ok (Some h)) by (eapply header_seen_is; eauto).
  rewrite Hd. cbn [bind deref]. change (bindio (lift (Ok h)) ?k s2) with (k h s2). cbv beta.
  destruct (malloc_ok s2) as (b & s3 & E3 & R3 & U3 & C3). rewrite (bind_ok _ _ _ _ _ E3).
  destruct o as [k|].
  - destruct H as (O2 & c & D). rewrite (untouched_disk s s1) in D by auto. rewrite D in *.
    assert (U13 : untouched s1 s3) by (eapply untouched_trans; [exact U2|exact U3]).
    assert (O3 : opened k (Named n) s1 s3) by (eapply opened_run; eauto).
    assert (D1 : s_disk s1 (Named n) = Some c) by (rewrite (untouched_disk s s1); auto).
    destruct (read_whole n (Z.to_nat (declared_length h)) s1 k s3 c S1 O3 U13 D1) as (s4 & j & E4 & U4 & A4 & C4).
    rewrite E4.
    assert (U : untouched s s4) by (eapply untouched_trans; [exact U1|exact U4]).
    destruct b; cbn [negb].
    + eexists s4, _. split; [reflexivity|]. cj; auto.
      * intros t _. apply apart_tidy; auto. eapply apart_trans; [exact A1|exact A4].
      * intros C. rewrite C4 by (eapply apart_calm; eauto). now rewrite buffer_whole.
      * intros t Et. exists c, h, j. auto.
    + eexists s4, _. split; [reflexivity|]. cj; auto; try discriminate.
      intros C. assert (K2 : calm s2) by (destruct O2 as (_ & _ & _ & L & _); eapply later_calm, apart_calm; eauto).
      discriminate (C3 K2).
  - destruct H as (R2 & C2). exists s3, (Ub NullDeref). cj; auto; try discriminate.
    + eapply untouched_trans; [exact U12|exact U3].
    + intros C. assert (Z : s_disk s1 (Named n) = None) by (apply C2; eapply apart_calm; eauto).
      rewrite (untouched_disk s s1) in Z by auto. rewrite Z in Hd. discriminate Hd.
Qed.

Lemma lift_bind {A B} (o : outcome A) (f : A -> outcome B) s :
  bindio (lift o) (fun a => lift (f a)) s = (bind o f, s).
Proof. unfold bindio, lift. destruct o; reflexivity. Qed.

(** What follows once the picture has been read. *)
Definition cover_of (filename : cptr) (bytes : mem) (image_size : Z) (tag : option ctag) : outcome ctag :=
  let* name := deref filename in
  let* ext := after_last "."%byte name None in
  let* ext := deref ext in
  let* png := strncmp_eq 4 ext (cells (lit "png" ++ [x00])) in
  let mimetype := if png then ID3v2_MIME_TYPE_PNG else ID3v2_MIME_TYPE_JPG in
  tag_set_album_cover_from_bytes (Some bytes) mimetype image_size tag.

Lemma cover_rest filename bytes size tag s :
  bindio (lift (deref filename)) (fun name =>
  bindio (lift (after_last "."%byte name None)) (fun ext =>
  bindio (lift (deref ext)) (fun ext =>
  bindio (lift (strncmp_eq 4 ext (cells (lit "png" ++ [x00])))) (fun png =>
  lift (tag_set_album_cover_from_bytes (Some bytes)
    (if png : bool then ID3v2_MIME_TYPE_PNG else ID3v2_MIME_TYPE_JPG) size tag))))) s
  = (cover_of filename bytes size tag, s).
Proof.
  unfold cover_of, bindio, lift. destruct (deref filename); cbn [bind]; auto.
  destruct (after_last _ _ _); cbn [bind]; auto. destruct (deref _); cbn [bind]; auto.
  destruct (strncmp_eq _ _ _); cbn [bind]; auto.
Qed.

Lemma cover_sys filename n tag s : sound s ->
  exists s' o, tag_set_album_cover_s filename n tag s = (o, s') /\ untouched s s' /\
  (forall t, o = Ok t -> tidy s s') /\
  (calm s -> o = tag_set_album_cover filename (s_disk s (Named n)) tag) /\
  (forall t, o = Ok t -> exists c j size mimetype, s_disk s (Named n) = Some c /\
     (size = 0 \/ size = to_i32 (zlen c))%Z /\
     (mimetype = ID3v2_MIME_TYPE_PNG \/ mimetype = ID3v2_MIME_TYPE_JPG) /\
     tag_set_album_cover_from_bytes (Some (buffer_of (firstn j c) size)) mimetype size tag = Ok t).
Proof.
  intros S. unfold tag_set_album_cover_s.
  destruct (fopen_existing_ok n s) as (s1 & o & E1 & U1 & H). rewrite (bind_ok _ _ _ _ _ E1).
  destruct o as [k|].
  2: { destruct H as (R1 & C1). exists s1, (Ub NullDeref). cj; auto; try discriminate.
       intros C. unfold tag_set_album_cover. now rewrite C1. }
  destruct H as (O1 & c & D). pose proof O1 as (R1 & K1 & N1 & L1 & J1).
  assert (D1 : s_disk s1 (Named n) = Some c) by (rewrite (untouched_disk s s1); auto).
  destruct (fseek_end_ok k _ 0 c s1 R1 D1) as (s2 & p2 & E2 & O2 & U2 & R2 & P2 & C2). rewrite (bind_ok _ _ _ _ _ E2).
  destruct (ftell_ok k _ p2 s2 O2) as (s3 & z & E3 & U3 & R3 & P3 & C3). rewrite (bind_ok _ _ _ _ _ E3).
  assert (O3 : reading k (Named n) p2 s3) by (unfold reading; now rewrite (run_open [] s2 s3)).
  destruct (fseek_reading 0 k _ p2 s3 O3) as (s4 & p4 & E4 & O4 & U4 & R4 & P4 & C4). cbv zeta. rewrite (bind_ok _ _ _ _ _ E4).
  assert (U : untouched s s4).
  { eapply untouched_trans; [exact U1|]. eapply untouched_trans; [exact U2|]. eapply untouched_trans; [exact U3|exact U4]. }
  assert (R : run [k] s1 s4).
  { eapply run_trans; [exact R2|]. eapply run_trans; [eapply run_nil, R3|exact R4]. }
  assert (K : calm s -> calm s1 /\ calm s2 /\ calm s3 /\ calm s4).
  { intros C. assert (calm s1) by (eapply later_calm; eauto). assert (calm s2) by (eapply run_calm; eauto).
    assert (calm s3) by (eapply run_calm; eauto). assert (calm s4) by (eapply run_calm; eauto). auto. }
  unfold tag_set_album_cover. rewrite D. cbn [deref bind].
  assert (Size : calm s -> to_i32 z = to_i32 (zlen c)).
  { intros C. apply K in C as (A1 & A2 & A3 & A4). rewrite C3, C2; auto. }
  destruct (Z.ltb_spec (to_i32 z) 0) as [Neg|Pos].
  - exists s4, (Ub BadSize). cj; auto; try discriminate. intros C. rewrite <- Size by auto.
    destruct (Z.ltb_spec (to_i32 z) 0); auto. lia.
  - assert (D4 : s_disk s4 (Named n) = Some c) by (rewrite (untouched_disk s s4); auto).
    destruct (fread_ok (Z.to_nat (to_i32 z)) k _ p4 c s4 O4 D4) as (s5 & j & p5 & E5 & Jn & U5 & R5 & O5 & C5).
    rewrite (bind_ok _ _ _ _ _ E5).
    destruct (fclose_read k n p5 s5 O5) as (s6 & E6 & U6 & R6 & O6). rewrite (bind_ok _ _ _ _ _ E6).
    rewrite cover_rest. eexists s6, _. split; [reflexivity|].
    assert (U' : untouched s s6).
    { eapply untouched_trans; [exact U|]. eapply untouched_trans; [exact U5|exact U6]. }
    cj; auto.
    + intros t _. apply apart_tidy; auto. apply (apart_done k).
      * eapply apart_trans; [eapply apart_opened; [exact O1|intros; now apply untouched_disk]|].
        apply apart_idle.
        -- eapply run_trans; [exact R|]. eapply run_trans; [exact R5|exact R6].
        -- eapply untouched_trans; [eapply untouched_trans; [exact U2|eapply untouched_trans; [exact U3|exact U4]]|].
           eapply untouched_trans; [exact U5|exact U6].
      * rewrite O6. symmetry. apply S. lia.
      * now apply untouched_disk.
    + intros C. pose proof (K C) as (A1 & A2 & A3 & A4). rewrite <- Size by auto.
      destruct (Z.ltb_spec (to_i32 z) 0); [lia|].
      rewrite C5 by auto. rewrite C4 by auto. cbn [skipn Z.ltb Z.compare Z.to_nat].
      now rewrite buffer_whole.
    + intros t Et. unfold cover_of in Et.
      destruct (deref filename) as [name| | |]; try discriminate Et. cbn [bind] in Et.
      destruct (after_last _ _ _) as [ext| | |]; try discriminate Et. cbn [bind] in Et.
      destruct (deref ext) as [e| | |]; try discriminate Et. cbn [bind] in Et.
      destruct (strncmp_eq _ _ _) as [png| | |]; try discriminate Et. cbn [bind] in Et.
      assert (B : exists j', firstn j (skipn p4 c) = firstn j' c).
      { destruct P4 as [->| ->]; [|exists j; reflexivity].
        destruct P2 as [->| ->]; [exists j; reflexivity|]. exists 0. now rewrite skipn_all, firstn_nil. }
      destruct B as [j' B]. rewrite B in Et.
      exists c, j', (to_i32 z), (if png then ID3v2_MIME_TYPE_PNG else ID3v2_MIME_TYPE_JPG). cj; auto.
      * destruct P3 as [->| ->]; [exfalso; apply Pos; reflexivity|].
        destruct P2 as [->| ->]; [left; reflexivity|right; reflexivity].
      * destruct png; auto.
Qed.

(** ** Putting the temporary file in the place of the file *)
Definition replace (n : list byte) (temp : fp) : io unit :=
  let! dest := fopen_new n in
  let! _ := fseek 0 temp in
  let! _ := copy_stream temp dest in
  let! _ := fclose temp in
  fclose dest.

Lemma at_end_some k t v s : at_end k t v s -> s_disk s t <> None.
Proof. intros (? & ? & _ & _ & ->). congruence. Qed.

Lemma replace_ok n k v s0 s : quiet s0 s -> sound s0 -> apart [k] s0 s -> s_next s0 <= k ->
  k < s_next s -> at_end k (Temp k) v s ->
  exists s' o, replace n (Some k) s = (o, s') /\ careful n s0 s' /\
  ((o = Ub NullDeref /\ ~ calm s /\ s_disk s' (Named n) = s_disk s0 (Named n)) \/
   (o = Ok tt /\ tidy s0 s' /\ exists f, s_disk s' (Named n) = Some f /\ part_of f v /\ (calm s -> f = v))).
Proof.
  intros Q S A Kl Kn E. unfold replace.
  destruct (fopen_new_ok n s) as (s1 & o & E1 & H). rewrite (bind_ok _ _ _ _ _ E1).
  destruct o as [d|].
  - destruct H as (O1 & B1 & D1 & V1 & L1). pose proof O1 as (R1 & Kd & N1 & La1 & J1).
    assert (dk : d <> k) by lia.
    assert (A1 : at_end k (Temp k) v s1).
    { eapply at_end_keep; eauto. apply V1. congruence. }
    destruct (fseek_back k _ v s1 A1) as (s2 & v2 & p2 & E2 & O2 & D2 & P2 & C2 & L2 & R2). rewrite (bind_ok _ _ _ _ _ E2).
    assert (B2 : at_end d (Named n) [] s2).
    { eapply at_end_keep; eauto; [apply (run_open [k]); auto; notin|apply (longer_other (Temp k)); auto; congruence]. }
    destruct (copy_stream_ok k (Temp k) v2 p2 d (Named n) [] s2) as (s3 & v3 & p3 & E3 & B3 & O3 & P3 & C3 & L3 & R3); auto.
    { congruence. }
    rewrite (bind_ok _ _ _ _ _ E3).
    destruct (fclose_temp k k p3 s3 O3) as (s4 & E4 & R4 & O4 & D4 & V4 & L4). rewrite (bind_ok _ _ _ _ _ E4).
    assert (B4 : at_end d (Named n) v3 s4).
    { eapply at_end_keep; eauto; [apply (run_open [k]); auto; notin|apply V4; congruence]. }
    destruct (fclose_written d n v3 s4 B4) as (s5 & v5 & E5 & D5 & P5 & C5 & L5 & R5 & O5).
    exists s5, (Ok tt). split; [exact E5|]. split.
    + eapply careful_build; eauto.
      eapply building_trans; [apply building_quiet; [congruence|eapply quiet_longer; eauto]|].
      eapply building_trans; [apply building_longer; eauto|].
      eapply building_trans; [apply building_quiet; [|eapply quiet_step; eauto]|apply building_longer; eauto].
      eapply at_end_some; eauto.
    + right. split; auto. cbn [app] in *. split.
      * apply apart_tidy; auto.
        assert (AA : apart [d; k] s0 s5).
        { eapply apart_trans; [eapply apart_sub, A; intros j; notin|].
          eapply apart_trans.
          { eapply apart_sub; [|eapply apart_opened; [exact O1|]]; [intros j; notin|].
            intros j _. apply V1. congruence. }
          eapply apart_trans.
          { eapply apart_sub; [|apply apart_run; [exact R2|]]; [intros j; notin|].
            intros j Nj. apply (longer_other (Temp k)); auto. cbn [In] in Nj. intros X; injection X; intuition. }
          eapply apart_trans.
          { eapply apart_sub; [|apply apart_run; [exact R3|]]; [intros j; notin|].
            intros j Nj. apply (longer_other (Named n)); auto. congruence. }
          eapply apart_trans.
          { eapply apart_sub; [|apply apart_run; [exact R4|]]; [intros j; notin|].
            intros j Nj. apply V4. cbn [In] in Nj. intros X; injection X; intuition. }
          eapply apart_sub; [|apply apart_run; [exact R5|]]; [intros j; notin|].
          intros j Nj. apply (longer_other (Named n)); auto. congruence. }
        assert (Dd : s_disk s5 (Temp d) = s_disk s0 (Temp d)).
        { assert (T5 : s_disk s5 (Temp d) = s_disk s4 (Temp d)) by (apply (longer_other (Named n)); auto; congruence).
          assert (T4 : s_disk s4 (Temp d) = s_disk s3 (Temp d)) by (apply V4; congruence).
          assert (T3 : s_disk s3 (Temp d) = s_disk s2 (Temp d)) by (apply (longer_other (Named n)); auto; congruence).
          assert (T2 : s_disk s2 (Temp d) = s_disk s1 (Temp d)) by (apply (longer_other (Temp k)); auto; congruence).
          assert (T1 : s_disk s1 (Temp d) = s_disk s (Temp d)) by (apply V1; congruence).
          rewrite T5, T4, T3, T2, T1. apply (apart_temp [k]); auto. notin. }
        assert (Od : s_open s0 d = None) by (apply S; destruct A as (_ & A & _); lia).
        assert (Ok' : s_open s5 k = None) by (rewrite (run_open [d] s4 s5); auto; notin).
        assert (Dk : s_disk s5 (Temp k) = None) by (rewrite (longer_other (Named n) (Temp k) s4 s5); auto; congruence).
        destruct (S k Kl) as [Sk1 Sk2].
        apply (apart_done k); [apply (apart_done d); auto|congruence|congruence]. congruence.
      * exists v5. cj; auto.
        -- eapply part_trans; [exact P5|]. eapply part_trans; [exact P3|].
           eapply part_trans; [|exact P2]. rewrite <- (firstn_skipn p2 v2) at 2.
           change (skipn p2 v2) with ([] ++ skipn p2 v2) at 1. apply part_app; [constructor|apply part_refl].
        -- intros C. assert (K1 : calm s1) by (eapply later_calm; eauto).
           assert (K2 : calm s2) by (eapply run_calm; eauto). assert (K3 : calm s3) by (eapply run_calm; eauto).
           assert (K4 : calm s4) by (eapply run_calm; eauto).
           destruct (C2 K1) as [-> ->]. rewrite C5, C3 by auto. reflexivity.
  - destruct H as (U1 & R1 & C1).
    assert (A1 : at_end k (Temp k) v s1).
    { eapply at_end_keep; eauto; [apply (run_open []); auto|now apply untouched_disk]. }
    destruct (fseek_back k _ v s1 A1) as (s2 & v2 & p2 & E2 & O2 & D2 & P2 & C2 & L2 & R2). rewrite (bind_ok _ _ _ _ _ E2).
    assert (Q2 : quiet s0 s2).
    { eapply quiet_trans; [exact Q|]. eapply quiet_trans; [apply quiet_untouched; eauto|eapply quiet_longer; eauto]. }
    destruct (copy_null k _ v2 p2 s2 O2 D2) as (s3 & o & E3 & U3 & R3 & [->|[-> O3]]).
    + exists s3, (Ub NullDeref). unfold bindio at 1. rewrite E3. split; auto.
      assert (Q3 : quiet s0 s3) by (eapply quiet_trans; [exact Q2|now apply quiet_untouched]).
      split; [now apply careful_quiet|]. left. cj; auto. apply Q3.
    + rewrite (bind_ok _ _ _ _ _ E3).
      destruct (fclose_temp k k p2 s3 O3) as (s4 & E4 & R4 & O4 & D4 & V4 & L4). rewrite (bind_ok _ _ _ _ _ E4).
      exists s4, (Ub NullDeref). split; [reflexivity|].
      assert (Q3 : quiet s0 s4).
      { eapply quiet_trans; [exact Q2|]. eapply quiet_trans; [apply quiet_untouched; eauto|eapply quiet_step; eauto]. }
      split; [now apply careful_quiet|]. left. cj; auto. apply Q3.
Qed.

Lemma bind_assoc {A B C} (m : io A) (f : A -> io B) (g : B -> io C) s :
  bindio (bindio m f) g s = bindio m (fun a => bindio (f a) g) s.
Proof. unfold bindio. destruct (m s) as [[a| | |] s']; reflexivity. Qed.
Lemma bind_ext {A B} (m : io A) (f g : A -> io B) s : (forall a s, f a s = g a s) -> bindio m f s = bindio m g s.
Proof. intros E. unfold bindio. destruct (m s) as [[a| | |] s']; auto. Qed.
Lemma bind_lift {A B} (o : outcome A) (f : A -> io B) s :
  bindio (lift o) f s = match o with Ok a => f a s | Ub u => (Ub u, s) | Exit n => (Exit n, s) | NoFuel => (NoFuel, s) end.
Proof. unfold bindio, lift. destruct o; reflexivity. Qed.

Lemma replace_bind {A} n temp (r : io A) s :
  bindio (fopen_new n) (fun dest => bindio (fseek 0 temp) (fun _ => bindio (copy_stream temp dest) (fun _ =>
    bindio (fclose temp) (fun _ => bindio (fclose dest) (fun _ => r))))) s
  = bindio (replace n temp) (fun _ => r) s.
Proof.
  unfold replace. rewrite bind_assoc. apply bind_ext. intros d s1. rewrite bind_assoc. apply bind_ext. intros _ s2.
  rewrite bind_assoc. apply bind_ext. intros _ s3. now rewrite bind_assoc.
Qed.

(** ** Taking the rest of the file *)
Definition take (size : Z) (src temp : fp) : io unit :=
  let! _ := fseek size src in
  let! _ := copy_stream src temp in
  fclose src.

Lemma take_bind {A} size src temp (r : io A) s :
  bindio (fseek size src) (fun _ => bindio (copy_stream src temp) (fun _ => bindio (fclose src) (fun _ => r))) s
  = bindio (take size src temp) (fun _ => r) s.
Proof.
  unfold take. rewrite bind_assoc. apply bind_ext. intros _ s1. now rewrite bind_assoc.
Qed.

Lemma take_ok n size d k c v s : d <> k -> reading d (Named n) 0 s -> s_disk s (Named n) = Some c ->
  at_end k (Temp k) v s ->
  exists s' v' i, take size (Some d) (Some k) s = (Ok tt, s') /\ at_end k (Temp k) v' s' /\ s_open s' d = None /\
  longer (Temp k) s s' /\ run [d; k] s s' /\ (i = 0%Z \/ i = size) /\
  part_of v' (v ++ skipn (Z.to_nat i) c) /\ (calm s -> v' = v ++ skipn (Z.to_nat size) c).
Proof.
  intros N R D E. unfold take.
  destruct (fseek_reading size d _ 0 s R) as (s1 & p & E1 & O1 & U1 & R1 & P1 & C1). rewrite (bind_ok _ _ _ _ _ E1).
  assert (A1 : at_end k (Temp k) v s1).
  { eapply at_end_keep; eauto; [apply (run_open [d]); auto; notin|now apply untouched_disk]. }
  assert (D1 : s_disk s1 (Named n) = Some c) by (rewrite (untouched_disk s s1); auto).
  destruct (copy_stream_ok d (Named n) c p k (Temp k) v s1) as (s2 & v2 & p2 & E2 & A2 & O2 & P2 & C2 & L2 & R2); auto.
  { congruence. }
  rewrite (bind_ok _ _ _ _ _ E2).
  destruct (fclose_read d n p2 s2 O2) as (s3 & E3 & U3 & R3 & O3).
  assert (A3 : at_end k (Temp k) v2 s3).
  { eapply at_end_keep; eauto; [apply (run_open [d]); auto; notin|now apply untouched_disk]. }
  assert (L : longer (Temp k) s s3).
  { eapply longer_trans; [apply longer_untouched; eauto; eapply at_end_some; eauto|].
    eapply longer_trans; [exact L2|]. apply longer_untouched; auto. eapply at_end_some; eauto. }
  assert (RR : run [d; k] s s3).
  { eapply run_trans; [eapply run_sub, R1; intros j; notin|]. eapply run_trans; [exact R2|].
    eapply run_sub, R3; intros j; notin. }
  assert (Cs : calm s -> v2 = v ++ skipn (Z.to_nat size) c).
  { intros C. rewrite C2 by (eapply run_calm; eauto). rewrite C1 by auto.
    destruct (Z.ltb_spec size 0); auto. now replace (Z.to_nat size) with 0 by lia. }
  destruct P1 as [->| ->].
  - exists s3, v2, 0%Z. cj; auto.
  - exists s3, v2, size. cj; auto.
Qed.

(** ** Writing *)
Lemma write_file f tag : ID3v2_write_tag f (Some tag)
  = let* existing := ID3v2_read_tag_header f in
    let* d := isub ID3v2_TAG_DEFAULT_PADDING_LENGTH (t_padding tag) in
    let* padding := iadd (t_padding tag) (clamp_int d 0 ID3v2_TAG_DEFAULT_PADDING_LENGTH) in
    let tag := mkTag (t_header tag) (t_frames tag) padding (t_fresh tag) in
    let* tag_cs := Tag_to_char_stream tag in
    let* bytes := fwrite_bytes (firstn (Z.to_nat (cs_size tag_cs)) (cs_stream tag_cs)) in
    match f with
    | None => Ub NullDeref
    | Some content => Ok (Some (bytes ++ skipn (Z.to_nat match existing with Some h => declared_length h | None => 0 end) content), Some tag)
    end.
Proof.
  unfold ID3v2_write_tag. cbn [ID3v2_write_tag_states].
  destruct (ID3v2_read_tag_header f) as [h| | |]; cbn [bind]; auto.
  destruct (isub _ _); cbn [bind]; auto. destruct (iadd _ _); cbn [bind]; auto.
  destruct (Tag_to_char_stream _); cbn [bind]; auto. destruct (fwrite_bytes _); cbn [bind]; auto.
  destruct f as [c|]; auto. cbn [bind]. rewrite copy_loop_app, states_rewritten, last_rewritten. reflexivity.
Qed.

Lemma write_sys n tagp s : sound s ->
  exists s' o, ID3v2_write_tag_s n tagp s = (o, s') /\ careful n s s' /\
  (forall r, o = Ok r -> tidy s s') /\
  ((forall r, o <> Ok r) -> s_disk s' (Named n) = s_disk s (Named n)) /\
  (calm s -> match ID3v2_write_tag (s_disk s (Named n)) tagp with
             | Ok (f, t) => o = Ok t /\ s_disk s' (Named n) = f
             | Ub u => o = Ub u
             | Exit x => o = Exit x
             | NoFuel => o = NoFuel
             end) /\
  (forall t, o = Ok (Some t) -> exists c bytes i f, s_disk s (Named n) = Some c /\
     ID3v2_write_tag (Some []) tagp = Ok (Some bytes, Some t) /\
     (i = 0%Z \/ exists h, ID3v2_read_tag_header (Some c) = Ok (Some h) /\ i = declared_length h) /\
     s_disk s' (Named n) = Some f /\ part_of f (bytes ++ skipn (Z.to_nat i) c)).
Proof.
  intros S. destruct tagp as [tag|].
  2: { exists s, (Ok None). cj; auto.
       - apply careful_quiet, quiet_refl.
       - intros _ _. apply apart_tidy; auto. apply apart_refl.
       - intros _. cbn. auto.
       - discriminate. }
  unfold ID3v2_write_tag_s.
  destruct (read_header_idle n s S) as (s1 & fh & E1 & U1 & A1 & F1 & C1).
  assert (S1 : sound s1) by (eapply apart_sound; eauto).
  assert (Q1 : quiet s s1) by now apply quiet_untouched.
  rewrite write_file. unfold bindio at 1. rewrite E1.
  destruct (ID3v2_read_tag_header fh) as [existing|u|x|] eqn:Ef.
  2: { exists s1, (Ub u). cj; auto; try discriminate; [now apply careful_quiet|intros _; apply Q1|].
       intros C. now rewrite <- C1. }
  2: { exists s1, (Exit x). cj; auto; try discriminate; [now apply careful_quiet|intros _; apply Q1|].
       intros C. now rewrite <- C1. }
  2: { exists s1, NoFuel. cj; auto; try discriminate; [now apply careful_quiet|intros _; apply Q1|].
       intros C. now rewrite <- C1. }
  assert (Ex : forall B (k : option TagHeader -> outcome B), calm s ->
     bind (ID3v2_read_tag_header (s_disk s (Named n))) k = k existing).
  { intros B k C. now rewrite <- C1. }
  assert (Eh : existing = None \/ exists h c, existing = Some h /\ s_disk s (Named n) = Some c /\
     ID3v2_read_tag_header (Some c) = Ok (Some h)).
  { destruct existing as [h|]; auto. right. destruct F1 as [->|(c & j & D & ->)]; [discriminate Ef|].
    exists h, c. cj; auto. eapply header_cut; eauto. }
  rewrite bind_lift.
  destruct (isub _ _) as [gap|u|x|] eqn:Ed.
  2: { exists s1, (Ub u). cj; auto; try discriminate; [now apply careful_quiet|intros _; apply Q1|].
       intros C. now rewrite Ex. }
  2: { exists s1, (Exit x). cj; auto; try discriminate; [now apply careful_quiet|intros _; apply Q1|].
       intros C. now rewrite Ex. }
  2: { exists s1, NoFuel. cj; auto; try discriminate; [now apply careful_quiet|intros _; apply Q1|].
       intros C. now rewrite Ex. }
  cbn [bind]. rewrite bind_lift.
  destruct (iadd _ _) as [padding|u|x|] eqn:Ep.
  2: { exists s1, (Ub u). cj; auto; try discriminate; [now apply careful_quiet|intros _; apply Q1|].
       intros C. now rewrite Ex. }
  2: { exists s1, (Exit x). cj; auto; try discriminate; [now apply careful_quiet|intros _; apply Q1|].
       intros C. now rewrite Ex. }
  2: { exists s1, NoFuel. cj; auto; try discriminate; [now apply careful_quiet|intros _; apply Q1|].
       intros C. now rewrite Ex. }
  cbn [bind]. rewrite bind_lift.
  destruct (Tag_to_char_stream _) as [cs|u|x|] eqn:Et.
  2: { exists s1, (Ub u). cj; auto; try discriminate; [now apply careful_quiet|intros _; apply Q1|].
       intros C. now rewrite Ex. }
  2: { exists s1, (Exit x). cj; auto; try discriminate; [now apply careful_quiet|intros _; apply Q1|].
       intros C. now rewrite Ex. }
  2: { exists s1, NoFuel. cj; auto; try discriminate; [now apply careful_quiet|intros _; apply Q1|].
       intros C. now rewrite Ex. }
  cbn [bind].
  destruct (tmpfile_ok s1) as (s2 & o & E2 & H2). rewrite (bind_ok _ _ _ _ _ E2).
  destruct o as [k|].
  2: { destruct H2 as (U2 & R2 & C2). exists s2, (Ub NullDeref).
       assert (Q2 : quiet s s2) by (eapply quiet_trans; [exact Q1|now apply quiet_untouched]).
       cj; auto; try discriminate; [now apply careful_quiet|intros _; apply Q2|].
       intros C. destruct C2. eapply apart_calm; eauto. }
  destruct H2 as (O2 & B2 & V2 & L2). pose proof O2 as (R2 & Kk & N2 & La2 & J2).
  assert (Q2 : quiet s s2) by (eapply quiet_trans; [exact Q1|eapply quiet_step; eauto]).
  assert (A2 : apart [k] s s2).
  { eapply apart_trans; [eapply apart_sub, A1; intros j []|]. eapply apart_opened; [exact O2|].
    intros j Nj. apply V2. congruence. }
  pose proof (fwrite_ok k _ (firstn (Z.to_nat (cs_size cs)) (cs_stream cs)) [] s2 B2) as W.
  destruct (fwrite_bytes _) as [bytes|u|x|] eqn:Eb; try destruct W.
  2: { destruct H as (W & L3 & R3). exists x, (Ub u). unfold bindio at 1. rewrite W.
       assert (Q3 : quiet s x) by (eapply quiet_trans; [exact Q2|eapply quiet_longer; eauto]).
       cj; auto; try discriminate; [now apply careful_quiet|intros _; apply Q3|].
       intros C. now rewrite Ex. }
  rename x into s3. destruct H as (v3 & E3 & B3 & P3 & C3 & L3 & R3). cbn [app] in *.
  rewrite (bind_ok _ _ _ _ _ E3).
  assert (Q3 : quiet s s3) by (eapply quiet_trans; [exact Q2|eapply quiet_longer; eauto]).
  assert (A3 : apart [k] s s3).
  { eapply apart_trans; [exact A2|]. apply apart_run; auto. intros j Nj. apply (longer_other (Temp k)); auto.
    cbn [In] in Nj. intros X; injection X; intuition. }
  destruct (fopen_existing_ok n s3) as (s4 & o & E4 & U4 & H4). rewrite (bind_ok _ _ _ _ _ E4).
  assert (Q4 : quiet s s4) by (eapply quiet_trans; [exact Q3|now apply quiet_untouched]).
  assert (Dn : s_disk s3 (Named n) = s_disk s (Named n)) by apply Q3.
  destruct o as [d|].
  2: { destruct H4 as (R4 & C4). exists s4, (Ub NullDeref).
       cj; auto; try discriminate; [now apply careful_quiet|intros _; apply Q4|].
       intros C. rewrite Ex by auto. cbn [bind]. rewrite <- Dn, C4; auto. eapply apart_calm; eauto. }
  destruct H4 as (O4 & c & D). pose proof O4 as (R4 & Kd & N4 & La4 & J4).
  assert (N3 : s_next s3 = s_next s2) by apply R3.
  assert (dk : d <> k) by lia.
  assert (B4 : at_end k (Temp k) v3 s4).
  { eapply at_end_keep; eauto. now apply untouched_disk. }
  assert (D4 : s_disk s4 (Named n) = Some c) by (rewrite (untouched_disk s3 s4); auto).
  rewrite take_bind.
  destruct (take_ok n (match existing with Some h => declared_length h | None => 0 end)%Z d k c v3 s4 dk R4 D4 B4)
    as (s5 & v5 & i & E5 & B5 & O5 & L5 & R5 & I5 & P5 & C5).
  rewrite (bind_ok _ _ _ _ _ E5), replace_bind.
  assert (Q5 : quiet s s5) by (eapply quiet_trans; [exact Q4|eapply quiet_longer; eauto]).
  assert (A35 : apart [d; k] s s5).
  { eapply apart_trans; [eapply apart_sub, A3; intros j; notin|].
    eapply apart_trans; [eapply apart_sub; [|eapply apart_opened; [exact O4|intros; now apply untouched_disk]]; intros j; notin|].
    apply apart_run; auto. intros j Nj. apply (longer_other (Temp k)); auto.
    cbn [In] in Nj. intros X; injection X; intuition. }
  assert (N1 : s_next s <= s_next s1) by apply A1.
  assert (A5 : apart [k] s s5).
  { apply (apart_done d); auto.
    - rewrite O5. symmetry. apply S. lia.
    - rewrite (longer_other (Temp k) (Temp d) s4 s5), (untouched_disk s3 s4) by (auto; congruence).
      apply (apart_temp [k]); auto. notin. }
  assert (N5 : s_next s5 = s_next s4) by apply R5.
  destruct (replace_ok n k v5 s s5) as (s6 & o & E6 & Ca & [(-> & NC & D6)|(-> & T6 & f & D6 & P6 & C6)]); auto; try lia.
  - exists s6, (Ub NullDeref). unfold bindio at 1. rewrite E6. cj; auto; try discriminate.
    intros C. destruct NC. eapply apart_calm; eauto.
  - exists s6, (Ok (Some (mkTag (t_header tag) (t_frames tag) padding (t_fresh tag)))).
    rewrite (bind_ok _ _ _ _ _ E6). cj; auto.
    + intros H. destruct (H _ eq_refl).
    + intros C. rewrite Ex by auto. cbn [bind]. rewrite <- Dn, D. split; auto.
      assert (K2 : calm s2) by (eapply apart_calm; [exact A2|auto]).
      assert (K3 : calm s3) by (eapply apart_calm; [exact A3|auto]).
      assert (K4 : calm s4) by (eapply later_calm; [exact La4|auto]).
      assert (K5 : calm s5) by (eapply apart_calm; [exact A5|auto]).
      rewrite D6, C6, C5, C3 by auto. reflexivity.
    + intros t [= <-]. exists c, bytes, i, f. rewrite <- Dn, D. cj; auto.
      * rewrite write_file. change (ID3v2_read_tag_header (Some [])) with (@Ok (option TagHeader) None). cbn [bind].
        rewrite Ed. cbn [bind]. rewrite Ep. cbn [bind]. rewrite Et. cbn [bind]. rewrite Eb. cbn [bind].
        now rewrite app_nil_r.
      * destruct I5 as [->| ->]; auto. destruct Eh as [->|(h & c' & -> & Dc & Hh)]; auto.
        right. exists h. rewrite <- Dn, D in Dc. injection Dc as ->. auto.
      * eapply part_trans; [exact P6|]. eapply part_trans; [exact P5|]. apply part_app; [auto|apply part_refl].
Qed.

(** ** Deleting *)
Lemma delete_file f : ID3v2_delete_tag f
  = let* tag_header := ID3v2_read_tag_header f in
    match tag_header with
    | None => Ok f
    | Some h => match f with
                | None => Ub NullDeref
                | Some content => Ok (Some (skipn (Z.to_nat (declared_length h)) content))
                end
    end.
Proof.
  unfold ID3v2_delete_tag, ID3v2_delete_tag_states.
  destruct (ID3v2_read_tag_header f) as [[h|]| | |]; cbn [bind]; auto.
  destruct f as [c|]; auto. cbn [bind]. rewrite copy_loop_app, states_rewritten, last_rewritten. reflexivity.
Qed.

(** The same without a temporary file. *)
Lemma take_null n size d c s : reading d (Named n) 0 s -> s_disk s (Named n) = Some c ->
  exists s' o, take size (Some d) None s = (o, s') /\ untouched s s' /\
  (o = Ub NullDeref \/ o = Ok tt).
Proof.
  intros R D. unfold take.
  destruct (fseek_reading size d _ 0 s R) as (s1 & p & E1 & O1 & U1 & R1 & P1 & C1). rewrite (bind_ok _ _ _ _ _ E1).
  assert (D1 : s_disk s1 (Named n) = Some c) by (rewrite (untouched_disk s s1); auto).
  destruct (copy_null d _ c p s1 O1 D1) as (s2 & o & E2 & U2 & R2 & [->|[-> O2]]).
  - exists s2, (Ub NullDeref). unfold bindio. rewrite E2. cj; auto. eapply untouched_trans; eauto.
  - rewrite (bind_ok _ _ _ _ _ E2). destruct (fclose_read d n p s2 O2) as (s3 & E3 & U3 & R3 & O3).
    exists s3, (Ok tt). cj; auto. eapply untouched_trans; [exact U1|eapply untouched_trans; eauto].
Qed.

Lemma replace_last n temp s :
  bindio (fopen_new n) (fun dest => bindio (fseek 0 temp) (fun _ => bindio (copy_stream temp dest) (fun _ =>
    bindio (fclose temp) (fun _ => fclose dest)))) s = replace n temp s.
Proof. reflexivity. Qed.

Lemma delete_sys n s : sound s ->
  exists s' o, ID3v2_delete_tag_s n s = (o, s') /\ careful n s s' /\
  (o = Ok tt -> tidy s s') /\
  (o <> Ok tt -> s_disk s' (Named n) = s_disk s (Named n) \/ s_disk s' (Named n) = Some []) /\
  (calm s -> match ID3v2_delete_tag (s_disk s (Named n)) with
             | Ok f => o = Ok tt /\ s_disk s' (Named n) = f
             | Ub u => o = Ub u /\ s_disk s' (Named n) = s_disk s (Named n)
             | Exit x => o = Exit x /\ s_disk s' (Named n) = s_disk s (Named n)
             | NoFuel => o = NoFuel /\ s_disk s' (Named n) = s_disk s (Named n)
             end) /\
  (o = Ok tt -> s_disk s' (Named n) = s_disk s (Named n) \/
     exists c h i f, s_disk s (Named n) = Some c /\ ID3v2_read_tag_header (Some c) = Ok (Some h) /\
     (i = 0%Z \/ i = declared_length h) /\ s_disk s' (Named n) = Some f /\ part_of f (skipn (Z.to_nat i) c)).
Proof.
  intros S. unfold ID3v2_delete_tag_s.
  destruct (read_header_idle n s S) as (s1 & fh & E1 & U1 & A1 & F1 & C1).
  assert (S1 : sound s1) by (eapply apart_sound; eauto).
  assert (Q1 : quiet s s1) by now apply quiet_untouched.
  assert (X1 : s_disk s1 (Named n) = s_disk s (Named n)) by apply Q1.
  rewrite delete_file. unfold bindio at 1. rewrite E1.
  destruct (ID3v2_read_tag_header fh) as [[h|]|u|x|] eqn:Ef.
  2: { exists s1, (Ok tt). cj; auto; [now apply careful_quiet|intros _; now apply apart_tidy|].
       intros C. rewrite <- C1 by auto. cbn [bind]. auto. }
  2: { exists s1, (Ub u). cj; auto; try discriminate; [now apply careful_quiet|].
       intros C. rewrite <- C1 by auto. cbn [bind]. auto. }
  2: { exists s1, (Exit x). cj; auto; try discriminate; [now apply careful_quiet|].
       intros C. rewrite <- C1 by auto. cbn [bind]. auto. }
  2: { exists s1, NoFuel. cj; auto; try discriminate; [now apply careful_quiet|].
       intros C. rewrite <- C1 by auto. cbn [bind]. auto. }
  assert (Hd : ID3v2_read_tag_header (s_disk s (Named n)) = Ok (Some h)) by (eapply header_seen_is; eauto).
  rewrite Hd. cbn [bind].
  destruct (fopen_existing_ok n s1) as (s2 & o & E2 & U2 & H2). rewrite (bind_ok _ _ _ _ _ E2).
  assert (Q2 : quiet s s2) by (eapply quiet_trans; [exact Q1|now apply quiet_untouched]).
  assert (X2 : s_disk s2 (Named n) = s_disk s (Named n)) by apply Q2.
  destruct (tmpfile_ok s2) as (s3 & o' & E3 & H3). rewrite (bind_ok _ _ _ _ _ E3).
  assert (Q3 : quiet s s3).
  { destruct o' as [k|]; [destruct H3 as (_ & _ & V & L)|destruct H3 as (U & _)]; eapply quiet_trans; eauto;
      [eapply quiet_step; eauto|now apply quiet_untouched]. }
  assert (X3 : s_disk s3 (Named n) = s_disk s (Named n)) by apply Q3.
  destruct o as [d|].
  2: { destruct H2 as (R2 & C2). exists s3, (Ub NullDeref).
       cj; auto; try discriminate; [now apply careful_quiet|].
       intros C. rewrite X1 in C2. rewrite C2 in Hd by (eapply apart_calm; eauto). discriminate Hd. }
  destruct H2 as (O2 & c & D). pose proof O2 as (R2 & Kd & N2 & La2 & J2).
  assert (D3 : s_disk s3 (Named n) = Some c) by congruence.
  assert (D0 : s_disk s (Named n) = Some c) by congruence.
  rewrite take_bind.
  destruct o' as [k|].
  - destruct H3 as (O3 & B3 & V3 & L3). pose proof O3 as (R3 & Kk & N3 & La3 & J3).
    assert (dk : d <> k) by lia.
    assert (R3' : reading d (Named n) 0 s3) by (unfold reading; now rewrite J3).
    destruct (take_ok n (declared_length h) d k c [] s3 dk R3' D3 B3)
      as (s5 & v5 & i & E5 & B5 & O5 & L5 & R5 & I5 & P5 & C5). cbn [app] in *.
    rewrite (bind_ok _ _ _ _ _ E5), replace_last.
    assert (Q5 : quiet s s5) by (eapply quiet_trans; [exact Q3|eapply quiet_longer; eauto]).
    assert (N1 : s_next s <= s_next s1) by apply A1.
    assert (A5 : apart [d; k] s s5).
    { eapply apart_trans; [eapply apart_sub, A1; intros j []|].
      eapply apart_trans; [eapply apart_sub; [|eapply apart_opened; [exact O2|intros; now apply untouched_disk]]; intros j; notin|].
      eapply apart_trans.
      { eapply apart_sub; [|eapply apart_opened; [exact O3|]]; [intros j; notin|].
        intros j Nj. apply V3. congruence. }
      apply apart_run; auto. intros j Nj. apply (longer_other (Temp k)); auto.
      cbn [In] in Nj. intros X; injection X; intuition. }
    assert (A5' : apart [k] s s5).
    { apply (apart_done d); auto.
      - rewrite O5. symmetry. apply S. lia.
      - assert (T5 : s_disk s5 (Temp d) = s_disk s3 (Temp d)) by (apply (longer_other (Temp k)); auto; congruence).
        assert (T3 : s_disk s3 (Temp d) = s_disk s2 (Temp d)) by (apply V3; congruence).
        rewrite T5, T3, (untouched_disk s1 s2), (untouched_disk s s1); auto. }
    assert (N5 : s_next s5 = s_next s3) by apply R5.
    destruct (replace_ok n k v5 s s5) as (s6 & o & E6 & Ca & [(-> & NC & D6)|(-> & T6 & f & D6 & P6 & C6)]); auto; try lia.
    + exists s6, (Ub NullDeref). cj; auto; try discriminate.
      intros C. destruct NC. eapply apart_calm; eauto.
    + exists s6, (Ok tt). rewrite D0. cj; auto; try congruence.
      * intros C. split; auto.
        assert (K3 : calm s3) by (eapply later_calm, later_calm, apart_calm; eauto).
        rewrite D6, C6, C5; auto. eapply apart_calm; eauto.
      * intros _. right. exists c, h, i, f. rewrite D0 in Hd. cj; auto. eapply part_trans; eauto.
  - destruct H3 as (U3 & R3 & C3).
    assert (NC : ~ calm s) by (intros C; apply C3; eapply later_calm, apart_calm; eauto).
    assert (R3' : reading d (Named n) 0 s3) by (unfold reading; now rewrite (run_open [] s2 s3)).
    destruct (take_null n (declared_length h) d c s3 R3' D3) as (s5 & o & E5 & U5 & [->| ->]).
    + exists s5, (Ub NullDeref). unfold bindio at 1. rewrite E5.
      assert (Q5 : quiet s s5) by (eapply quiet_trans; [exact Q3|now apply quiet_untouched]).
      cj; auto; try discriminate; [now apply careful_quiet| |contradiction]. intros _. left. apply Q5.
    + rewrite (bind_ok _ _ _ _ _ E5), replace_last. unfold replace.
      assert (Q5 : quiet s s5) by (eapply quiet_trans; [exact Q3|now apply quiet_untouched]).
      destruct (fopen_new_ok n s5) as (s6 & o & E6 & H6). rewrite (bind_ok _ _ _ _ _ E6).
      exists s6, (Ub NullDeref). split; [reflexivity|].
      destruct o as [e|].
      * destruct H6 as (O6 & B6 & D6 & V6 & L6). cj; auto; try discriminate; [|contradiction].
        eapply careful_build; eauto. apply building_quiet; [congruence|apply quiet_refl].
      * destruct H6 as (U6 & R6 & C6).
        assert (Q6 : quiet s s6) by (eapply quiet_trans; [exact Q5|now apply quiet_untouched]).
        cj; auto; try discriminate; [now apply careful_quiet| |contradiction]. intros _. left. apply Q6.
Qed.

(** ** The other interface *)
Lemma set_tag_sys n tagp s : sound s ->
  exists s' o, set_tag_s n tagp s = (o, s') /\ careful n s s' /\
  (forall r, o = Ok r -> tidy s s') /\
  ((forall r, o <> Ok r) -> s_disk s' (Named n) = s_disk s (Named n)) /\
  (calm s -> match set_tag (s_disk s (Named n)) tagp with
             | Ok (f, t) => o = Ok t /\ s_disk s' (Named n) = f
             | Ub u => o = Ub u
             | Exit x => o = Exit x
             | NoFuel => o = NoFuel
             end) /\
  (forall t, o = Ok t -> exists t0 c bytes i f, tagp = Some t0 /\ s_disk s (Named n) = Some c /\
     ID3v2_write_tag (Some []) (Some (ct_tag t0)) = Ok (Some bytes, Some (ct_tag t)) /\
     t = mkCTag (ct_raw t0) (ct_header t0) (ct_frames t0) (ct_tag t) /\
     (i = 0 \/ exists h, ID3v2_read_tag_header (Some c) = Ok (Some h) /\ i = declared_length h)%Z /\
     s_disk s' (Named n) = Some f /\ part_of f (bytes ++ skipn (Z.to_nat i) c)).
Proof.
  intros S. unfold set_tag_s, set_tag. destruct tagp as [t|]; cbn [deref bind]; rewrite bind_lift.
  2: { exists s, (Ub NullDeref). cj; auto; try discriminate. apply careful_quiet, quiet_refl. }
  destruct (write_sys n (Some (ct_tag t)) s S) as (s1 & o & E & Ca & T & Nt & C & P).
  unfold bindio at 1. rewrite E. destruct o as [[i|]|u|x|].
  - exists s1, (Ok (mkCTag (ct_raw t) (ct_header t) (ct_frames t) i)). cj; eauto.
    + intros H. now destruct (H _ eq_refl).
    + intros K. specialize (C K). destruct (ID3v2_write_tag _ _) as [[f v]| | |]; cbn [bind]; try discriminate C.
      destruct C as [[= <-] C]. cbn [deref bind]. auto.
    + intros r [= <-]. destruct (P _ eq_refl) as (c & bytes & j & f & X). exists t, c, bytes, j, f.
      cbn [ct_tag]. tauto.
  - exfalso. revert E. unfold ID3v2_write_tag_s. intros E.
    assert (G : forall A (m : io A) (k : A -> io (option Tag)) s s' , (forall a s s', k a s <> (Ok None, s')) -> bindio m k s <> (Ok None, s')).
    { intros A m k s2 s3 H. unfold bindio. destruct (m s2) as [[a| | |] s4]; try discriminate. apply H. }
    revert E. repeat (apply G; intros ? ? ?). discriminate.
  - exists s1, (Ub u). cj; auto; try discriminate.
    + intros _. apply Nt. discriminate.
    + intros K. specialize (C K). destruct (ID3v2_write_tag _ _) as [[f v]| | |]; cbn [bind]; try discriminate C; [now destruct C|congruence].
  - exists s1, (Exit x). cj; auto; try discriminate.
    + intros _. apply Nt. discriminate.
    + intros K. specialize (C K). destruct (ID3v2_write_tag _ _) as [[f v]| | |]; cbn [bind]; try discriminate C; [now destruct C|congruence].
  - exists s1, NoFuel. cj; auto; try discriminate.
    + intros _. apply Nt. discriminate.
    + intros K. specialize (C K). destruct (ID3v2_write_tag _ _) as [[f v]| | |]; cbn [bind]; try discriminate C; [now destruct C|congruence].
Qed.

(** ** Programs *)
Definition leaves (P : list byte -> Prop) (s s' : sys) : Prop :=
  exists l, since s s' l /\ forall d, In d (s_disk s' :: l) -> forall m, P m -> d (Named m) = s_disk s (Named m).

Lemma leaves_trans P s s1 s2 : leaves P s s1 -> leaves P s1 s2 -> leaves P s s2.
Proof.
  intros (l & A & B) (l' & A' & B'). exists (l' ++ l). unfold since in *. split; [now rewrite A', A, app_assoc|].
  assert (M : forall m, P m -> s_disk s1 (Named m) = s_disk s (Named m)) by (apply B; left; auto).
  intros d I m Pm. destruct I as [I|I]; [rewrite (B' d); auto; left; auto|].
  apply in_app_or in I as [I|I]; [rewrite (B' d); auto; right; auto|apply (B d); auto; right; auto].
Qed.
Lemma leaves_careful (P : list byte -> Prop) n s s' : ~ P n -> careful n s s' -> leaves P s s'.
Proof.
  intros N (l & A & B). exists l. split; auto. intros d I m Pm. apply (B d I). congruence.
Qed.
Lemma leaves_untouched P s s' : untouched s s' -> leaves P s s'.
Proof. intros [A B]. exists []. split; [exact B|]. intros d [<-|[]] m _. apply A. Qed.

Lemma done_ok {A} (m : io A) s s' o : m s = (o, s') ->
  exists o', done m s = (o', s') /\ (o' = Ok tt -> exists r, o = Ok r).
Proof.
  intros E. unfold done, bindio. rewrite E. destruct o; eexists; split; try reflexivity; eauto; discriminate.
Qed.

Lemma call_sys c s : sound s ->
  exists s' o, call_file c s = (o, s') /\ leaves (fun m => ~ changes c m) s s' /\ (o = Ok tt -> tidy s s').
Proof.
  intros S. destruct c as [n|n|n tag|n|n|n tag|n|fn n tag]; cbn [call_file changes].
  - destruct (read_header_s n s S) as (s1 & f & E & U & T & _). destruct (done_ok _ _ _ _ E) as (o & -> & H).
    exists s1, o. cj; auto. now apply leaves_untouched.
  - destruct (read_tag_sys n s S) as (s1 & f & E & U & T & _). destruct (done_ok _ _ _ _ E) as (o & -> & H).
    exists s1, o. cj; auto. now apply leaves_untouched.
  - destruct (write_sys n tag s S) as (s1 & f & E & U & T & _). destruct (done_ok _ _ _ _ E) as (o & -> & H).
    exists s1, o. cj; auto; [apply (leaves_careful _ n); auto|]. intros X. destruct (H X) as [r R]. eauto.
  - destruct (delete_sys n s S) as (s1 & o & E & U & T & _). exists s1, o. cj; auto.
    apply (leaves_careful _ n); auto.
  - destruct (load_tag_sys n s S) as (s1 & f & E & U & T & _). destruct (done_ok _ _ _ _ E) as (o & -> & H).
    exists s1, o. cj; auto; [now apply leaves_untouched|]. intros X. destruct (H X) as [r R]. eauto.
  - destruct (set_tag_sys n tag s S) as (s1 & f & E & U & T & _). destruct (done_ok _ _ _ _ E) as (o & -> & H).
    exists s1, o. cj; auto; [apply (leaves_careful _ n); auto|]. intros X. destruct (H X) as [r R]. eauto.
  - unfold remove_tag_s. destruct (delete_sys n s S) as (s1 & o & E & U & T & _). exists s1, o. cj; auto.
    apply (leaves_careful _ n); auto.
  - destruct (cover_sys fn n tag s S) as (s1 & f & E & U & T & _). destruct (done_ok _ _ _ _ E) as (o & -> & H).
    exists s1, o. cj; auto; [now apply leaves_untouched|]. intros X. destruct (H X) as [r R]. eauto.
Qed.

Lemma tidy_trans s s1 s2 : tidy s s1 -> tidy s1 s2 -> tidy s s2.
Proof.
  intros (A & B & C & D) (A' & B' & C' & D'). unfold tidy. cj; auto; intros k; congruence.
Qed.
Lemma leaves_sub (P R : list byte -> Prop) s s' : (forall m, R m -> P m) -> leaves P s s' -> leaves R s s'.
Proof. intros H (l & A & B). exists l. split; auto. Qed.

Lemma calls_sys l : forall s, sound s ->
  exists s' o, call_files l s = (o, s') /\
  leaves (fun m => forall c, In c l -> ~ changes c m) s s' /\ (o = Ok tt -> tidy s s').
Proof.
  induction l as [|c l IH]; intros s S; cbn [call_files].
  - exists s, (Ok tt). cj; auto; [apply leaves_untouched, untouched_refl|]. intros _. apply apart_tidy; auto. apply apart_refl.
  - destruct (call_sys c s S) as (s1 & o & E & L & T). unfold bindio. rewrite E.
    assert (L' : leaves (fun m => forall c0, In c0 (c :: l) -> ~ changes c0 m) s s1).
    { eapply leaves_sub, L. intros m H. apply H. left; auto. }
    destruct o as [[]|u|x|].
    2: { exists s1, (Ub u). cj; auto; discriminate. }
    2: { exists s1, (Exit x). cj; auto; discriminate. }
    2: { exists s1, NoFuel. cj; auto; discriminate. }
    specialize (T eq_refl). destruct (IH s1) as (s2 & o & E2 & L2 & T2); [apply T|].
    exists s2, o. cj; auto.
    + eapply leaves_trans; [exact L'|]. eapply leaves_sub, L2. intros m H c0 I. apply H. right; auto.
    + intros X. eapply tidy_trans; eauto.
Qed.

Lemma session_sys l s s' o : sound s -> call_files l s = (o, s') ->
  (forall m, (forall c, In c l -> ~ changes c m) ->
     exists h, since s s' h /\ forall d, In d (s_disk s' :: h) -> d (Named m) = s_disk s (Named m))
  /\ (o = Ok tt -> tidy s s').
Proof.
  intros S E. destruct (calls_sys l s S) as (s1 & o1 & E1 & (h & A & B) & T).
  rewrite E in E1. injection E1 as <- <-. split; auto. intros m H. exists h. split; auto.
Qed.
