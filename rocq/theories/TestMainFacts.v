(** What the test programs together need of the files they are run on. *)
From Verif Require Import BaseFacts UtilsFacts StreamFacts FrameFacts HeaderFacts TagFacts.
From Verif Require Import Tests Spec SpecEdit SpecFile SpecRead SpecSession SpecCompat SpecTests.
From Verif Require Import ListFacts EditFacts HistFacts ClaimFacts FileFacts WriteFacts ReadFacts RoundFacts SessionFacts RewriteFacts CutFacts.
From Verif Require Import KindFacts CompatFacts CompatSessionFacts TestFacts TestRunFacts TestLargeFacts TestEditFacts TestDeleteFacts TestCompatFacts.
From Coq Require Import Lia ZifyBool ZifyNat Permutation.

(** ** A frame is what the API shows of it *)

Lemma frame_of_inj x y : frame_ok x = true -> frame_ok y = true -> frame_of x = frame_of y -> x = y.
Proof.
  intros Kx Ky E. pose proof (frame_ok_body _ Kx) as Bx. pose proof (frame_ok_body _ Ky) as By.
  unfold frame_of in E. injection E as Ei _ Ef Ed. apply cells_inj in Ei, Ef.
  destruct x as [i f t|f l d c|f m ty d p|i f b], y as [i' f' t'|f' l' d' c'|f' m' ty' d' p'|i' f' b']; try discriminate Ed;
    cbn [frame_id frame_flags] in Ei, Ef; subst.
  - injection Ed as _ _ E. apply cells_inj in E. f_equal. apply text_same; tauto.
  - injection Ed as _ _ E1 E2 E3. apply cells_inj in E1, E2, E3. subst. f_equal; apply text_same; tauto.
  - injection Ed as _ E1 -> E2 E3 _. apply cells_inj in E1, E2, E3. subst. f_equal; apply text_same; tauto.
  - injection Ed as E. apply cells_inj in E. now subst.
Qed.

Lemma tagged_file_read major minor flags fs pad sound :
  known_version major = true -> has_extended_header flags = false ->
  Forall (fun f => frame_ok f = true /\ readable f = true) fs ->
  0 <= pad -> frames_size fs + pad < 2 ^ 28 ->
  file_read (tagged_file major minor flags fs pad sound)
    (Some (mkTH (lit "ID3") major minor flags (frames_size fs + pad) 0, map frame_of fs, pad)).
Proof.
  intros V X K P B. destruct (tagged_read major minor flags fs pad sound V X K P B) as (t & Et & Ht & T & Pt).
  destruct (read_file_exactly (tagged_file major minor flags fs pad sound)) as [(r & ot & R & E & Sh)|(_ & u & U)]; [|congruence].
  rewrite Et in E. injection E as <-. destruct r as [[[h gs] pad']|]; [|destruct Sh]. destruct Sh as (Hh & T' & Pt').
  assert (gs = map frame_of fs) as ->.
  { destruct T as (ps & Hl & <- & _), T' as (ps' & Hl' & <- & _). rewrite Hl in Hl'. now apply list_of_inj in Hl' as ->. }
  congruence.
Qed.

(** ** Ids that occur once *)

Lemma find_only fs f : NoDup (map frame_id fs) -> Forall plain_id (map frame_id fs) -> In f fs ->
  find (titled (frame_id f)) fs = Some f.
Proof.
  induction fs as [|x fs IH]; intros D N I; [destruct I|]. cbn [map] in D, N. inversion D as [|? ? Nx D']; subst.
  inversion N as [|? ? Px N']; subst. cbn [find]. destruct I as [->|I]; [now rewrite titled_self|].
  destruct (titled (frame_id f) x) eqn:T; [|now apply IH]. exfalso. apply Nx.
  assert (Pf : plain_id (frame_id f)) by (rewrite Forall_forall in N'; apply N'; now apply in_map).
  apply titled_eq in T; [|destruct Px, Pf; congruence|apply Pf]. rewrite T. now apply in_map.
Qed.

Lemma filter_perm {A} (p : A -> bool) l l' : Permutation l l' -> length (filter p l) = length (filter p l').
Proof.
  induction 1 as [|x l l' _ IH|x y l|l l' l'' _ IH1 _ IH2]; [reflexivity| | |congruence]; cbn [filter].
  - destruct (p x); cbn [length]; congruence.
  - destruct (p x), (p y); reflexivity.
Qed.

Lemma existsb_perm {A} (p : A -> bool) l l' : Permutation l l' -> existsb p l = existsb p l'.
Proof.
  induction 1 as [|x l l' _ IH|x y l|l l' l'' _ IH1 _ IH2]; [reflexivity| | |congruence]; cbn [existsb].
  - now rewrite IH.
  - destruct (p x), (p y); reflexivity.
Qed.

Lemma second_perm id fs fs' : Permutation fs fs' -> second id fs' = None -> second id fs = None.
Proof. intros P. unfold second. rewrite !nth_error_None, (filter_perm _ _ _ P). auto. Qed.

Lemma missing_perm cover fs fs' : Permutation fs fs' -> missing cover fs = missing cover fs'.
Proof. intros P. unfold missing. f_equal. apply filter_ext. intros f. now rewrite (existsb_perm _ _ _ P). Qed.

(** ** The song *)

Lemma song_ids ty cover : map frame_id (song ty cover)
  = map lit ["TPE1"; "TALB"; "TIT2"; "TRCK"; "TPE2"; "TCON"; "TYER"; "TPOS"; "TCOM"; "COMM"; "APIC"]%string.
Proof. reflexivity. Qed.

Ltac nodup := repeat (apply NoDup_cons; [cbn [In]; intros H; repeat (destruct H as [H|H]; [discriminate H|]); destruct H|]); apply NoDup_nil.

Lemma song_nodup ty cover : NoDup (map frame_id (song ty cover)).
Proof. rewrite song_ids. cbn [map]. nodup. Qed.

Lemma song_plain ty cover : Forall plain_id (map frame_id (song ty cover)).
Proof. rewrite song_ids. repeat (constructor; [split; reflexivity|]). constructor. Qed.

Lemma song_those ty cover : Permutation (map frame_id (song ty cover)) (lit "COMM" :: deleted_ids).
Proof.
  rewrite song_ids. apply NoDup_Permutation.
  - cbn [map]. nodup.
  - unfold deleted_ids. cbn [map]. nodup.
  - intros x. unfold deleted_ids. cbn [map In]. tauto.
Qed.

Lemma song_finds ty cover fs : Permutation fs (song ty cover) ->
  Forall (fun f => find (titled (frame_id f)) fs = Some f) (song ty cover).
Proof.
  intros P. pose proof (Permutation_map frame_id P) as Pi. apply Forall_forall. intros f I. apply find_only.
  - eapply Permutation_NoDup; [symmetry; exact Pi|apply song_nodup].
  - eapply Permutation_Forall; [symmetry; exact Pi|apply song_plain].
  - eapply Permutation_in; [symmetry; exact P|exact I].
Qed.

Lemma song_found ty cover fs : just_those fs -> Forall (fun f => find (titled (frame_id f)) fs = Some f) (song ty cover) ->
  Permutation fs (song ty cover).
Proof.
  intros (comments & C & P) F. symmetry. apply NoDup_Permutation_bis.
  - eapply NoDup_map_inv. apply song_nodup.
  - apply Permutation_length in P. rewrite map_length, app_length in P. rewrite P.
    change (length deleted_ids) with 10%nat. change (length (song ty cover)) with 11%nat.
    destruct C as [->| ->]; cbn [length]; lia.
  - intros f I. rewrite Forall_forall in F. apply F in I. now apply find_some in I.
Qed.

Lemma song_just ty cover fs : Permutation fs (song ty cover) -> just_those fs.
Proof.
  intros P. exists [lit "COMM"]. split; [now right|]. rewrite (Permutation_map frame_id P). apply song_those.
Qed.

Lemma song_shown ty cover fs : Permutation fs (song ty cover) -> shown_before fs.
Proof.
  intros P. pose proof (song_finds ty cover fs P) as F. unfold song in F. repeat rewrite Forall_cons_iff in F.
  destruct F as (F1 & F2 & F3 & _ & _ & _ & F7 & _).
  repeat split; eexists _, _; (split; [eassumption|apply begins_self]).
Qed.

(** ** All together *)

Section Main.
  Variables (major minor flags : byte) (fs : list fspec) (pad : Z) (sound cover : list byte).
  Hypothesis V : known_version major = true.
  Hypothesis X : has_extended_header flags = false.
  Hypothesis Rd : Forall (fun f => frame_ok f = true /\ readable f = true) fs.
  Hypothesis P : 0 <= pad.
  Hypothesis B : frames_size fs + pad < 2 ^ 28.
  Hypothesis B' : frames_size (edited (set_edits cover) fs) + pad < 2 ^ 28.

  Local Notation original := (Some (tagged_file major minor flags fs pad sound)).

  Lemma song_ok ty : zlen cover < 2 ^ 28 -> Forall (fun f => frame_ok f = true) (song ty cover).
  Proof. intros Bc. unfold song. repeat (constructor; [reflexivity|]). constructor; [|constructor]. apply png_ok; auto; reflexivity. Qed.

  Lemma get_tagged : zlen cover < 2 ^ 28 -> get_test_existing (Some cover) original = Ok true
    <-> exists ty, Forall (fun f => find (titled (frame_id f)) fs = Some f) (song ty cover).
  Proof.
    intros Bc. assert (K : oks fs) by (eapply Forall_impl; [|exact Rd]; cbn beta; tauto).
    pose proof (tagged_file_read major minor flags fs pad sound V X Rd P B) as R.
    rewrite (get_existing cover _ _ _ _ R (oks_sane _ K) Bc).
    split; intros (ty & F); exists ty; pose proof (song_ok ty Bc) as Ks; rewrite Forall_forall in *; intros f I; specialize (F f I); specialize (Ks f I);
      rewrite find_frames in *.
    - destruct (find (titled (frame_id f)) fs) as [x|] eqn:E; [|discriminate F]. cbn [option_map] in F.
      assert (Q : frame_of x = frame_of f) by congruence. f_equal. apply frame_of_inj; auto. apply find_some in E. now apply Rd.
    - now rewrite F.
  Qed.

  Lemma cover_there ty : Permutation fs (song ty cover) -> cover <> [].
  Proof.
    intros Pm E. subst. assert (I : In (png ty (narrow "") []) fs) by (apply (Permutation_in _ (Permutation_sym Pm)); unfold song; cbn [In]; tauto).
    rewrite Forall_forall in Rd. destruct (Rd _ I) as (_ & Q). discriminate Q.
  Qed.

  Lemma png_survives ty d : text_ok d = true -> zlen (text_image d) <= 26 -> zlen cover < 2 ^ 28 -> cover <> [] ->
    major = x03 \/ zlen cover < 218 -> survives major (png ty d cover) = true.
  Proof.
    intros Kd Ld Bc N Z. unfold survives. rewrite png_ok; auto; [|change (2 ^ 27) with 134217728; lia].
    replace (readable (png ty d cover)) with true by (unfold png; cbn [readable]; now destruct cover). cbn [andb].
    unfold known_version in V. destruct Z as [->|Z]; [reflexivity|]. apply orb_prop in V as [Q|Q]; apply beq_true in Q; subst major; [reflexivity|].
    change (Byte.eqb x04 x03) with false. change (Byte.eqb x04 x04) with true. cbn [orb andb]. unfold png. rewrite picture_size.
    change (zlen (text_image (narrow "image/png"))) with 10. lia.
  Qed.

  Lemma song_survives ty : Permutation fs (song ty cover) -> zlen cover < 2 ^ 28 -> major = x03 \/ zlen cover < 218 ->
    Forall (fun f => survives major f = true) (fs ++ set_frames_of cover).
  Proof.
    intros Pm Bc Z. pose proof (cover_there ty Pm) as N.
    apply Forall_app. split; [eapply Permutation_Forall; [symmetry; exact Pm|]|].
    - unfold song. do 10 (apply Forall_cons; [unfold known_version in V; apply orb_prop in V as [Q|Q]; apply beq_true in Q; subst major; reflexivity|]).
      apply Forall_cons; [|apply Forall_nil]. apply png_survives; auto. vm_compute. congruence.
    - unfold set_frames_of, put_frames_of, new_texts. cbn [app].
      do 10 (apply Forall_cons; [unfold known_version in V; apply orb_prop in V as [Q|Q]; apply beq_true in Q; subst major; reflexivity|]).
      apply Forall_cons; [apply png_survives; auto; vm_compute; congruence|].
      apply Forall_cons; [unfold known_version in V; apply orb_prop in V as [Q|Q]; apply beq_true in Q; subst major; reflexivity|].
      apply Forall_cons; [apply png_survives; auto; vm_compute; congruence|apply Forall_nil].
  Qed.

  Lemma song_large ty : Permutation fs (song ty cover) -> edit_test (Some cover) original = Ok true -> major = x03 \/ zlen cover < 218.
  Proof.
    intros Pm E. unfold known_version in V. apply orb_prop in V as [Q|Q]; apply beq_true in Q; [now left|]. right.
    destruct (Z.lt_ge_cases (zlen cover) 218) as [L|L]; [exact L|]. exfalso. subst major. revert E.
    apply edit_large; auto.
    - eapply Permutation_Forall; [symmetry; exact Pm|]. unfold song.
      do 10 (apply Forall_cons; [right; reflexivity|]). apply Forall_cons; [now left|apply Forall_nil].
    - right. split; [|apply (second_perm _ _ _ Pm); reflexivity]. unfold other_cover, png. rewrite picture_size.
      change (zlen (text_image (narrow "image/png"))) with 10. change (zlen (text_image (wide "Description"))) with 26. lia.
  Qed.

  Lemma main_tagged no_tag empty : zlen cover < 2 ^ 28 ->
    main_test (mkExtra original no_tag empty (Some cover)) = Ok true
    <-> (exists ty, Permutation fs (song ty cover)) /\ 20 <= pad /\ (major = x03 \/ zlen cover < 218)
        /\ untagged no_tag /\ untagged empty /\ untagged (Some sound).
  Proof.
    intros Bc. unfold main_test. cbn [album_cover_png file_mp3 no_tag_mp3 empty_mp3].
    rewrite !assert_and, get_empty, (get_tagged Bc), (delete_exactly major minor flags fs pad sound V X Rd P B).
    assert (M0 : forall ty, Permutation fs (song ty cover) -> missing cover fs = 0).
    { intros ty Pm. rewrite (missing_perm cover _ _ Pm). reflexivity. }
    split.
    - intros ((ty & F) & (Un & Ue) & Te & (J & Us) & _).
      pose proof (song_found ty cover fs J F) as Pm. pose proof (song_large ty Pm Te) as Z.
      pose proof (edit_tagged major minor flags fs pad sound cover V X (song_survives ty Pm Bc Z) P B B') as E. cbv zeta in E.
      split; [now exists ty|]. split; [|auto]. rewrite (M0 ty Pm) in E.
      destruct (Z.ltb_spec pad (10 * (2 + 0))) as [L|L]; [|lia]. destruct E as (u & E). congruence.
    - intros ((ty & Pm) & L & Z & Un & Ue & Us).
      pose proof (song_survives ty Pm Bc Z) as S. pose proof (edit_tagged major minor flags fs pad sound cover V X S P B B') as E. cbv zeta in E.
      split; [exists ty; now apply song_finds|]. split; [auto|]. rewrite (M0 ty Pm) in E.
      replace (pad <? 10 * (2 + 0)) with false in E by lia. destruct E as (b & E & Eb).
      assert (S1 : second "COMM" fs = None) by (apply (second_perm _ _ _ Pm); reflexivity).
      assert (S2 : second "APIC" fs = None) by (apply (second_perm _ _ _ Pm); reflexivity).
      assert (b = true) as -> by (apply Eb; auto).
      split; [exact E|]. split; [|split; [|reflexivity]].
      + split; [now apply (song_just ty cover)|exact Us].
      + apply (compat_tagged major minor flags fs pad sound V X); auto; [apply Forall_app in S; apply S|now apply (song_shown ty cover)].
  Qed.
End Main.
