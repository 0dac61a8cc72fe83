(** Any file that can be read is written again, edited or not. *)
From Verif Require Import BaseFacts UtilsFacts StreamFacts FrameFacts HeaderFacts TagFacts.
From Verif Require Import File Calls Spec SpecEdit SpecFile SpecRead SpecSession SpecRewrite.
From Verif Require Import ListFacts EditFacts WriteFacts HistFacts ClaimFacts RoundFacts FileFacts ReadFacts SessionFacts.
From Coq Require Import Lia ZifyBool ZifyNat.

(** ** What is seen *)

(** A frame that is seen again when it is written. *)
Definition shown (s : fspec) : Prop := match s with FPicture _ _ _ _ pic => pic <> [] | _ => True end.

(** How a frame that was cut off is written. *)
Definition spoils (g : frame) : Prop :=
  (exists u, Frame_to_char_stream (Some g) = Ub u)
  \/ exists m, Frame_to_char_stream (Some g) = Ok (Some (mkCS (zlen m) (zlen m) m)) /\ In None m.

Lemma iadd_over a b : 2 ^ 31 <= a + b -> iadd a b = Ub IntOverflow.
Proof. intros H. unfold iadd, chk_int. replace (a + b <? 2 ^ 31) with false by lia. now rewrite andb_false_r. Qed.

Lemma in_repeat_none (k : nat) : (0 < k)%nat -> In (@None byte) (repeat None k).
Proof. destruct k; [lia|]. now left. Qed.

Lemma header_write_mem id (fl : mem) s :
  length id = 4%nat -> length fl = 2%nat ->
  FrameHeader_to_char_stream (mkFH (cells id) s fl) = Ok (mkCS 10 10 (cells (id ++ be32 s) ++ fl)).
Proof.
  intros Li Lf. unfold FrameHeader_to_char_stream. go. change ID3v2_FRAME_HEADER_LENGTH with 10.
  assert (Zi : zlen id = 4) by (unfold zlen; rewrite Li; reflexivity).
  assert (Zf : zlen fl = 2) by (unfold zlen; rewrite Lf; reflexivity).
  assert (Zs : zlen (be32 s) = 4) by reflexivity.
  rewrite itob_spec.
  rewrite new_z by lia. go.
  rewrite write_z'; zl; rewrite ?Zi; try reflexivity; try lia. go.
  rewrite write_z'; zl; rewrite ?Zi, ?Zs; try reflexivity; try lia. go.
  rewrite write_z'; zl; rewrite ?Zi, ?Zs, ?Zf; try reflexivity; try lia. go.
  rewrite at_pos_end by reflexivity. cbn [app].
  rewrite <- !cells_app. zl. rewrite Zi, Zs, Zf. reflexivity.
Qed.

(** The frames that can be cut off. *)
Definition cut_shape (g : frame) : Prop :=
  (exists id (fl body : mem), length id = 4%nat /\ length fl = 2%nat
     /\ id_starts id "T" = false /\ id_starts id "C" = false /\ id_starts id "A" = false
     /\ (In None fl \/ In None body)
     /\ g = mkFrame (mkFH (cells id) (zlen body) fl) (DRaw body))
  \/ (exists fl m ty d (data : mem), length fl = 2%nat /\ text_ok m = true /\ text_ok d = true /\ In None data
     /\ g = mkFrame (mkFH (cells (lit "APIC")) (2 + zlen (text_image m) + zlen (text_image d) + zlen data) (cells fl))
              (DApic (mkAD (text_encoding d) (cells (text_image m)) ty (cells (text_image d)) data (zlen data)))).

(** What is written of a frame. *)
Definition layout (g : frame) : mem :=
  fh_id (f_hdr g) ++ cells (be32 (fh_size (f_hdr g))) ++ fh_flags (f_hdr g) ++ body_cells g.

Lemma cut_sizes g : cut_shape g ->
  zlen (fh_id (f_hdr g)) = 4 /\ zlen (fh_flags (f_hdr g)) = 2 /\ zlen (body_cells g) = fh_size (f_hdr g)
  /\ zlen (layout g) = fh_size (f_hdr g) + 10 /\ 0 <= fh_size (f_hdr g).
Proof.
  intros C. assert (A : zlen (fh_id (f_hdr g)) = 4 /\ zlen (fh_flags (f_hdr g)) = 2 /\ zlen (body_cells g) = fh_size (f_hdr g)).
  { destruct C as [(id & fl & body & Li & Lf & _ & _ & _ & _ & ->)|(fl & m & ty & d & data & Lf & _ & _ & _ & ->)];
      unfold body_cells; cbn [f_hdr f_data fh_id fh_flags fh_size ad_encoding ad_mime ad_type ad_desc ad_data].
    - rewrite zlen_cells. unfold zlen. rewrite Li, Lf. auto.
    - rewrite !zlen_cells, zlen_cons, zlen_app, zlen_cons, zlen_app, !zlen_cells. unfold zlen at 2. rewrite Lf.
      split; [reflexivity|]. split; [reflexivity|lia]. }
  destruct A as (A & B & E). split; [exact A|]. split; [exact B|]. split; [exact E|]. unfold layout.
  rewrite !zlen_app, A, B, E, zlen_cells. change (zlen (be32 (fh_size (f_hdr g)))) with 4.
  pose proof (zlen_nonneg (body_cells g)). lia.
Qed.

Lemma cut_unknown g : cut_shape g -> cut_frame g /\ In None (layout g).
Proof.
  unfold layout, cut_frame. rewrite !in_app_iff.
  intros [(id & fl & body & _ & _ & _ & _ & _ & N & ->)|(fl & m & ty & d & data & _ & _ & _ & N & ->)];
    unfold body_cells; cbn [f_hdr f_data fh_id fh_flags fh_size ad_encoding ad_mime ad_type ad_desc ad_data]; [tauto|].
  split; [tauto|]. right. right. right. right. rewrite in_app_iff. right. right. rewrite in_app_iff. tauto.
Qed.

(** How a frame that was cut off is written. *)
Lemma cut_writes g : cut_shape g ->
  Frame_to_char_stream (Some g)
  = if fh_size (f_hdr g) + 10 <? 2 ^ 31 then Ok (Some (mkCS (zlen (layout g)) (zlen (layout g)) (layout g))) else Ub IntOverflow.
Proof.
  intros C. pose proof (cut_sizes g C) as (_ & _ & _ & Zl & _).
  destruct C as [(id & fl & body & Li & Lf & H1 & H2 & H3 & N & ->)|(fl & m & ty & d & data & Lf & Hm & Hd & N & ->)];
    unfold Frame_to_char_stream, FrameHeader_isTextFrame, FrameHeader_isCommentFrame, FrameHeader_isApicFrame;
    cbn [f_hdr f_data fh_size] in *.
  - rewrite !(id0_is_cells _ id) by (auto; now apply (len_nonnil _ 3)). go. rewrite H1, H2, H3.
    change ID3v2_FRAME_HEADER_LENGTH with 10. pose proof (zlen_nonneg body).
    destruct (Z.ltb_spec (zlen body + 10) (2 ^ 31)) as [B|B]; [|now rewrite iadd_over by lia].
    rewrite iadd_ok by lia. go. rewrite new_z by lia. go. rewrite header_write_mem by auto. go. cbn [cs_stream].
    assert (E : zlen (cells (id ++ be32 (zlen body)) ++ fl) = 10).
    { assert (Zi : zlen id = 4) by (unfold zlen; rewrite Li; reflexivity).
      assert (Zf : zlen fl = 2) by (unfold zlen; rewrite Lf; reflexivity).
      zl. rewrite Zi, Zf. reflexivity. }
    rewrite write_z'; [|change (zlen (@nil cell)) with 0; lia|now rewrite E|rewrite E; lia]. go.
    rewrite write_z'; [|cbn [app]; rewrite E; lia|reflexivity|rewrite E; lia]. go.
    rewrite at_pos_end by (rewrite E; lia). cbn [app].
    unfold layout, body_cells. cbn [f_hdr f_data fh_id fh_flags fh_size]. now rewrite cells_app, <- !app_assoc.
  - rewrite !(id0_is_cells _ (lit "APIC")) by (reflexivity || discriminate). go.
    change (id_starts (lit "APIC") "T") with false. change (id_starts (lit "APIC") "C") with false.
    change (id_starts (lit "APIC") "A") with true. cbv iota.
    unfold ApicFrame_to_char_stream.
    pose proof (text_image_pos d). pose proof (text_image_pos m). pose proof (zlen_nonneg data).
    set (s := 2 + zlen (text_image m) + zlen (text_image d) + zlen data) in *.
    destruct (Z.ltb_spec (s + 10) (2 ^ 31)) as [B|B].
    2:{ unfold start_frame_stream. rewrite FrameHeader_write by (auto; reflexivity). go. cbn [fh_size].
        change ID3v2_FRAME_HEADER_LENGTH with 10.
        now rewrite iadd_over by lia. }
    unfold s in *.
    rewrite start_stream by (auto; lia). go. cbn [ad_encoding ad_mime ad_type ad_desc ad_data ad_picture_size].
    match goal with |- context [at_pos (cells ?l)] => assert (E : zlen l = 10) end.
    { zl. unfold zlen. rewrite Lf. reflexivity. }
    rewrite write_z'; [|rewrite zlen_cells, E; lia|reflexivity|zl; lia]. go.
    rewrite strlent_text' by (auto; lia). go.
    rewrite write_z'; [|zl; rewrite ?zlen_app in E; lia|now rewrite zlen_cells|zl; lia]. go.
    rewrite write_z'; [|zl; rewrite ?zlen_app in E; lia|reflexivity|zl; lia]. go.
    rewrite strlent_text' by (auto; lia). go.
    rewrite write_z'; [|zl; rewrite ?zlen_app in E; lia|now rewrite zlen_cells|zl; lia]. go.
    rewrite write_z'; [|zl; rewrite ?zlen_app in E; lia|reflexivity|zl; lia]. go.
    rewrite at_pos_end by (zl; lia).
    match goal with |- Ok (Some (mkCS (zlen ?x) _ _)) = Ok (Some (mkCS (zlen ?y) _ _)) => replace x with y; [reflexivity|] end.
    unfold layout, body_cells.
    cbn [f_hdr f_data fh_id fh_flags fh_size ad_encoding ad_mime ad_type ad_desc ad_data]. rewrite !cells_app, <- !app_assoc. reflexivity.
Qed.

Lemma cut_spoils g : cut_shape g -> spoils g.
Proof.
  intros C. unfold spoils. rewrite (cut_writes g C). destruct (_ <? _); [right|left; eauto].
  eexists. split; [reflexivity|]. now apply cut_unknown.
Qed.

Lemma zlen_of {A} (l : list A) n : length l = n -> zlen l = Z.of_nat n.
Proof. intros <-. reflexivity. Qed.

Ltac lens := repeat match goal with H : length ?l = ?n |- _ =>
  lazymatch n with
  | S _ => lazymatch goal with _ : zlen l = _ |- _ => fail | _ => pose proof (zlen_of l n H) end
  end end.

Lemma frame_seen ver used gap rest f : frame_read ver used gap rest (Some f) -> zlen used + 10 < 2 ^ 31 ->
  (exists s, f = frame_of s /\ frame_ok s = true /\ shown s /\ 10 + body_size s <= zlen used)
  \/ (cut_shape f /\ rest = []).
Proof.
  intros R B. remember (Some f) as r eqn:Er. destruct R as
    [rest|id size flags enc t junk gap rest Li Ls Lf H1 H2 H3 H4|id size flags enc lang d c rest Li Ls Lf Ll H1 H2 H3
    |id size flags enc m ty d pic gap rest Li Ls Lf H1 H2 H3 n H4 H5 H6|id size flags body gap rest Li Ls Lf H1 H2 H3 H4 H5 H6
    |id size flags gap Li Ls Lf H1 H2 H3 H4 H5]; [discriminate Er|..]; apply (f_equal (fun o => match o with Some x => x | None => f end)) in Er; cbn beta iota in Er; subst f; lens.
  - left. exists (FText id flags t). split; [reflexivity|].
    assert (Z : zlen (id ++ size ++ flags ++ [enc] ++ text_image t ++ junk) = 11 + zlen (text_image t) + zlen junk).
    { rewrite !zlen_app. change (zlen [enc]) with 1. lia. }
    pose proof (zlen_nonneg junk). rewrite body_size_text. split; [|split; [exact I|lia]].
    unfold frame_ok. cbn [frame_id frame_flags]. unfold len_is. rewrite Li, Lf, H1, H2, body_size_text. cbn [Nat.eqb andb]. lia.
  - left. exists (FComment flags lang d c). split; [reflexivity|].
    assert (Z : zlen (id ++ size ++ flags ++ [enc] ++ lang ++ text_image d ++ text_image c)
                = 14 + zlen (text_image d) + zlen (text_image c)).
    { rewrite !zlen_app. change (zlen [enc]) with 1. lia. }
    rewrite body_size_comment. split; [|split; [exact I|lia]].
    unfold frame_ok. cbn [frame_id frame_flags]. unfold len_is. rewrite Lf, Ll, H2, H3, body_size_comment.
    change (length (lit "COMM") =? 4)%nat with true. cbn [Nat.eqb andb]. lia.
  - destruct gap as [|gap].
    + left. exists (FPicture flags m ty d pic). unfold n in *. change (Z.of_nat 0) with 0 in *. rewrite Z.add_0_r in *.
      cbn [repeat]. rewrite app_nil_r.
      assert (Z : zlen (id ++ size ++ flags ++ [enc] ++ text_image m ++ [ty] ++ text_image d ++ pic)
                  = 12 + zlen (text_image m) + zlen (text_image d) + zlen pic).
      { rewrite !zlen_app. change (zlen [enc]) with 1. change (zlen [ty]) with 1. lia. }
      split; [unfold frame_of; cbn [frame_id frame_flags]; rewrite body_size_picture; do 2 f_equal; lia|].
      rewrite body_size_picture. split; [|split; [|lia]].
      * unfold frame_ok. cbn [frame_id frame_flags]. unfold len_is. rewrite Lf, H2, H3, body_size_picture.
        change (length (lit "APIC") =? 4)%nat with true. cbn [Nat.eqb andb]. lia.
      * cbn [shown]. intros ->. change (zlen (@nil byte)) with 0 in *. lia.
    + right. assert (I : In None (cells pic ++ repeat None (S gap))) by (apply in_or_app; right; apply in_repeat_none; lia).
      split; [|destruct H6 as [?|?]; [discriminate|assumption]].
      assert (Zd : zlen (cells pic ++ repeat None (S gap)) = n).
      { unfold n. rewrite zlen_app, zlen_cells, zlen_repeat. reflexivity. }
      rewrite H5, <- Zd. right. exists flags, m, ty, d, (cells pic ++ repeat None (S gap)). repeat (split; [assumption|]). reflexivity.
  - destruct gap as [|gap].
    + left. exists (FOther id flags body). change (Z.of_nat 0) with 0 in *. rewrite Z.add_0_r in *. cbn [repeat]. rewrite app_nil_r.
      assert (Z : zlen (id ++ size ++ flags ++ body) = 10 + zlen body).
      { rewrite !zlen_app. lia. }
      split; [unfold frame_of; cbn [frame_id frame_flags]; rewrite body_size_other; now rewrite H5|].
      rewrite body_size_other. split; [|split; [exact I|lia]].
      unfold frame_ok. cbn [frame_id frame_flags]. unfold len_is. rewrite Li, Lf, H1, H2, H3, H4, body_size_other.
      cbn [Nat.eqb andb negb]. lia.
    + right. assert (I : In None (cells body ++ repeat None (S gap))) by (apply in_or_app; right; apply in_repeat_none; lia).
      split; [|destruct H6 as [?|?]; [discriminate|assumption]].
      assert (Zd : zlen (cells body ++ repeat None (S gap)) = zlen body + Z.of_nat (S gap)).
      { now rewrite zlen_app, zlen_cells, zlen_repeat. }
      rewrite H5, <- Zd. left. exists id, (cells flags), (cells body ++ repeat None (S gap)). rewrite length_cells. repeat (split; [solve [auto]|]). reflexivity.
  - right. assert (I : In None (cells flags ++ repeat None (2 - length flags))) by (apply in_or_app; right; apply in_repeat_none; lia).
    split; [|reflexivity].
    assert (Zd : zlen (repeat (@None byte) gap) = Z.of_nat gap) by apply zlen_repeat.
    rewrite H5, <- Zd.
    left. exists id, (cells flags ++ repeat None (2 - length flags)), (repeat None gap). split; [exact Li|]. split; [|repeat (split; [solve [auto]|]); reflexivity]. rewrite app_length, length_cells, repeat_length. lia.
Qed.

(** Every frame starts below the limit. *)
Fixpoint reached (limit pos : Z) (ss : list fspec) : Prop :=
  match ss with
  | [] => True
  | s :: ss => pos < limit /\ reached limit (pos + (10 + body_size s)) ss
  end.

Lemma reached_earlier limit ss : forall pos pos', pos' <= pos -> reached limit pos ss -> reached limit pos' ss.
Proof.
  induction ss as [|s ss IH]; intros pos pos' L H; [exact I|]. destruct H as (H & R). split; [lia|].
  eapply IH; [|exact R]. lia.
Qed.

Lemma frames_seen ver limit k pos l gs fin : frames_read ver limit k pos l gs fin ->
  0 <= pos -> pos + zlen l + Z.of_nat k + 10 < 2 ^ 31 ->
  pos <= fin <= pos + zlen l + Z.of_nat k
  /\ ((exists ss, gs = map frame_of ss /\ oks ss /\ Forall shown ss /\ pos + frames_size ss <= fin /\ reached limit pos ss)
      \/ (exists ss g, gs = map frame_of ss ++ [g] /\ oks ss /\ cut_shape g)).
Proof.
  induction 1 as [k pos l H|k pos l H Hf|k pos used gap rest f fs fin H Hf Hr IH]; intros P B.
  1,2: pose proof (zlen_nonneg l); split; [lia|]; left; exists []; change (frames_size []) with 0;
    repeat split; try constructor; lia.
  pose proof (zlen_nonneg used) as Nu. pose proof (zlen_nonneg rest) as Nr. rewrite zlen_app in *.
  destruct IH as (IHf & IH); [lia|lia|]. split; [lia|].
  destruct (frame_seen _ _ _ _ _ Hf) as [(s & -> & K & Sh & Z)|(C & ->)]; [lia| |].
  - destruct IH as [(ss & -> & Ks & Ss & Zs & Rs)|(ss & g & -> & Ks & C)].
    + left. exists (s :: ss). rewrite frames_size_cons. repeat split; auto; try (now constructor); try lia.
      eapply reached_earlier; [|exact Rs]. lia.
    + right. exists (s :: ss), g. repeat split; auto. now constructor.
  - right. exists [], f. inversion Hr; subst.
    + repeat split; auto. constructor.
    + exfalso. match goal with Q : frame_read _ _ _ _ None |- _ => now apply frame_read_nonempty in Q end.
    + exfalso. match goal with Q : frame_read _ _ _ _ (Some _) |- _ => apply frame_read_nonempty in Q; destruct used0; cbn [app] in *; congruence end.
Qed.

Lemma file_seen content h gs pad : file_read content (Some (h, gs, pad)) ->
  exists major minor flags n,
    h = mkTH (lit "ID3") major minor flags n 0 /\ known_version major = true /\ has_extended_header flags = false
    /\ announces_extended content = false /\ tag_length content = Some (10 + n) /\ 0 <= n < 2 ^ 29 /\ 0 <= pad <= n
    /\ ((exists ss, gs = map frame_of ss /\ oks ss /\ Forall shown ss /\ frames_size ss <= n /\ reached n 10 ss)
        \/ (exists ss g, gs = map frame_of ss ++ [g] /\ oks ss /\ cut_shape g)).
Proof.
  intros (X & R). destruct (tag_length content) as [N|] eqn:T; [|discriminate R].
  pose proof (tag_length_range _ _ T) as RN. change (2 ^ 29) with 536870912 in *.
  destruct (fread_ahead content N ltac:(lia)) as (_ & Zl).
  set (k := (Z.to_nat N - length content)%nat) in *.
  remember (firstn (Z.to_nat N) content) as l eqn:El.
  assert (Ec : content = l ++ skipn (Z.to_nat N) content) by (subst l; now rewrite firstn_skipn).
  inversion R as [| |major minor flags size body fs fin E Ls V F FR|major minor flags size ext body fs fin E Ls Le V F e start FR]; subst h gs pad.
  - rewrite E in Ec. destruct size as [|s3 [|s2 [|s1 [|s0 [|? ?]]]]]; try discriminate Ls.
    assert (TN : N = 10 + synchsafe_value [s3; s2; s1; s0]).
    { rewrite Ec in T. change (tag_length ((lit "ID3" ++ [major; minor; flags] ++ [s3; s2; s1; s0] ++ body) ++ skipn (Z.to_nat N) content))
        with (if known_version major then Some (10 + synchsafe_value [s3; s2; s1; s0]) else None) in T.
      rewrite V in T. congruence. }
    set (n := synchsafe_value [s3; s2; s1; s0]) in *.
    assert (Zb : zlen l = 10 + zlen body).
    { rewrite E. rewrite !zlen_app. change (zlen (lit "ID3")) with 3. change (zlen [major; minor; flags]) with 3.
      change (zlen [s3; s2; s1; s0]) with 4. lia. }
    destruct (frames_seen _ _ _ _ _ _ _ FR) as (Rf & C); [lia|change (2 ^ 31) with 2147483648; lia|].
    exists major, minor, flags, n. split; [reflexivity|]. split; [exact V|]. split; [exact F|]. split; [exact X|].
    split; [now rewrite TN|]. split; [lia|]. split; [lia|].
    destruct C as [(ss & C1 & C2 & C3 & C4 & C5)|C]; [left|now right].
    exists ss. repeat split; auto. lia.
  - exfalso. rewrite E in Ec. destruct size as [|s3 [|s2 [|s1 [|s0 [|? ?]]]]]; try discriminate Ls.
    rewrite Ec in X. change (announces_extended ((lit "ID3" ++ [major; minor; flags] ++ [s3; s2; s1; s0] ++ ext ++ body) ++ skipn (Z.to_nat N) content))
      with (known_version major && has_extended_header flags) in X.
    rewrite V, F in X. discriminate X.
Qed.

(** ** Seen again *)

Lemma zeros_split pad : 4 <= pad -> exists r, zeros pad = [x00; x00; x00; x00] ++ r.
Proof.
  intros H. exists (zeros (pad - 4)). unfold zeros. replace (Z.to_nat pad) with (4 + Z.to_nat (pad - 4))%nat by lia. reflexivity.
Qed.

Lemma frame_again ver s rest : frame_ok s = true -> shown s ->
  declared_size ver (be32 (body_size s)) = body_size s \/ is_comment s = true ->
  frame_read ver (frame_image be32 s) 0 rest (Some (frame_of s)).
Proof.
  intros K Sh D. pose proof (frame_ok_common _ K) as (Hi & Hf & _). pose proof (frame_ok_kind _ K) as Hk.
  assert (N0 : cut_off 0 rest) by (now left).
  unfold frame_image. set (sz := be32 (body_size s)) in *.
  assert (Ls : length sz = 4%nat) by reflexivity. clearbody sz.
  destruct s as [id fl t|fl lang d c|fl m ty d pic|id fl body]; cbn [frame_id frame_flags is_comment] in *;
    unfold frame_body, body_with; cbn [frame_encoding].
  - destruct D as [D|D]; [|discriminate D]. rewrite <- (app_nil_r (text_image t)) at 1.
    apply ReadText; auto; try tauto. rewrite D, body_size_text, app_nil_r. lia.
  - apply ReadComment; auto; tauto.
  - destruct D as [D|D]; [|discriminate D]. cbn [shown] in Sh.
    assert (P : 0 < zlen pic). { destruct pic; [congruence|]. rewrite zlen_cons. pose proof (zlen_nonneg pic). lia. }
    pose proof (ReadPicture ver (lit "APIC") sz fl (text_encoding d) m ty d pic 0 rest eq_refl Ls Hf eq_refl
      (proj1 Hk) (proj2 Hk)) as Q. cbv zeta in Q. change (Z.of_nat 0) with 0 in Q. rewrite Z.add_0_r in Q. cbn [repeat] in Q.
    rewrite app_nil_r in Q. rewrite D in Q. unfold frame_of. cbn [frame_id frame_flags]. apply Q; auto. rewrite body_size_picture. lia.
  - destruct D as [D|D]; [|discriminate D]. destruct Hk as (K1 & K2 & K3 & K4).
    pose proof (ReadOther ver id sz fl body 0 rest Hi Ls Hf K1 K2 K3 K4) as Q. rewrite D in Q. cbn [repeat] in Q.
    rewrite app_nil_r in Q. unfold frame_of. cbn [frame_id frame_flags]. apply Q; auto. rewrite body_size_other. lia.
Qed.

Lemma frames_again ver limit pad ss : forall pos, oks ss -> Forall shown ss ->
  Forall (fun s => declared_size ver (be32 (body_size s)) = body_size s \/ is_comment s = true) ss ->
  reached limit pos ss -> limit <= pos + frames_size ss \/ 4 <= pad ->
  frames_read ver limit 0 pos (images be32 ss ++ zeros pad) (map frame_of ss) (pos + frames_size ss).
Proof.
  induction ss as [|s ss IH]; intros pos K Sh D R P.
  - change (frames_size []) with 0 in *. rewrite Z.add_0_r in *. cbn [images flat_map app map].
    destruct (Z.le_gt_cases limit pos) as [L|L]; [now constructor|].
    destruct P as [P|P]; [lia|]. destruct (zeros_split pad P) as (r & ->). apply ReadStop; [exact L|]. constructor.
  - inversion K; inversion Sh; inversion D; subst. destruct R as (R1 & R2).
    rewrite images_cons, <- app_assoc, frames_size_cons in *. cbn [map].
    apply ReadFrame with (gap := 0%nat); [exact R1|now apply frame_again|].
    cbn [Nat.min]. change (Z.of_nat 0) with 0. rewrite Z.add_0_r. cbn [Nat.sub].
    rewrite frame_image_length by auto.
    replace (pos + (10 + body_size s + frames_size ss)) with (pos + (body_size s + 10) + frames_size ss) by lia.
    apply IH; auto; [|lia]. replace (pos + (body_size s + 10)) with (pos + (10 + body_size s)) by lia. exact R2.
Qed.

Lemma written_again major minor flags n ss sound :
  known_version major = true -> has_extended_header flags = false ->
  oks ss -> Forall shown ss -> Forall (fun s => size_kept major (frame_of s)) ss ->
  reached n 10 ss -> frames_size ss <= n -> n < 2 ^ 28 ->
  file_read (tag_bytes major minor flags n ss ++ sound)
    (Some (mkTH (lit "ID3") major minor flags n 0, map frame_of ss, n - frames_size ss)).
Proof.
  intros V X K Sh Sk R L B. pose proof (frames_size_nonneg ss).
  destruct (written_file major minor flags n ss sound V X K L B) as (Xc & Tl & _). cbv zeta in *.
  split; [exact Xc|]. rewrite Tl. pose proof (tag_bytes_zlen major minor flags n ss K L) as Z.
  rewrite firstn_app_exact by (unfold zlen in Z; lia). rewrite app_length.
  replace (Z.to_nat (10 + n) - _)%nat with O by (unfold zlen in Z; lia).
  replace (n - frames_size ss) with (zlen (tag_bytes major minor flags n ss) + Z.of_nat 0 - (10 + frames_size ss)) by lia.
  assert (Sv : synchsafe_value (synchsafe32 n) = n) by (apply synchsafe_value_synchsafe32; lia).
  rewrite <- Sv at 2. apply ReadPlain with (body := images be32 ss ++ zeros (n - frames_size ss)); auto.
  rewrite Sv. apply frames_again; auto; [|lia].
  rewrite Forall_forall in Sk |- *. intros s Hs. specialize (Sk s Hs). unfold oks in K. rewrite Forall_forall in K.
  pose proof (frame_ok_common _ (K s Hs)) as (_ & _ & Bs). pose proof (body_size_nonneg s).
  assert (Vm : major = x03 \/ major = x04).
  { unfold known_version in V. apply orb_prop in V. destruct V as [V|V]; apply beq_true in V; auto. }
  destruct Sk as [->|[Sk|Sk]].
  + left. apply declared_be32; [discriminate|lia].
  + left. cbn [f_hdr frame_of fh_size] in Sk. destruct Vm as [->| ->]; [apply declared_be32; [discriminate|lia]|].
    apply declared_be32_v4; lia.
  + right. destruct s; cbn [f_data frame_of is_comment] in *; tauto.
Qed.

(** ** Writing *)

Lemma any_session content major minor flags n pad fs cs es :
  file_read content (Some (mkTH (lit "ID3") major minor flags n 0, map frame_of fs, pad)) ->
  oks fs -> n < 2 ^ 28 ->
  Forall2 means cs es -> all_proper es fs = true ->
  let fs' := edited es fs in
  let room := room_left es fs (n - frames_size fs) in
  let n' := frames_size fs' + room in
  - 2 ^ 31 <= n' < 2 ^ 28 ->
  exists t t', ID3v2_read_tag (Some content) = Ok (Some t) /\ run_calls t cs = Ok t'
    /\ if 0 <=? room
       then ID3v2_write_tag (Some content) (Some t')
            = Ok (Some (tag_bytes major minor flags n' fs' ++ audio content), Some (padded t'))
       else exists u, ID3v2_write_tag (Some content) (Some t') = Ub u.
Proof.
  intros R Ko B M A fs' room n' N.
  destruct (file_seen _ _ _ _ R) as (major' & minor' & flags' & n2 & Eh & _ & _ & Xc & _ & Rn & Rp & _).
  injection Eh as <- <- <- <-. change (2 ^ 29) with 536870912 in *. change (2 ^ 28) with 268435456 in *.
  destruct (read_file_exactly content) as [(r & ot & R' & Et & Sh)|(Nr & _)]; [|now apply Nr in R].
  pose proof (file_read_once _ _ _ R R') as <-. destruct ot as [t|]; [|destruct Sh]. destruct Sh as (Ht & Tt & Pt).
  pose proof (frames_size_nonneg fs). pose proof (frames_size_nonneg fs') as Nf.
  assert (Ko' : oks fs') by now apply edited_oks.
  assert (Sa : Forall sane (map frame_of fs)) by (apply well_formed_sane, fspecs_well_formed; auto).
  assert (Rt : 0 <= th_tag_size (t_header t) < 2 ^ 32) by (rewrite Ht; cbn [th_tag_size]; change (2 ^ 32) with 4294967296; lia).
  rewrite <- all_proper_allowed in A.
  destruct (edit_steps cs t (map frame_of fs) es Tt Sa Rt M A) as (t' & Er & T' & _ & H' & P').
  rewrite edits_map in T', H'. fold fs' in T', H'. rewrite !bytes_needed_frames in H'.
  exists t, t'. split; [exact Et|]. split; [exact Er|].
  assert (Hn : t_header t' = mkTH (lit "ID3") major minor flags (n' mod 2 ^ 32) 0).
  { rewrite H', Ht. unfold sized. cbn [th_identifier th_major th_minor th_flags th_ext_size th_tag_size]. f_equal. f_equal.
    unfold n', room. rewrite room_left_deltas. lia. }
  assert (Pp : 2048 - 2 ^ 31 < t_padding t' < 2 ^ 31) by (rewrite P', Pt; change (2 ^ 31) with 2147483648; lia).
  change (2 ^ 31) with 2147483648 in N.
  destruct (0 <=? room) eqn:Ro.
  - rewrite Z.mod_small in Hn by (change (2 ^ 32) with 4294967296; lia).
    apply (write_file content t' fs' major minor flags n' 0); auto; try lia.

  - assert (W : exists u, Tag_to_char_stream t' = Ub u).
    { pose proof (tag_write_iff t' fs' major minor flags (n' mod 2 ^ 32) 0 T' Ko' Hn) as W.
      assert (Q : 0 <= n' mod 2 ^ 32 < 2 ^ 32) by (apply Z.mod_pos_bound; reflexivity). specialize (W Q).
      replace ((frames_size fs' <=? n' mod 2 ^ 32) && (n' mod 2 ^ 32 + 10 <? 2 ^ 31)) with false in W; [exact W|].
      symmetry. change (2 ^ 32) with 4294967296. change (2 ^ 31) with 2147483648.
      destruct (Z.leb_spec 0 n').
      - rewrite Z.mod_small by lia. lia.
      - replace (n' mod 4294967296) with (n' + 4294967296); [lia|].
        apply Z.mod_unique with (-1); lia. }
    destruct W as (u & W). exists u. now apply write_fails.
Qed.

Lemma fwrite_unknown m : In None m -> fwrite_bytes m = Ub UninitRead.
Proof.
  induction m as [|[b|] m IH]; intros H; [destruct H| |reflexivity]. cbn [fwrite_bytes].
  destruct H as [H|H]; [discriminate H|]. now rewrite IH.
Qed.

Lemma write_unknown content t cs :
  announces_extended content = false -> 2048 - 2 ^ 31 < t_padding t < 2 ^ 31 ->
  Tag_to_char_stream t = Ok cs -> In None (cs_stream cs) -> cs_size cs = zlen (cs_stream cs) ->
  ID3v2_write_tag (Some content) (Some t) = Ub UninitRead.
Proof.
  intros X P W N Z. destruct (file_header content X) as (h & E & H).
  unfold ID3v2_write_tag. cbn [ID3v2_write_tag_states]. rewrite E. go.
  pose proof (padding_any (t_padding t) P) as Q. unfold bind in Q at 1.
  destruct (isub ID3v2_TAG_DEFAULT_PADDING_LENGTH (t_padding t)) eqn:I; try discriminate Q. go. rewrite Q. go.
  change (Tag_to_char_stream (mkTag (t_header t) (t_frames t) _ (t_fresh t))) with (Tag_to_char_stream t).
  rewrite W. go. rewrite Z, firstn_all2 by (unfold zlen; lia). now rewrite fwrite_unknown.
Qed.

(** A frame that was cut off spoils the tag. *)
Lemma cut_write content t ss g major minor flags n :
  announces_extended content = false -> 2048 - 2 ^ 31 < t_padding t < 2 ^ 31 ->
  t_header t = mkTH (lit "ID3") major minor flags n 0 -> 0 <= n < 2 ^ 29 ->
  tag_has t (map frame_of ss ++ [g]) -> oks ss -> spoils g ->
  exists u, ID3v2_write_tag (Some content) (Some t) = Ub u.
Proof.
  intros X P H N (ps & Hl & M & _) K S. change (2 ^ 29) with 536870912 in N.
  destruct (map_eq_app _ _ _ _ M) as (ps1 & ps2 & -> & M1 & M2).
  destruct ps2 as [|p [|? ?]]; try discriminate M2. injection M2 as Mp.
  rewrite list_of_nodes in Hl by (destruct ps1; discriminate).
  assert (E : nodes (ps1 ++ [p]) = nodes ps1 ++ [fnode p]) by (unfold nodes; now rewrite map_app).
  assert (W : Tag_to_char_stream t
    = write_frames (at_pos (cells (lit "ID3" ++ [major; minor; flags] ++ four_bytes n)) (zmem n)) (nodes ps1 ++ [fnode p])).
  { rewrite tag_write_start, H, start_tag_ok by (change (2 ^ 31) with 2147483648; lia). go. rewrite Hl, E.
    destruct ps1; reflexivity. }
  set (pre := cells (lit "ID3" ++ [major; minor; flags] ++ four_bytes n)) in *.
  assert (Zp : zlen pre = 10) by reflexivity. clearbody pre.
  assert (B : zlen pre + n < 2 ^ 31) by (change (2 ^ 31) with 2147483648; lia).
  destruct (Z.le_gt_cases (frames_size ss) n) as [L|L].
  2:{ exists OobWrite. apply write_fails; auto. rewrite W. apply (write_frames_over ss); auto; lia. }
  rewrite (write_frames_ok ss) in W by auto. set (pre' := pre ++ cells (images be32 ss)) in *.
  cbn [write_frames fnode n_frame option_map] in W. rewrite Mp in W.
  destruct S as [(u & Su)|(m & Sm & Im)].
  { exists u. apply write_fails; auto. rewrite W, Su. reflexivity. }
  rewrite Sm in W. cbn [bind cs_stream cs_size] in W.
  assert (Zp' : zlen pre' = 10 + frames_size ss).
  { unfold pre'. rewrite zlen_app, zlen_cells, images_zlen by (auto; reflexivity). lia. }
  pose proof (frames_size_nonneg ss).
  destruct (Z.le_gt_cases (zlen m) (n - frames_size ss)) as [L'|L'].
  2:{ exists OobWrite. apply write_fails; auto. rewrite W. rewrite write_overflow; [reflexivity|reflexivity|]. rewrite zlen_zmem; lia. }
  rewrite write_z' in W by lia. cbn [bind] in W.
  exists UninitRead. eapply write_unknown; [exact X|exact P|exact W| |].
  - cbn [at_pos cs_stream]. rewrite !in_app_iff. auto.
  - cbn [at_pos cs_stream cs_size]. now rewrite !zlen_app.
Qed.

Lemma run_no_calls t : run_calls t [] = Ok t.
Proof. reflexivity. Qed.

(** Rewriting, whatever the file. *)
Lemma rewrite_seen content r : file_read content r -> tag_below (2 ^ 28) content ->
  match r with
  | None => run_session [] (Some content) = Ok (Some content)
  | Some (h, gs, pad) =>
      (exists ss, gs = map frame_of ss /\ oks ss /\ Forall shown ss /\ frames_size ss <= th_tag_size h
         /\ reached (th_tag_size h) 10 ss
         /\ run_session [] (Some content)
            = Ok (Some (tag_bytes (th_major h) (th_minor h) (th_flags h) (th_tag_size h) ss ++ audio content)))
      \/ (exists ss g, gs = map frame_of ss ++ [g] /\ oks ss /\ cut_frame g
         /\ exists u, run_session [] (Some content) = Ub u)
  end.
Proof.
  intros R B.
  destruct (read_file_exactly content) as [(r' & ot & R' & Et & Sh)|(Nr & _)]; [|now apply Nr in R].
  pose proof (file_read_once _ _ _ R R') as <-. unfold run_session. rewrite Et. cbn [bind].
  destruct r as [((h & gs) & pad)|]; [|destruct ot; [destruct Sh|reflexivity]].
  destruct ot as [t|]; [|destruct Sh]. destruct Sh as (Ht & Tt & Pt).
  destruct (file_seen _ _ _ _ R) as (major & minor & flags & n & -> & V & F & Xc & Tl & Rn & Rp & C).
  cbn [th_tag_size th_major th_minor th_flags]. specialize (B _ Tl).
  change (2 ^ 29) with 536870912 in *. change (2 ^ 28) with 268435456 in *.
  assert (P : 2048 - 2 ^ 31 < t_padding t < 2 ^ 31) by (rewrite Pt; change (2 ^ 31) with 2147483648; lia).
  rewrite run_no_calls. cbn [bind].
  destruct C as [(ss & -> & K & Sh & L & Re)|(ss & g & -> & K & Cu)].
  - left. exists ss. do 5 (split; [auto|]).
    rewrite (write_file content t ss major minor flags n 0); auto. change (2 ^ 28) with 268435456. lia.
  - right. exists ss, g. do 2 (split; [auto|]). split; [now apply cut_unknown|].
    destruct (cut_write content t ss g major minor flags n) as (u & U); auto; [now apply cut_spoils|].
    exists u. now rewrite U.
Qed.

Lemma rewrite_unread content : (forall r, ~ file_read content r) -> exists u, run_session [] (Some content) = Ub u.
Proof.
  intros N. destruct (read_file_exactly content) as [(r & ot & R & _)|(_ & u & U)]; [now apply N in R|].
  exists u. unfold run_session. now rewrite U.
Qed.

(** ** The claims *)

Lemma seen_frames content h gs pad : file_read content (Some (h, gs, pad)) ->
  (exists fs, gs = map frame_of fs /\ Forall (fun f => frame_ok f = true) fs /\ frames_size fs <= th_tag_size h)
  \/ (exists fs g, gs = map frame_of fs ++ [g] /\ Forall (fun f => frame_ok f = true) fs /\ cut_frame g).
Proof.
  intros R. destruct (file_seen _ _ _ _ R) as (major & minor & flags & n & -> & _ & _ & _ & _ & _ & _ & C).
  destruct C as [(ss & E & K & _ & L & _)|(ss & g & E & K & Cu)]; [left; eauto|].
  right. exists ss, g. split; [exact E|]. split; [exact K|]. now apply cut_unknown.
Qed.

Lemma rewrite_all content : tag_below (2 ^ 28) content ->
  (file_read content None /\ run_session [] (Some content) = Ok (Some content))
  \/ (exists h fs pad, file_read content (Some (h, map frame_of fs, pad))
        /\ Forall (fun f => frame_ok f = true) fs /\ frames_size fs <= th_tag_size h
        /\ run_session [] (Some content)
           = Ok (Some (tag_bytes (th_major h) (th_minor h) (th_flags h) (th_tag_size h) fs ++ audio content)))
  \/ (exists h fs g pad, file_read content (Some (h, map frame_of fs ++ [g], pad)) /\ cut_frame g
        /\ exists u, run_session [] (Some content) = Ub u)
  \/ ((forall r, ~ file_read content r) /\ exists u, run_session [] (Some content) = Ub u).
Proof.
  intros B. destruct (read_file_exactly content) as [(r & _ & R & _)|(N & _)].
  2:{ right. right. right. split; [exact N|]. now apply rewrite_unread. }
  pose proof (rewrite_seen _ _ R B) as W. destruct r as [((h & gs) & pad)|]; [|left; auto]. right.
  destruct W as [(ss & -> & K & _ & L & _ & E)|(ss & g & -> & _ & Cu & E)].
  - left. exists h, ss, pad. auto.
  - right. left. exists h, ss, g, pad. auto.
Qed.

Lemma rewrite_twice content content' : tag_below (2 ^ 28) content ->
  run_session [] (Some content) = Ok (Some content') ->
  (forall h gs pad, file_read content (Some (h, gs, pad)) -> Forall (size_kept (th_major h)) gs) ->
  (forall h gs pad, file_read content (Some (h, gs, pad)) -> exists pad', file_read content' (Some (h, gs, pad')))
  /\ audio content' = audio content
  /\ run_session [] (Some content') = Ok (Some content').
Proof.
  intros B E Sk. destruct (read_file_exactly content) as [(r & _ & R & _)|(N & _)].
  2:{ destruct (rewrite_unread _ N) as (u & U). congruence. }
  pose proof (rewrite_seen _ _ R B) as W. destruct r as [((h & gs) & pad)|].
  2:{ rewrite W in E. injection E as <-. split; [|auto]. intros h gs pad R'.
      pose proof (file_read_once _ _ _ R R') as D. discriminate D. }
  destruct (file_seen _ _ _ _ R) as (major & minor & flags & n & -> & V & F & Xc & Tl & Rn & Rp & _).
  specialize (B _ Tl). specialize (Sk _ _ _ R). cbn [th_major th_minor th_flags th_tag_size] in *.
  destruct W as [(ss & -> & K & Sh & L & Re & W)|(ss & g & _ & _ & _ & u & W)]; [|congruence].
  rewrite Forall_map in Sk.
  assert (Ec : content' = tag_bytes major minor flags n ss ++ audio content) by congruence. subst content'. clear E. assert (Bn : n < 2 ^ 28) by lia.
  pose proof (written_again major minor flags n ss (audio content) V F K Sh Sk Re L Bn) as R2.
  destruct (written_file major minor flags n ss (audio content) V F K L Bn) as (_ & T2 & A2). cbv zeta in *.
  split; [|split; [exact A2|]].
  - intros h' gs' pad' R'. pose proof (file_read_once _ _ _ R R') as D. injection D as <- <- <-. eauto.
  - pose proof (frames_size_nonneg ss).
    pose proof (any_session _ major minor flags n (n - frames_size ss) ss [] [] R2 K Bn (Forall2_nil _) eq_refl) as Q.
    cbn [edited room_left] in Q. cbv zeta in Q. replace (frames_size ss + (n - frames_size ss)) with n in Q by lia.
    destruct Q as (t & t' & Q1 & Q2 & Q3); [change (2 ^ 31) with 2147483648; lia|].
    rewrite run_no_calls in Q2. injection Q2 as <-. replace (0 <=? n - frames_size ss) with true in Q3 by lia.
    unfold run_session. rewrite Q1. cbn [bind]. rewrite run_no_calls. cbn [bind]. rewrite Q3, A2. reflexivity.
Qed.
