(** Files that are replaced while a call works on them. *)
From Verif Require Import BaseFacts Race Calls Spec SpecEdit SpecFile SpecRead SpecSaves SpecRace EditFacts FileFacts ReadFacts SavesFacts.
From Coq Require Import Lia ZifyBool ZifyNat.

(** ** Nobody interferes *)

Lemma read_alone f : ID3v2_read_tag_r f f = ID3v2_read_tag f.
Proof. reflexivity. Qed.

Lemma write_alone f t : ID3v2_write_tag f (Some t) = let* (stored, t') := ID3v2_write_tag_r f f t in Ok (Some stored, Some t').
Proof.
  unfold ID3v2_write_tag, ID3v2_write_tag_r, look, fetch. cbn [ID3v2_write_tag_states].
  destruct (ID3v2_read_tag_header f) as [h| | |]; try reflexivity. go.
  destruct (isub _ _) as [d| | |]; try reflexivity. go.
  destruct (iadd _ _) as [p| | |]; try reflexivity. go.
  destruct (Tag_to_char_stream _) as [cs| | |]; try reflexivity. go.
  destruct (fwrite_bytes _) as [bytes| | |]; try reflexivity. go.
  destruct f as [content|]; [|reflexivity]. go. rewrite copy_loop_app.
  rewrite states_rewritten, last_rewritten. rewrite copy_loop_app. reflexivity.
Qed.

Lemma delete_alone f : ID3v2_delete_tag f
  = let* stored := ID3v2_delete_tag_r f f in Ok (match stored with Some l => Some l | None => f end).
Proof.
  unfold ID3v2_delete_tag, ID3v2_delete_tag_states, ID3v2_delete_tag_r.
  destruct (ID3v2_read_tag_header f) as [[h|]| | |]; try reflexivity. go.
  destruct f as [content|]; [|reflexivity]. go. rewrite !copy_loop_app. cbn [app].
  rewrite states_rewritten, last_rewritten. reflexivity.
Qed.

Lemma alone f : ID3v2_read_tag f = ID3v2_read_tag_r f f
  /\ (forall t, ID3v2_write_tag f (Some t) = let* (stored, t') := ID3v2_write_tag_r f f t in Ok (Some stored, Some t'))
  /\ ID3v2_delete_tag f = let* stored := ID3v2_delete_tag_r f f in Ok (match stored with Some l => Some l | None => f end).
Proof. split; [symmetry; apply read_alone|]. split; [intros t; apply write_alone|apply delete_alone]. Qed.

(** ** What is done with two files *)

Lemma look_skips content : announces_extended content = false -> look (Some content) = Ok (skipped content).
Proof.
  intros X. destruct (file_header content X) as (h & E & H). unfold look, skipped. rewrite E. go.
  destruct h as [h|]; [destruct H as (-> & _)|rewrite H]; reflexivity.
Qed.

Lemma fetch_output k t f : fetch k t f =
  let* (bytes, t') := tag_output t in
  match f with None => Ub NullDeref | Some content => Ok (bytes ++ skipn (Z.to_nat k) content, t') end.
Proof.
  unfold fetch, tag_output.
  destruct (isub _ _) as [d| | |]; try reflexivity. go.
  destruct (iadd _ _) as [p| | |]; try reflexivity. go.
  destruct (Tag_to_char_stream _) as [cs| | |]; try reflexivity. go.
  destruct (fwrite_bytes _) as [bytes| | |]; try reflexivity. go.
  destruct f as [content|]; [|reflexivity]. rewrite copy_loop_app. reflexivity.
Qed.

Lemma empty_output t : ID3v2_write_tag (Some []) (Some t) = let* (bytes, t') := tag_output t in Ok (Some bytes, Some t').
Proof.
  rewrite write_output by reflexivity. destruct (tag_output t) as [[bytes t']| | |]; try reflexivity. go.
  change (audio []) with (@nil byte). now rewrite app_nil_r.
Qed.

Lemma write_two c1 f2 t : announces_extended c1 = false ->
  match ID3v2_write_tag (Some []) (Some t) with
  | Ok (Some bytes, Some t') => ID3v2_write_tag_r (Some c1) f2 t
      = match f2 with Some c2 => Ok (bytes ++ skipn (Z.to_nat (skipped c1)) c2, t') | None => Ub NullDeref end
  | Ok _ => False
  | Ub u => ID3v2_write_tag_r (Some c1) f2 t = Ub u
  | Exit n => ID3v2_write_tag_r (Some c1) f2 t = Exit n
  | NoFuel => False
  end.
Proof.
  intros X. rewrite empty_output. unfold ID3v2_write_tag_r. rewrite look_skips by exact X. go. rewrite fetch_output.
  destruct (tag_output t) as [[bytes t']| | |] eqn:O; go; try reflexivity; [|now apply (fueled_output t)].
  destruct f2 as [c2|]; [|reflexivity]. go. rewrite copy_loop_app. reflexivity.
Qed.

Lemma delete_two c1 f2 : announces_extended c1 = false ->
  ID3v2_delete_tag_r (Some c1) f2
  = match tag_length c1, f2 with
    | None, _ => Ok None
    | Some _, None => Ub NullDeref
    | Some n, Some c2 => Ok (Some (skipn (Z.to_nat n) c2))
    end.
Proof.
  intros X. destruct (file_header c1 X) as (h & E & H). unfold ID3v2_delete_tag_r. rewrite E. go.
  destruct h as [h|]; [destruct H as (-> & _)|rewrite H; reflexivity].
  destruct f2 as [c2|]; [|reflexivity]. rewrite !copy_loop_app. reflexivity.
Qed.

Lemma read_two c1 f2 : announces_extended c1 = false ->
  match tag_length c1, f2 with
  | None, _ => ID3v2_read_tag_r (Some c1) f2 = Ok None
  | Some _, None => ID3v2_read_tag_r (Some c1) f2 = Ub NullDeref
  | Some n, Some c2 =>
      (exists r t, tag_read (firstn (Z.to_nat n) c2) (Z.to_nat n - length c2) r
         /\ ID3v2_read_tag_r (Some c1) f2 = Ok t /\ shows_read r t)
      \/ ((forall r, ~ tag_read (firstn (Z.to_nat n) c2) (Z.to_nat n - length c2) r)
          /\ exists u, ID3v2_read_tag_r (Some c1) f2 = Ub u)
  end.
Proof.
  intros X. destruct (file_header c1 X) as (h & E & H). unfold ID3v2_read_tag_r. rewrite E. go.
  destruct h as [h|]; [|now rewrite H]. destruct H as (H & _). rewrite H.
  destruct f2 as [c2|]; [|reflexivity].
  set (n := declared_length h) in *. pose proof (tag_length_range _ _ H) as R.
  assert (Len : zlen (firstn (Z.to_nat n) c2) + Z.of_nat (Z.to_nat n - length c2) = n).
  { unfold zlen. rewrite firstn_length. lia. }
  assert (P : points_to_part (Some (fread_into c2 n)) (firstn (Z.to_nat n) c2) (Z.to_nat n - length c2)).
  { exists []. rewrite app_nil_r. unfold fread_into, ahead. do 2 f_equal. f_equal. rewrite length_cells, firstn_length. lia. }
  pose proof (read_exactly _ _ _ P) as Q. rewrite Len in Q. apply Q. lia.
Qed.

(** The sound of the file that is there when it is copied survives exactly if
    the file that was there before had a tag as long. *)
Lemma skipn_same {A} (l : list A) a b : skipn a l = skipn b l <-> a = b \/ (length l <= a /\ length l <= b)%nat.
Proof.
  split.
  - intros E. apply (f_equal (@length A)) in E. rewrite !skipn_length in E. lia.
  - intros [->|(A1 & A2)]; [reflexivity|]. now rewrite !skipn_all2.
Qed.

Lemma skipped_audio c : skipn (Z.to_nat (skipped c)) c = audio c.
Proof. unfold skipped, audio. destruct (tag_length c); reflexivity. Qed.

Lemma skipped_nonneg c : 0 <= skipped c.
Proof. unfold skipped. destruct (tag_length c) as [n|] eqn:T; [|lia]. apply tag_length_range in T. lia. Qed.

Lemma sound_kept c1 c2 t stored t' : announces_extended c1 = false ->
  ID3v2_write_tag_r (Some c1) (Some c2) t = Ok (stored, t') ->
  exists bytes, (ID3v2_write_tag (Some []) (Some t) = Ok (Some bytes, Some t'))
    /\ (stored = bytes ++ audio c2
        <-> skipped c1 = skipped c2 \/ (zlen c2 <= skipped c1 /\ zlen c2 <= skipped c2)).
Proof.
  intros X E. pose proof (write_two c1 (Some c2) t X) as W.
  destruct (ID3v2_write_tag (Some []) (Some t)) as [[[bytes|] [u|]]|u|n|]; try contradiction; rewrite W in E; try discriminate E.
  injection E as <- <-. exists bytes. split; [reflexivity|].
  rewrite <- skipped_audio. pose proof (skipped_nonneg c1). pose proof (skipped_nonneg c2).
  transitivity (skipn (Z.to_nat (skipped c1)) c2 = skipn (Z.to_nat (skipped c2)) c2).
  - split; [apply app_inv_head|congruence].
  - rewrite skipn_same. unfold zlen. lia.
Qed.

(** ** Any number of processes *)

Section Saves.
  Variables (tags : nat -> Tag) (content : list byte) (n : Z).
  Hypothesis plain : announces_extended content = false.
  Hypothesis length_is : tag_length content = Some (10 + n).
  Hypothesis fine : forall i, can_be_saved (tags i) /\ th_tag_size (t_header (tags i)) = n.

  Let sound := audio content.

  Definition stage_fine (i : nat) (s : stage) : Prop :=
    match s with
    | Unstarted | Done => True
    | Looked k => k = 10 + n
    | Fetched temp => exists t', ID3v2_write_tag (Some content) (Some (tags i)) = Ok (Some temp, t')
    | Crashed => False
    end.

  Definition race_fine (w : (nat -> stage) * file) : Prop :=
    (forall i, stage_fine i (fst w i))
    /\ ((snd w = Some content /\ forall i, fst w i <> Done)
        \/ exists i t', fst w i = Done /\ ID3v2_write_tag (Some content) (Some (tags i)) = Ok (snd w, t')).

  Lemma race_file w : race_fine w -> exists c, snd w = Some c /\ announces_extended c = false
    /\ skipped c = 10 + n /\ audio c = sound.
  Proof.
    intros (_ & [(E & _)|(i & t' & _ & E)]).
    - exists content. split; [exact E|]. unfold skipped. rewrite length_is. auto.
    - destruct (fine i) as (F & S). destruct (can_output _ F) as ((I & V & X & R) & bytes & u & O).
      rewrite write_output, O in E by exact plain. cbn [bind] in E. injection E as E _.
      exists (bytes ++ sound). split; [now rewrite <- E|].
      destruct (saved_sound _ _ _ sound O (conj I (conj V (conj X R)))) as (X1 & A1).
      destruct (saved_seen _ _ _ sound O I ltac:(lia) V) as (_ & L).
      split; [exact X1|]. split; [|exact A1]. unfold skipped. rewrite L, Z.mod_small by lia. lia.
  Qed.

  Lemma race_step w i : race_fine w -> race_fine (race_turn tags w i).
  Proof.
    intros F. destruct (race_file w F) as (c & Ec & Xc & Sc & Ac). destruct w as [st f]. cbn [fst snd] in *. subst f.
    destruct F as (F & G). cbn [fst snd] in *. unfold race_turn.
    pose proof (F i) as Fi.
    assert (W : forall s f', act (tags i) (st i) (Some c) = (s, f') ->
      stage_fine i s /\ ((f' = Some c /\ (s = Done <-> st i = Done))
                         \/ (s = Done /\ exists t', ID3v2_write_tag (Some content) (Some (tags i)) = Ok (f', t')))).
    { intros s f' E. destruct (st i) as [|k|temp| |]; cbn [act stage_fine] in *.
      - rewrite look_skips in E by exact Xc. injection E as <- <-. split; [exact Sc|]. left. split; [reflexivity|]. split; discriminate.
      - destruct (fine i) as (Fs & _). destruct (can_output _ Fs) as (_ & bytes & u & O).
        rewrite fetch_output, O in E. cbn [bind] in E. injection E as <- <-. split.
        + exists (Some u). rewrite write_output, O by exact plain. cbn [bind]. subst k. rewrite <- Sc, skipped_audio, Ac. reflexivity.
        + left. split; [reflexivity|]. split; discriminate.
      - injection E as <- <-. split; [exact I|]. right. split; [reflexivity|].
        rewrite copy_loop_app. cbn [app]. exact Fi.
      - injection E as <- <-. split; [exact I|]. left. split; [reflexivity|]. split; reflexivity.
      - contradiction. }
    destruct (act (tags i) (st i) (Some c)) as [s f'] eqn:E. destruct (W s f' eq_refl) as (W1 & W2). split; cbn [fst snd].
    - intros j. destruct (Nat.eqb_spec j i) as [->|]; [exact W1|apply F].
    - destruct W2 as [(-> & D)|(-> & t' & W2)].
      + destruct G as [(Q & G)|(j & t' & G1 & G2)].
        * left. split; [exact Q|]. intros j. destruct (Nat.eqb_spec j i) as [->|]; [|apply G]. intros Z. apply D in Z. now apply (G i).
        * right. exists j, t'. split; [|exact G2]. destruct (Nat.eqb_spec j i) as [->|]; [now apply D|exact G1].
      + right. exists i, t'. rewrite Nat.eqb_refl. auto.
  Qed.

  Lemma race_runs schedule : race_fine (race tags (Some content) schedule).
  Proof.
    unfold race. set (w := (fun _ : nat => Unstarted, Some content : file)).
    assert (H : race_fine w).
    { split; [intros i; exact I|]. left. split; [reflexivity|]. discriminate. }
    clearbody w. revert w H.
    induction schedule as [|i schedule IH]; intros w H; [exact H|]. cbn [fold_left]. now apply IH, race_step.
  Qed.
End Saves.

Lemma racing_saves tags content n schedule :
  announces_extended content = false -> tag_length content = Some (10 + n) ->
  (forall i, can_be_saved (tags i) /\ th_tag_size (t_header (tags i)) = n) ->
  let (st, f) := race tags (Some content) schedule in
  (forall i, st i <> Crashed)
  /\ (forall i temp, st i = Fetched temp -> exists t', ID3v2_write_tag (Some content) (Some (tags i)) = Ok (Some temp, t'))
  /\ ((f = Some content /\ forall i, st i <> Done)
      \/ exists i t', st i = Done /\ ID3v2_write_tag (Some content) (Some (tags i)) = Ok (f, t')).
Proof.
  intros X L F. pose proof (race_runs tags content n X L F schedule) as (H & G).
  destruct (race tags (Some content) schedule) as [st f]. cbn [fst snd] in *.
  split; [|split; [|exact G]].
  - intros i E. specialize (H i). now rewrite E in H.
  - intros i temp E. specialize (H i). now rewrite E in H.
Qed.
