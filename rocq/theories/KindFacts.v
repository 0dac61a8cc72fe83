(** Terminated and unterminated strings; the kinds of accepted frames. *)
From Verif Require Import File Spec.
From Verif Require Export AnyFacts.

(** ** Every byte string starts with a terminated string, or is unterminated *)

Lemma split_zero l :
  forallb (fun c => negb (is_zero c)) l = true
  \/ exists a b, l = a ++ [x00] ++ b /\ forallb (fun c => negb (is_zero c)) a = true.
Proof.
  induction l as [|x l IH]; [now left|].
  destruct (is_zero x) eqn:E.
  - right. exists [], l. split; [|reflexivity]. rewrite is_zero_beq in E. apply beq_true in E. now subst.
  - destruct IH as [IH|(a & b & -> & IH)].
    + left. cbn [forallb]. now rewrite E, IH.
    + right. exists (x :: a), b. split; [reflexivity|]. cbn [forallb]. now rewrite E, IH.
Qed.

Lemma split_units n : forall l, (length l <= n)%nat ->
  exists us, forallb (fun u => negb (is_zero (fst u) && is_zero (snd u))) us = true
    /\ ((exists odd, (length odd < 2)%nat /\ l = flat_map (fun u => [fst u; snd u]) us ++ odd)
        \/ exists b, l = flat_map (fun u => [fst u; snd u]) us ++ [x00; x00] ++ b).
Proof.
  induction n as [|n IH]; intros l L.
  - destruct l; cbn [length] in L; [|lia]. exists []. split; [reflexivity|]. left. exists []. split; [cbn; lia|reflexivity].
  - destruct l as [|a [|b l]].
    + exists []. split; [reflexivity|]. left. exists []. split; [cbn; lia|reflexivity].
    + exists []. split; [reflexivity|]. left. exists [a]. split; [cbn; lia|reflexivity].
    + destruct (is_zero a && is_zero b) eqn:E.
      * exists []. split; [reflexivity|]. right. exists l. rewrite !is_zero_beq in E.
        apply andb_true_iff in E. destruct E as [E1 E2]. apply beq_true in E1, E2. now subst.
      * destruct (IH l) as (us & H & S); [cbn [length] in L; lia|].
        exists ((a, b) :: us). split; [cbn [forallb fst snd]; now rewrite E, H|].
        destruct S as [(odd & O & ->)|(c & ->)]; [left; exists odd|right; exists c]; auto.
Qed.

Lemma with_bom l : starts_with_bom l = true -> exists be r, l = bom_bytes be ++ r.
Proof.
  destruct l as [|a [|b r]]; cbn [starts_with_bom]; try discriminate. intros E.
  apply orb_true_iff in E. destruct E as [E|E]; apply andb_true_iff in E; destruct E as [E1 E2];
    apply beq_true in E1, E2; subst; [exists false, r|exists true, r]; reflexivity.
Qed.

Lemma bom_prefix a r : starts_with_bom (a ++ [x00] ++ r) = false -> starts_with_bom a = false.
Proof. destruct a as [|x [|y a]]; auto. Qed.

Lemma terminated_or l :
  (exists t junk, text_ok t = true /\ l = text_image t ++ junk) \/ unterminated l.
Proof.
  destruct (starts_with_bom l) eqn:B.
  - destruct (with_bom l B) as (be & r & ->).
    destruct (split_units (length r) r (le_n _)) as (us & H & [(odd & O & ->)|(b & ->)]).
    + right. right. exists be, us, odd. split; [|auto]. cbn [text_bytes]. now rewrite <- app_assoc.
    + left. exists (Utf16 be us), b. split; [exact H|]. unfold text_image. cbn [text_bytes text_end].
      now rewrite <- !app_assoc.
  - destruct (split_zero l) as [H|(a & b & -> & H)]; [right; left; auto|].
    left. exists (Iso a), b. split.
    + cbn [text_ok]. rewrite H. cbn [andb]. now rewrite (bom_prefix a b).
    + unfold text_image. cbn [text_bytes text_end]. now rewrite <- app_assoc.
Qed.

(** The two cases exclude each other, hence the choice is a property of the
    bytes. *)
Lemma strlen_unterminated l : unterminated l ->
  ID3v2_strlen (Some (cells l)) = Ub OobRead /\ ID3v2_strlent (Some (cells l)) = Ub OobRead.
Proof.
  intros [[H1 H2]|(be & us & odd & -> & H1 & H2)].
  - now apply strlen_unterminated_iso.
  - now apply strlen_unterminated_utf16.
Qed.

Lemma strlen_total l : zlen l < 2 ^ 31 ->
  (exists t junk, text_ok t = true /\ l = text_image t ++ junk
      /\ ID3v2_strlen (Some (cells l)) = Ok (zlen (text_bytes t))
      /\ ID3v2_strlent (Some (cells l)) = Ok (zlen (text_image t)))
  \/ (unterminated l /\ ID3v2_strlen (Some (cells l)) = Ub OobRead
      /\ ID3v2_strlent (Some (cells l)) = Ub OobRead).
Proof.
  intros L. destruct (terminated_or l) as [(t & junk & H & ->)|U].
  - left. exists t, junk. rewrite zlen_app in L. pose proof (zlen_nonneg junk).
    repeat split; auto; rewrite cells_app; [apply strlen_text|apply strlent_text]; auto; lia.
  - right. destruct (strlen_unterminated l U). auto.
Qed.

(** ** A complete text frame: exactly the terminated ones are accepted *)
Lemma text_frame_total pre id sz fl enc body rest ver :
  length id = 4%nat -> length sz = 4%nat -> length fl = 2%nat ->
  id_starts id "T" = true -> body <> [] ->
  declared_size ver sz = 1 + zlen body ->
  fits pre (cells (id ++ sz ++ fl ++ [enc] ++ body) ++ rest) ->
  (exists t junk, text_ok t = true /\ body = text_image t ++ junk
     /\ Frame_parse (at_pos pre (cells (id ++ sz ++ fl ++ [enc] ++ body) ++ rest)) ver
        = Ok (Some (frame_of (FText id fl t)), at_pos (pre ++ cells (id ++ sz ++ fl ++ [enc] ++ body)) rest))
  \/ (unterminated body
     /\ Frame_parse (at_pos pre (cells (id ++ sz ++ fl ++ [enc] ++ body) ++ rest)) ver = Ub OobRead).
Proof.
  intros Li Ls Lf HT Nb Hs F. destruct (terminated_or body) as [(t & junk & H & ->)|U].
  - left. exists t, junk. split; [auto|]. split; [auto|].
    assert (Eq : forall x, cells (id ++ sz ++ fl ++ [enc] ++ text_image t ++ junk) ++ x
      = (cells id ++ cells sz ++ cells fl) ++ cells ([enc] ++ text_image t ++ junk) ++ x)
      by (intros; rewrite !cells_app, <- !app_assoc; reflexivity).
    rewrite Eq in *. unfold fits in F. rewrite !zlen_app, !zlen_cells, !zlen_app in F. change (zlen [enc]) with 1 in F.
    assert (Z4 : zlen id = 4 /\ zlen sz = 4 /\ zlen fl = 2) by (unfold zlen; rewrite Li, Ls, Lf; auto).
    pose proof (zlen_nonneg rest). pose proof (zlen_nonneg pre). pose proof (zlen_nonneg junk).
    rewrite parse_text; auto.
    + do 3 f_equal. rewrite !cells_app, <- !app_assoc. reflexivity.
    + unfold fits. rewrite !zlen_app, !zlen_cells, !zlen_app. change (zlen [enc]) with 1. lia.
    + rewrite Hs, !zlen_app. change (zlen [enc]) with 1. lia.
    + lia.
  - right. split; [exact U|]. now apply text_unterminated.
Qed.

(** ** Headers cut off after 8 or 9 bytes *)

Lemma id0_nonzero x m : x <> x00 -> memcmp_eq [x00; x00; x00; x00] (Some x :: m) = Ok false.
Proof. intros N. cbn [memcmp_eq]. destruct (beq_spec x00 x); congruence. Qed.

Lemma known_truncated pre (c : byte) r ver :
  fits pre (Some c :: r) -> zlen (Some c :: r) < 10 ->
  c = "T"%byte \/ c = "C"%byte \/ c = "A"%byte ->
  exists u, Frame_parse (at_pos pre (Some c :: r)) ver = Ub u.
Proof.
  intros F L K. apply benign_ub; [apply benign_frame_parse|].
  intros [fo cs] E. unfold Frame_parse in E. binv E. destruct v as [[h|] cs1].
  2:{ apply header_parse_none in E0; auto. destruct E0 as [_ (t & E1)]. injection E1 as -> _.
      destruct K as [K|[K|K]]; discriminate K. }
  apply header_parse_some in E0; auto.
  destruct E0 as (i & s & d & n & Er & Li & Ls & _ & Hh & -> & _).
  destruct (rewind pre i s d) as (p' & r' & R & F' & Cs); auto.
  { now rewrite <- Er. }
  assert (Lr : zlen r' <= 10).
  { destruct Cs as [|[_ ->]]; auto. rewrite <- Er. exact (Z.lt_le_incl _ _ L). }
  subst h. unfold FrameHeader_isTextFrame, FrameHeader_isCommentFrame, FrameHeader_isApicFrame, id0_is in E.
  cbn [fh_id bind] in E. rewrite R in E. destruct i as [|i0 i]; [discriminate Li|]. injection Er as <- Er. cbn [bind] in E.
  destruct K as [-> | [-> | ->]]; cbn [beq Byte.eqb] in E.
  - change (beq "T" "T") with true in E. cbv iota in E. binv E.
    eapply (text_parse_short p' r'); eauto.
  - change (beq "C" "T") with false in E. change (beq "C" "C") with true in E. cbv iota in E. binv E.
    eapply (comment_parse_short p' r'); eauto.
  - change (beq "A" "T") with false in E. change (beq "A" "C") with false in E. change (beq "A" "A") with true in E. cbv iota in E. binv E.
    eapply (apic_parse_short p' r'); eauto.
Qed.

Lemma take_cells k l : take k (cells l) = cells (firstn (Z.to_nat k) l).
Proof. unfold take, cells. apply firstn_map. Qed.
Lemma drop_cells k l : drop k (cells l) = cells (skipn (Z.to_nat k) l).
Proof. unfold drop, cells. apply skipn_map. Qed.
Lemma length_cells l : length (cells l) = length l.
Proof. apply map_length. Qed.

(** An unknown frame that ends before its declared size: the missing part of
    the body, and of the flags, is indeterminate memory, and the frame is
    accepted. *)
Lemma other_truncated pre id sz l ver :
  length id = 4%nat -> length sz = 4%nat ->
  id_starts id "T" = false -> id_starts id "C" = false -> id_starts id "A" = false ->
  forallb is_zero id = false -> 0 <= declared_size ver sz ->
  fits pre (cells (id ++ sz ++ l)) ->
  let n := declared_size ver sz in
  let flags := firstn 2 l in
  let body := firstn (Z.to_nat n) (skipn 2 l) in
  Frame_parse (at_pos pre (cells (id ++ sz ++ l))) ver
  = Ok (Some (mkFrame (mkFH (cells id) n (cells flags ++ repeat None (2 - length flags)))
                      (DRaw (cells body ++ repeat None (Z.to_nat n - length body)))),
        at_pos (pre ++ cells (id ++ sz ++ flags ++ body)) (cells (skipn (Z.to_nat n) (skipn 2 l)))).
Proof.
  intros Li Ls H1 H2 H3 Nz Ns F n flags body.
  assert (Z4 : zlen id = 4 /\ zlen sz = 4) by (unfold zlen; rewrite Li, Ls; auto).
  unfold Frame_parse, FrameHeader_parse. rewrite !cells_app in *.
  rewrite read_into_at; [|auto|rewrite zlen_cells; now rewrite (proj1 Z4)]. go.
  assert (M : memcmp_eq [x00; x00; x00; x00] (cells id) = Ok false).
  { rewrite <- (app_nil_r (cells id)). apply memcmp_eq_neq; [now rewrite Li|].
    intros <-. discriminate Nz. }
  rewrite M. go.
  rewrite slice_at; [|fit|rewrite zlen_cells; now rewrite (proj2 Z4)]. go.
  change ID3v2_FRAME_HEADER_SIZE_LENGTH with 4. rewrite btoi_spec by (now rewrite (proj2 Z4)). go.
  change ID3v2_FRAME_HEADER_FLAGS_LENGTH with 2. rewrite read_into_gen; [|fit|lia]. go.
  unfold FrameHeader_new. rewrite memcpy_from_all by (rewrite zlen_cells; now rewrite (proj1 Z4)). go.
  rewrite memcpy_from_all.
  2:{ unfold take, zlen. rewrite app_length, firstn_length, repeat_length. change (Z.to_nat 2) with 2%nat.
      change ID3v2_FRAME_HEADER_FLAGS_LENGTH with 2. lia. }
  go. unfold FrameHeader_isTextFrame, FrameHeader_isCommentFrame, FrameHeader_isApicFrame.
  rewrite !(id0_is_cells _ id) by (auto; now apply (len_nonnil _ 3)). go. rewrite H1, H2, H3.
  set (sz' := if ver =? 4 then _ else _).
  assert (Sz : sz' = n).
  { unfold sz', n, declared_size. destruct (ver =? 4).
    - change (be_value sz mod 2 ^ 32) with (to_u32 (be_value sz)). rewrite decode_be_value by auto.
      pose proof (synchsafe_value_range sz). apply to_i32_id. lia.
    - f_equal. pose proof (be_value_range4 sz Ls). apply Z.mod_small. lia. }
  rewrite Sz. replace (n <? 0) with false by lia.
  rewrite read_into_gen; [|unfold fits in *; pose proof (zlen_take_drop 2 (cells l)); rewrite !zlen_app in *; lia|unfold n; lia]. go.
  rewrite ?take_cells, ?drop_cells, ?take_cells, ?drop_cells. change (Z.to_nat 2) with 2%nat.
  rewrite !length_cells. rewrite <- !app_assoc.
  replace (2 - length (firstn 2 l))%nat with (2 - length l)%nat by (rewrite firstn_length; lia).
  replace (Z.to_nat n - length body)%nat with (Z.to_nat n - length (skipn 2 l))%nat
    by (unfold body; rewrite firstn_length; lia).
  unfold flags, body. rewrite ?firstn_length.
  replace (2 - Nat.min 2 (length l))%nat with (2 - length l)%nat by lia. reflexivity.
Qed.

(** ** The kind of an accepted frame *)

Lemma text_new_id i f t fr : TextFrame_new (Some i) f t = Ok fr -> zlen i = 4 ->
  fh_id (f_hdr fr) = i /\ exists d, f_data fr = DText d.
Proof.
  intros E L. unfold TextFrame_new in E. binv E. binv E. binv E. injection E as <-.
  unfold FrameHeader_new in E2. rewrite memcpy_from_all in E2 by (now rewrite L). cbn [bind] in E2. binv E2. injection E2 as <-.
  cbn [f_hdr f_data fh_id]. eauto.
Qed.


Lemma header_new_lit s fl n h : FrameHeader_new (clit s) fl n = Ok h -> zlen (lit s) = 4 -> fh_id h = cells (lit s).
Proof.
  intros E L. unfold FrameHeader_new, clit in E. rewrite cells_app, memcpy_from_app in E by (now rewrite zlen_cells, L).
  cbn [bind] in E. binv E. now injection E as <-.
Qed.

Lemma comment_new_id f l s c fr : CommentFrame_new f l s c = Ok fr ->
  fh_id (f_hdr fr) = cells (lit "COMM") /\ exists d, f_data fr = DComment d.
Proof.
  intros E. unfold CommentFrame_new in E. repeat (binv E). injection E as <-.
  cbn [f_hdr f_data]. split; [|eauto].
  match goal with H : FrameHeader_new _ _ _ = Ok _ |- _ => now apply header_new_lit in H end.
Qed.

Lemma apic_new_id f d ty m n p fr : ApicFrame_new f d ty m n p = Ok fr ->
  fh_id (f_hdr fr) = cells (lit "APIC") /\ exists d, f_data fr = DApic d.
Proof.
  intros E. unfold ApicFrame_new in E. repeat (binv E). injection E as <-.
  cbn [f_hdr f_data]. split; [|eauto].
  match goal with H : FrameHeader_new _ _ _ = Ok _ |- _ => now apply header_new_lit in H end.
Qed.

Ltac binvs E := repeat (binv E; repeat match goal with v : prod _ _ |- _ => destruct v end).

Definition kind_matches (id : list byte) (f : frame) : Prop :=
  if id_starts id "T" then fh_id (f_hdr f) = cells id /\ exists d, f_data f = DText d
  else if id_starts id "C" then fh_id (f_hdr f) = cells (lit "COMM") /\ exists d, f_data f = DComment d
  else if id_starts id "A" then fh_id (f_hdr f) = cells (lit "APIC") /\ exists d, f_data f = DApic d
  else fh_id (f_hdr f) = cells id /\ exists m, f_data f = DRaw m.

Lemma text_parse_id p r ver f cs i t :
  fits p r -> r = i ++ t -> zlen i = 4 -> TextFrame_parse (at_pos p r) ver = Ok (f, cs) ->
  fh_id (f_hdr f) = i /\ exists d, f_data f = DText d.
Proof.
  intros F Er Li E. unfold TextFrame_parse in E. binv E. destruct v as [[h|] cs1]; [|repeat (binv E); discriminate].
  apply header_parse_some in E0; auto.
  destruct E0 as (i' & s & c & n & Er' & Li' & _ & _ & -> & _ & _).
  assert (i' = i) as ->.
  { rewrite Er in Er'. apply (f_equal (take 4)) in Er'. now rewrite !take_app_exact in Er'. }
  binv E. cbn [deref bind fh_id] in E. binv E. binv E. binv E. destruct v2. binv E. injection E as <- _.
  now apply text_new_id in E4.
Qed.

Lemma comment_parse_id cs0 ver f cs :
  CommentFrame_parse cs0 ver = Ok (f, cs) ->
  fh_id (f_hdr f) = cells (lit "COMM") /\ exists d, f_data f = DComment d.
Proof.
  intros E. unfold CommentFrame_parse in E. binvs E.
  injection E as <- _. eapply comment_new_id; eauto.
Qed.

Lemma apic_parse_id cs0 ver f cs :
  ApicFrame_parse cs0 ver = Ok (f, cs) ->
  fh_id (f_hdr f) = cells (lit "APIC") /\ exists d, f_data f = DApic d.
Proof.
  intros E. unfold ApicFrame_parse in E. binvs E.
  injection E as <- _. eapply apic_new_id; eauto.
Qed.

Lemma frame_kind p id r ver f cs :
  fits p (cells id ++ r) -> length id = 4%nat ->
  Frame_parse (at_pos p (cells id ++ r)) ver = Ok (Some f, cs) -> kind_matches id f.
Proof.
  intros F Lid E. assert (Zid : zlen (cells id) = 4) by (rewrite zlen_cells; unfold zlen; now rewrite Lid).
  unfold Frame_parse in E. binv E. destruct v as [[h|] cs1]; [|discriminate E].
  apply header_parse_some in E0; auto.
  destruct E0 as (i & s & c & n & Er & Li & Ls & _ & Hh & -> & _).
  assert (i = cells id) as ->.
  { apply (f_equal (take 4)) in Er. now rewrite !take_app_exact in Er. }
  unfold FrameHeader_isTextFrame, FrameHeader_isCommentFrame, FrameHeader_isApicFrame in E.
  rewrite !(id0_is_cells _ id) in E by (auto; subst h; try reflexivity; now apply (len_nonnil _ 3)).
  cbn [bind] in E. unfold kind_matches. rewrite Er in F.
  destruct (rewind p (cells id) s c) as (p' & r' & R & F' & Cs); auto. rewrite R in E. cbn [bind] in E.
  destruct (id_starts id "T").
  { binv E. destruct v. injection E as -> _. destruct Cs as [L|[-> ->]].
    - now destruct (text_parse_short p' r' ver (f, c0) F' L).
    - eapply text_parse_id; eauto. }
  destruct (id_starts id "C").
  { binv E. destruct v. injection E as -> _. eapply comment_parse_id; eauto. }
  destruct (id_starts id "A").
  { binv E. destruct v. injection E as -> _. eapply apic_parse_id; eauto. }
  destruct (fh_size h <? 0); [discriminate|]. binv E. destruct v. injection E as <- _.
  subst h. cbn [f_hdr f_data fh_id]. eauto.
Qed.

(** ** Unterminated comments and pictures run to the end of the whole buffer *)

Lemma comment_unterminated pre id sz fl enc lang tail ver :
  length id = 4%nat -> length sz = 4%nat -> length fl = 2%nat -> length lang = 3%nat ->
  id_starts id "C" = true ->
  unterminated tail \/ (exists t r, text_ok t = true /\ tail = text_image t ++ r /\ unterminated r) ->
  fits pre (cells (id ++ sz ++ fl ++ [enc] ++ lang ++ tail)) ->
  Frame_parse (at_pos pre (cells (id ++ sz ++ fl ++ [enc] ++ lang ++ tail))) ver = Ub OobRead.
Proof.
  intros Li Ls Lf Ll HC U F.
  assert (Nz : forallb is_zero id = false) by (apply (starts_nonzero _ "C"); auto; discriminate).
  assert (Eq : cells (id ++ sz ++ fl ++ [enc] ++ lang ++ tail)
      = (cells id ++ cells sz ++ cells fl) ++ cells [enc] ++ cells lang ++ cells tail).
  { rewrite !cells_app, <- !app_assoc. reflexivity. }
  rewrite Eq in *. rewrite Frame_parse_dispatch by auto.
  rewrite (starts_excl id "C" "T") by (auto; discriminate). rewrite HC.
  unfold CommentFrame_parse. rewrite <- !app_assoc in *. rewrite FrameHeader_parse_ok by auto. go.
  rewrite seek_fwd_at; [|fit|reflexivity]. go.
  rewrite read_into_at; [|fit|rewrite zlen_cells; unfold zlen; rewrite Ll; reflexivity]. go.
  rewrite get_cur_at. destruct U as [U|(t & r & Ht & -> & U)].
  - now rewrite (proj2 (strlen_unterminated tail U)).
  - rewrite cells_app. rewrite cells_app in F.
    assert (B : zlen (text_image t) < 2 ^ 31).
    { unfold fits in F. rewrite !zlen_app, !zlen_cells in F.
      pose proof (zlen_nonneg pre). pose proof (zlen_nonneg r). pose proof (zlen_nonneg id). pose proof (zlen_nonneg sz).
      pose proof (zlen_nonneg fl). pose proof (zlen_nonneg [enc]). pose proof (zlen_nonneg lang). lia. }
    rewrite strlent_text by auto. go. pose proof (text_image_pos t). unfold vla at 1. ifF. go.
    rewrite read_into_at; [|fit|now rewrite zlen_cells]. go. rewrite get_cur_at.
    now rewrite (proj2 (strlen_unterminated r U)).
Qed.

Lemma picture_unterminated pre id sz fl enc tail ver :
  length id = 4%nat -> length sz = 4%nat -> length fl = 2%nat ->
  id_starts id "A" = true ->
  unterminated tail \/ (exists t ty r, text_ok t = true /\ tail = text_image t ++ ty :: r /\ unterminated r) ->
  fits pre (cells (id ++ sz ++ fl ++ [enc] ++ tail)) ->
  Frame_parse (at_pos pre (cells (id ++ sz ++ fl ++ [enc] ++ tail))) ver = Ub OobRead.
Proof.
  intros Li Ls Lf HA U F.
  assert (Nz : forallb is_zero id = false) by (apply (starts_nonzero _ "A"); auto; discriminate).
  assert (Eq : cells (id ++ sz ++ fl ++ [enc] ++ tail)
      = (cells id ++ cells sz ++ cells fl) ++ cells [enc] ++ cells tail).
  { rewrite !cells_app, <- !app_assoc. reflexivity. }
  rewrite Eq in *. rewrite Frame_parse_dispatch by auto.
  rewrite (starts_excl id "A" "T"), (starts_excl id "A" "C") by (auto; discriminate). rewrite HA.
  unfold ApicFrame_parse. rewrite <- !app_assoc in *. rewrite FrameHeader_parse_ok by auto. go.
  rewrite seek_fwd_at; [|fit|reflexivity]. go.
  rewrite get_cur_at. destruct U as [U|(t & ty & r & Ht & -> & U)].
  - now rewrite (proj2 (strlen_unterminated tail U)).
  - assert (B : zlen (text_image t) < 2 ^ 31).
    { unfold fits in F. rewrite !zlen_app, !zlen_cells, zlen_app in F.
      pose proof (zlen_nonneg pre). pose proof (zlen_nonneg (ty :: r)). pose proof (zlen_nonneg id). pose proof (zlen_nonneg sz).
      pose proof (zlen_nonneg fl). pose proof (zlen_nonneg [enc]). lia. }
    rewrite cells_app, cells_cons. rewrite cells_app, cells_cons in F.
    rewrite strlent_text by auto. go. pose proof (text_image_pos t). unfold vla at 1. ifF. go.
    rewrite read_into_at; [|fit|now rewrite zlen_cells]. go. rewrite getc_at. go. rewrite get_cur_at.
    now rewrite (proj2 (strlen_unterminated r U)).
Qed.

(** ** Round trips *)

Lemma frame_round_trip f pre rest ver :
  frame_ok f = true -> readable f = true -> ver <> 4 ->
  let image := frame_image be32 f in
  fits pre (cells image ++ rest) ->
  Frame_to_char_stream (Some (frame_of f)) = Ok (Some (mkCS (zlen image) (zlen image) (cells image)))
  /\ Frame_parse (at_pos pre (cells image ++ rest)) ver = Ok (Some (frame_of f), at_pos (pre ++ cells image) rest).
Proof.
  intros H R V image F. pose proof (frame_ok_common _ H) as (Hi & Hf & Hb). split.
  - rewrite frame_write by auto. unfold image. now rewrite frame_image_length.
  - unfold image, frame_image, frame_body in *. apply frame_parse; auto.
    apply declared_be32; auto. pose proof (body_size_nonneg f). lia.
Qed.

Lemma text_round_trip id flags t pid pfl ptext pre rest ver :
  frame_ok (FText id flags t) = true ->
  points_to pid id -> points_to pfl flags -> points_to ptext (text_image t) -> ver <> 4 ->
  let f := frame_of (FText id flags t) in
  let image := id ++ be32 (1 + zlen (text_image t)) ++ flags ++ [text_encoding t] ++ text_image t in
  fits pre (cells image ++ rest) ->
  TextFrame_new pid pfl ptext = Ok f
  /\ Frame_to_char_stream (Some f) = Ok (Some (mkCS (zlen image) (zlen image) (cells image)))
  /\ Frame_parse (at_pos pre (cells image ++ rest)) ver = Ok (Some f, at_pos (pre ++ cells image) rest).
Proof.
  intros H (ti & ->) (tf & ->) (tt & ->) V f image F. split; [now apply TextFrame_new_ok|].
  unfold image in *. rewrite <- (body_size_text id flags) in *.
  apply (frame_round_trip (FText id flags t)); auto.
Qed.

Lemma comment_round_trip flags lang d c pfl plang pd pc pre rest ver :
  frame_ok (FComment flags lang d c) = true ->
  points_to pfl flags -> points_to plang lang -> points_to pd (text_image d) -> points_to pc (text_image c) -> ver <> 4 ->
  let f := frame_of (FComment flags lang d c) in
  let image := lit "COMM" ++ be32 (4 + zlen (text_image d) + zlen (text_image c)) ++ flags
               ++ [text_encoding c] ++ lang ++ text_image d ++ text_image c in
  fits pre (cells image ++ rest) ->
  CommentFrame_new pfl plang pd pc = Ok f
  /\ Frame_to_char_stream (Some f) = Ok (Some (mkCS (zlen image) (zlen image) (cells image)))
  /\ Frame_parse (at_pos pre (cells image ++ rest)) ver = Ok (Some f, at_pos (pre ++ cells image) rest).
Proof.
  intros H (tf & ->) (tl & ->) (td & ->) (tc & ->) V f image F. split; [now apply CommentFrame_new_ok|].
  assert (E : 4 + zlen (text_image d) + zlen (text_image c) = body_size (FComment flags lang d c)).
  { rewrite body_size_comment. apply frame_ok_kind in H. destruct H as (Hl & _). unfold zlen at 3. rewrite Hl. lia. }
  unfold image in *. rewrite E in *. apply (frame_round_trip (FComment flags lang d c)); auto.
Qed.

Lemma picture_round_trip flags m ty d pic pfl pm pd pp pre rest ver :
  frame_ok (FPicture flags m ty d pic) = true -> pic <> [] ->
  points_to pfl flags -> points_to pm (text_image m) -> points_to pd (text_image d) -> points_to pp pic -> ver <> 4 ->
  let f := frame_of (FPicture flags m ty d pic) in
  let image := lit "APIC" ++ be32 (2 + zlen (text_image m) + zlen (text_image d) + zlen pic) ++ flags
               ++ [text_encoding d] ++ text_image m ++ [ty] ++ text_image d ++ pic in
  fits pre (cells image ++ rest) ->
  ApicFrame_new pfl pd ty pm (zlen pic) pp = Ok f
  /\ Frame_to_char_stream (Some f) = Ok (Some (mkCS (zlen image) (zlen image) (cells image)))
  /\ Frame_parse (at_pos pre (cells image ++ rest)) ver = Ok (Some f, at_pos (pre ++ cells image) rest).
Proof.
  intros H Np (tf & ->) (tm & ->) (td & ->) (tp & ->) V f image F. split; [now apply ApicFrame_new_ok|].
  assert (E : 2 + zlen (text_image m) + zlen (text_image d) + zlen pic = body_size (FPicture flags m ty d pic)).
  { rewrite body_size_picture. lia. }
  unfold image in *. rewrite E in *. apply (frame_round_trip (FPicture flags m ty d pic)); auto.
  cbn [readable]. destruct pic; [congruence|reflexivity].
Qed.

(** Unknown frames, also with an empty body. *)
Lemma other_round_trip id flags body pre rest ver :
  frame_ok (FOther id flags body) = true -> ver <> 4 ->
  let image := id ++ be32 (zlen body) ++ flags ++ body in
  let f := mkFrame (mkFH (cells id) (zlen body) (cells flags)) (DRaw (cells body)) in
  fits pre (cells image ++ rest) ->
  Frame_parse (at_pos pre (cells image ++ rest)) ver = Ok (Some f, at_pos (pre ++ cells image) rest)
  /\ Frame_to_char_stream (Some f) = Ok (Some (mkCS (zlen image) (zlen image) (cells image))).
Proof.
  intros H V image f F.
  pose proof (frame_ok_common _ H) as (Hi & Hf & Hb). cbn [frame_id frame_flags] in Hi, Hf.
  rewrite body_size_other in Hb. pose proof (zlen_nonneg body).
  assert (Ef : f = frame_of (FOther id flags body)).
  { unfold f, frame_of. now rewrite body_size_other. }
  rewrite Ef. split.
  - pose proof (frame_ok_kind _ H) as Hk. cbn in Hk. destruct Hk as (H1 & H2 & H3 & H4).
    assert (Eq : forall x, cells image ++ x = (cells id ++ cells (be32 (zlen body)) ++ cells flags) ++ cells body ++ x)
      by (intros; unfold image; rewrite !cells_app, <- !app_assoc; reflexivity).
    rewrite Eq in *. rewrite parse_other; auto.
    + do 3 f_equal. unfold image. rewrite !cells_app, <- !app_assoc. reflexivity.
    + apply declared_be32; auto. lia.
  - rewrite frame_write by auto.
    change image with (frame_image be32 (FOther id flags body)). now rewrite frame_image_length.
Qed.

Lemma text_junk_dropped pre id sz fl enc t junk rest ver :
  length id = 4%nat -> length sz = 4%nat -> length fl = 2%nat ->
  id_starts id "T" = true -> text_ok t = true ->
  declared_size ver sz = 1 + zlen (text_image t ++ junk) ->
  let seen_bytes := id ++ sz ++ fl ++ [enc] ++ text_image t ++ junk in
  let image := id ++ be32 (1 + zlen (text_image t)) ++ fl ++ [text_encoding t] ++ text_image t in
  fits pre (cells seen_bytes ++ rest) ->
  Frame_parse (at_pos pre (cells seen_bytes ++ rest)) ver
    = Ok (Some (frame_of (FText id fl t)), at_pos (pre ++ cells seen_bytes) rest)
  /\ Frame_to_char_stream (Some (frame_of (FText id fl t))) = Ok (Some (mkCS (zlen image) (zlen image) (cells image)))
  /\ zlen image = zlen seen_bytes - zlen junk.
Proof.
  intros Li Ls Lf HT Ht Hs sb image F.
  assert (Z4 : zlen id = 4 /\ zlen sz = 4 /\ zlen fl = 2) by (unfold zlen; rewrite Li, Ls, Lf; auto).
  assert (Fo : frame_ok (FText id fl t) = true).
  { unfold frame_ok. cbn [frame_id frame_flags]. rewrite body_size_text. unfold len_is. rewrite Li, Lf, HT, Ht.
    unfold fits, sb in F. rewrite !zlen_app, !zlen_cells, !zlen_app in F. change (zlen [enc]) with 1 in F.
    pose proof (zlen_nonneg rest). pose proof (zlen_nonneg pre). pose proof (zlen_nonneg junk).
    cbn [Nat.eqb andb]. replace (1 + zlen (text_image t) + 10 <? 2 ^ 31) with true by lia. reflexivity. }
  assert (Im : image = frame_image be32 (FText id fl t)).
  { unfold image, frame_image. now rewrite body_size_text. }
  assert (Zi : zlen image = body_size (FText id fl t) + 10) by (now rewrite Im, frame_image_length).
  split; [|split].
  - unfold sb in *.
    assert (Eq : forall x, cells (id ++ sz ++ fl ++ [enc] ++ text_image t ++ junk) ++ x
      = (cells id ++ cells sz ++ cells fl) ++ cells ([enc] ++ text_image t ++ junk) ++ x)
      by (intros; rewrite !cells_app, <- !app_assoc; reflexivity).
    rewrite Eq in *. rewrite parse_text; auto.
    + do 3 f_equal. rewrite !cells_app, <- !app_assoc. reflexivity.
    + rewrite Hs, !zlen_app. change (zlen [enc]) with 1. lia.
    + pose proof (frame_ok_common _ Fo) as (_ & _ & B). rewrite body_size_text in B. lia.
  - rewrite frame_write by auto. rewrite Zi. now rewrite Im.
  - rewrite Zi, body_size_text. unfold sb. rewrite !zlen_app. change (zlen [enc]) with 1. lia.
Qed.

(** A comment frame is read by its strings; the declared size plays no role. *)
Lemma comment_any_size pre id sz fl enc lang d c rest ver :
  length id = 4%nat -> length sz = 4%nat -> length fl = 2%nat -> length lang = 3%nat ->
  id_starts id "C" = true -> text_ok d = true -> text_ok c = true ->
  let seen_bytes := id ++ sz ++ fl ++ [enc] ++ lang ++ text_image d ++ text_image c in
  fits pre (cells seen_bytes ++ rest) ->
  Frame_parse (at_pos pre (cells seen_bytes ++ rest)) ver
  = Ok (Some (frame_of (FComment fl lang d c)), at_pos (pre ++ cells seen_bytes) rest).
Proof.
  intros Li Ls Lf Ll HC Hd Hc sb F. unfold sb in *.
  assert (Eq : forall x, cells (id ++ sz ++ fl ++ [enc] ++ lang ++ text_image d ++ text_image c) ++ x
    = (cells id ++ cells sz ++ cells fl) ++ cells ([enc] ++ lang ++ text_image d ++ text_image c) ++ x)
    by (intros; rewrite !cells_app, <- !app_assoc; reflexivity).
  rewrite Eq in *. rewrite parse_comment; auto.
  do 3 f_equal. rewrite !cells_app, <- !app_assoc. reflexivity.
Qed.

(** Any encoding byte. *)
Lemma frame_relabelled f enc pre rest :
  frame_ok f = true -> readable f = true ->
  let bytes e := frame_id f ++ be32 (body_size f) ++ frame_flags f ++ body_with e f in
  fits pre (cells (bytes enc) ++ rest) ->
  Frame_parse (at_pos pre (cells (bytes enc) ++ rest)) 3
    = Ok (Some (frame_of f), at_pos (pre ++ cells (bytes enc)) rest)
  /\ Frame_to_char_stream (Some (frame_of f))
    = Ok (Some (mkCS (body_size f + 10) (body_size f + 10) (cells (bytes (frame_encoding f))))).
Proof.
  intros H R bytes F. pose proof (frame_ok_common _ H) as (Hi & Hf & Hb). split.
  - apply frame_parse; auto. apply declared_be32; [discriminate|]. pose proof (body_size_nonneg f). lia.
  - now rewrite frame_write.
Qed.

(** Spelled out for the four kinds of ids. *)
Lemma frame_kind_spelled p id r ver f cs :
  fits p (cells id ++ r) -> length id = 4%nat ->
  Frame_parse (at_pos p (cells id ++ r)) ver = Ok (Some f, cs) ->
  (id_starts id "C" = true -> fh_id (f_hdr f) = cells (lit "COMM") /\ exists d, f_data f = DComment d)
  /\ (id_starts id "A" = true -> fh_id (f_hdr f) = cells (lit "APIC") /\ exists d, f_data f = DApic d)
  /\ (id_starts id "T" = true -> fh_id (f_hdr f) = cells id /\ exists d, f_data f = DText d)
  /\ (id_starts id "C" || id_starts id "A" || id_starts id "T" = false ->
      fh_id (f_hdr f) = cells id /\ exists m, f_data f = DRaw m).
Proof.
  intros F L E. pose proof (frame_kind _ _ _ _ _ _ F L E) as K. unfold kind_matches in K.
  destruct (id_starts id "T") eqn:T.
  { rewrite (starts_excl id "T" "C"), (starts_excl id "T" "A") by (auto; discriminate).
    split; [discriminate|]. split; [discriminate|]. split; [auto|discriminate]. }
  destruct (id_starts id "C") eqn:C.
  { rewrite (starts_excl id "C" "A") by (auto; discriminate).
    split; [auto|]. split; [discriminate|]. split; discriminate. }
  destruct (id_starts id "A").
  - split; [discriminate|]. split; [auto|]. split; discriminate.
  - split; [discriminate|]. split; [discriminate|]. split; [discriminate|auto].
Qed.

Lemma encoding_ignored_bytes pre id s4 f2 e1 e2 rest ver :
  length id = 4%nat -> zlen s4 = 4 -> zlen f2 = 2 ->
  id_starts id "T" || id_starts id "C" || id_starts id "A" = true ->
  zlen pre + 11 + zlen rest < 2 ^ 31 ->
  seen (Frame_parse (at_pos pre (cells id ++ s4 ++ f2 ++ e1 :: rest)) ver)
  = seen (Frame_parse (at_pos pre (cells id ++ s4 ++ f2 ++ e2 :: rest)) ver).
Proof.
  intros L Ls Lf K F. apply (encoding_ignored pre (cells id) s4 f2 rest e1 e2 ver) with (id := id); auto.
  rewrite zlen_cells. unfold zlen. now rewrite L.
Qed.
