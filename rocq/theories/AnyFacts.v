(** What an accepted frame looks like, for arbitrary input. *)
From Verif Require Import File Spec.
From Verif Require Export ParseFacts.

Lemma memcmp_eq_true l m : memcmp_eq l m = Ok true -> exists t, m = cells l ++ t.
Proof.
  revert m. induction l as [|x l IH]; intros m E; cbn [memcmp_eq] in E; [now exists m|].
  destruct m as [|[y|] m]; try discriminate.
  destruct (beq_spec x y) as [->|]; [|discriminate].
  destruct (IH m E) as (t & ->). exists t. reflexivity.
Qed.

Lemma zlen_take n (m : mem) : 0 <= n -> zlen (take n m) = Z.min n (zlen m).
Proof. intros. unfold take, zlen. rewrite firstn_length. lia. Qed.
Lemma zlen_drop n (m : mem) : 0 <= n -> zlen (drop n m) = Z.max 0 (zlen m - n).
Proof. intros. unfold drop, zlen. rewrite skipn_length. lia. Qed.

Lemma take_app_exact (a b : mem) n : n = zlen a -> take n (a ++ b) = a.
Proof. intros ->. unfold take. apply firstn_app_exact. apply to_nat_zlen. Qed.
Lemma drop_app_exact (a b : mem) n : n = zlen a -> drop n (a ++ b) = b.
Proof. intros ->. unfold drop. apply skipn_app_exact. apply to_nat_zlen. Qed.

Lemma seek_gen p r n :
  fits p r -> - 2 ^ 31 <= zlen p + n < 2 ^ 31 ->
  CharStream_seek (at_pos p r) n SEEK_CUR
  = Ok (at_pos (take (clamp_int (zlen p + n) 0 (zlen p + zlen r)) (p ++ r))
               (drop (clamp_int (zlen p + n) 0 (zlen p + zlen r)) (p ++ r))).
Proof.
  intros F B. unfold CharStream_seek. cbn [at_pos cs_cursor cs_size]. rewrite iadd_ok by auto. go.
  pose proof (zlen_nonneg p). pose proof (zlen_nonneg r).
  set (k := clamp_int (zlen p + n) 0 (zlen p + zlen r)).
  assert (K : 0 <= k <= zlen p + zlen r).
  { unfold k, clamp_int. destruct (_ <? 0) eqn:?; [lia|]. destruct (_ <? zlen p + n) eqn:?; lia. }
  unfold with_cursor, at_pos. cbn [cs_size cs_stream]. rewrite take_drop.
  rewrite zlen_take, zlen_drop, zlen_app by lia. do 2 f_equal; lia.
Qed.

Definition size_of_cells (n ver : Z) : Z :=
  if ver =? 4 then to_i32 (syncint_decode (to_i32 n)) else to_i32 n.

Lemma split8 (r : mem) : 8 <= zlen r ->
  exists i s c, r = i ++ s ++ c /\ zlen i = 4 /\ zlen s = 4.
Proof.
  intros H. exists (take 4 r), (take 4 (drop 4 r)), (drop 4 (drop 4 r)).
  rewrite take_drop, take_drop. repeat split.
  - rewrite zlen_take by lia. lia.
  - rewrite zlen_take, zlen_drop by lia. lia.
Qed.

(** An accepted frame header. *)
Lemma header_parse_some p r ver h cs :
  fits p r -> FrameHeader_parse (at_pos p r) ver = Ok (Some h, cs) ->
  exists i s c n, r = i ++ s ++ c /\ zlen i = 4 /\ zlen s = 4
    /\ btoi s 4 = Ok n
    /\ h = mkFH i (size_of_cells n ver) (take 2 c ++ repeat None (2 - length c))
    /\ cs = at_pos (p ++ i ++ s ++ take 2 c) (drop 2 c)
    /\ memcmp_eq [x00; x00; x00; x00] i = Ok false.
Proof.
  intros F E. assert (L : 8 <= zlen r).
  { destruct (Z.le_gt_cases 8 (zlen r)) as [|C]; [assumption|exfalso].
    unfold FrameHeader_parse in E. change ID3v2_FRAME_HEADER_ID_LENGTH with 4 in E.
    rewrite read_into_gen in E by (auto; lia). cbn [bind] in E.
    binv E. destruct v; [binv E; discriminate E|]. binv E. destruct v as [raw cs1]. binv E.
    unfold CharStream_slice in E1. rewrite get_cur_at in E1. binv E1. injection E1 as <- _.
    destruct (btoi_short (drop 4 r)) as (u & U).
    { pose proof (zlen_drop 4 r ltac:(lia)) as Z. unfold zlen in *. lia. }
    change ID3v2_FRAME_HEADER_SIZE_LENGTH with 4 in E2. rewrite U in E2. discriminate E2. }
  destruct (split8 r L) as (i & s & c & -> & Li & Ls).
  exists i, s, c. unfold FrameHeader_parse in E.
  rewrite read_into_at in E by (auto; now rewrite Li). cbn [bind] in E.
  binv E. destruct v.
  { binv E. discriminate E. }
  rewrite slice_at in E; [|fit|now rewrite Ls]. cbn [bind] in E.
  binv E. change ID3v2_FRAME_HEADER_FLAGS_LENGTH with 2 in E.
  rewrite read_into_gen in E; [|fit|lia]. cbn [bind] in E.
  assert (Bt : btoi s 4 = Ok v).
  { destruct (zlen4 s Ls) as (x & y & z & w & ->). exact E1. }
  unfold FrameHeader_new in E. rewrite (memcpy_from_all i) in E by (now rewrite Li). cbn [bind] in E.
  rewrite memcpy_from_all in E.
  2:{ unfold take, zlen. rewrite app_length, firstn_length, repeat_length. change (Z.to_nat 2) with 2%nat.
      change ID3v2_FRAME_HEADER_FLAGS_LENGTH with 2. lia. }
  cbn [bind] in E. injection E as <- <-. exists v.
  change (Z.to_nat 2) with 2%nat.
  repeat split; auto. now rewrite <- !app_assoc.
Qed.

Lemma header_parse_none p r ver cs :
  fits p r -> FrameHeader_parse (at_pos p r) ver = Ok (None, cs) ->
  cs = at_pos p r /\ exists t, r = cells [x00; x00; x00; x00] ++ t.
Proof.
  intros F E. unfold FrameHeader_parse in E. change ID3v2_FRAME_HEADER_ID_LENGTH with 4 in E.
  rewrite read_into_gen in E by (auto; lia). cbn [bind] in E. binv E. destruct v.
  - apply memcmp_eq_true in E0. destruct E0 as (t & E0).
    assert (L : 4 <= zlen r).
    { destruct (Z.le_gt_cases 4 (zlen r)) as [|C]; [assumption|exfalso].
      unfold take in E0. change (Z.to_nat 4) with 4%nat in E0. unfold zlen in C.
      destruct r as [|a [|b [|c [|d r]]]]; cbn [length] in C; try lia;
        cbn [firstn length Nat.sub repeat app cells map] in E0; discriminate E0. }
    assert (E1 : take 4 r = cells [x00; x00; x00; x00]).
    { unfold zlen in L. replace (Z.to_nat 4 - length r)%nat with 0%nat in E0 by lia.
      cbn [repeat] in E0. rewrite app_nil_r in E0.
      pose proof (zlen_take 4 r ltac:(lia)) as Z. rewrite E0, zlen_app in Z. change (zlen (cells [x00; x00; x00; x00])) with 4 in Z.
      assert (t = []) as -> by (apply zlen_0; unfold zlen in *; lia). now rewrite app_nil_r in E0. }
    binv E. injection E as <-. split.
    + rewrite seek_back_at in E2.
      * injection E2 as <-. now rewrite take_drop.
      * now rewrite take_drop.
      * rewrite E1. reflexivity.
    + exists (drop 4 r). now rewrite <- E1, take_drop.
  - binv E. destruct v. binv E. binv E. destruct v0. binv E. discriminate E.
Qed.

(** A frame that ends inside its header: the parsers of the three known kinds
    do not return. *)
Lemma strlent_empty (m : mem) : m = [] -> ID3v2_strlent (Some m) = Ub OobRead.
Proof. now intros ->. Qed.

Lemma take_nil n : take n [] = [].
Proof. unfold take. apply firstn_nil. Qed.
Lemma drop_nil n : drop n [] = [].
Proof. unfold drop. apply skipn_nil. Qed.

Lemma header_at_end p r ver h cs :
  fits p r -> zlen r <= 10 -> FrameHeader_parse (at_pos p r) ver = Ok (Some h, cs) ->
  cs = at_pos (p ++ r) [].
Proof.
  intros F L E. destruct (header_parse_some _ _ _ _ _ F E) as (i & s & c & n & -> & Li & Ls & _ & _ & -> & _).
  rewrite !zlen_app in L. rewrite <- (take_drop 2 c) at 3.
  assert (D : drop 2 c = []). { apply zlen_0. rewrite zlen_drop; lia. }
  rewrite D. now rewrite app_nil_r.
Qed.

Lemma seek_end p : zlen p + 1 < 2 ^ 31 ->
  CharStream_seek (at_pos p []) ID3v2_FRAME_ENCODING_LENGTH SEEK_CUR = Ok (at_pos p []).
Proof.
  intros H. unfold CharStream_seek. cbn [at_pos cs_cursor cs_size]. change (zlen (@nil cell)) with 0.
  change ID3v2_FRAME_ENCODING_LENGTH with 1. pose proof (zlen_nonneg p).
  rewrite iadd_ok by lia. go. unfold clamp_int. ifF. ifT.
  unfold with_cursor, at_pos. cbn [cs_size cs_stream]. change (zlen (@nil cell)) with 0. do 2 f_equal. lia.
Qed.

Lemma seek_end_inv p cs :
  CharStream_seek (at_pos p []) ID3v2_FRAME_ENCODING_LENGTH SEEK_CUR = Ok cs -> cs = at_pos p [].
Proof.
  intros E. pose proof E as E'. unfold CharStream_seek in E. binv E. unfold iadd in E0.
  apply chk_int_inv in E0. destruct E0 as [_ R]. cbn [at_pos cs_cursor] in R.
  change ID3v2_FRAME_ENCODING_LENGTH with 1 in R. rewrite seek_end in E' by lia. congruence.
Qed.

Lemma text_parse_short p r ver res :
  fits p r -> zlen r <= 10 -> TextFrame_parse (at_pos p r) ver <> Ok res.
Proof.
  intros F L E. unfold TextFrame_parse in E. binv E. destruct v as [[h|] cs].
  - apply header_at_end in E0; auto. subst cs. binv E. apply seek_end_inv in E0. subst v.
    cbn [deref bind] in E. binv E. binv E. binv E. destruct v1 as [t cs].
    rewrite read_into_gen in E2.
    2:{ unfold fits in *. rewrite zlen_app. change (zlen (@nil cell)) with 0. lia. }
    2:{ unfold vla in E1. destruct (v <=? 0) eqn:?; [discriminate|lia]. }
    injection E2 as <- _. rewrite take_nil in E.
    unfold vla in E1. destruct (v <=? 0) eqn:V; [discriminate|].
    cbn [length app] in E. rewrite Nat.sub_0_r in E.
    destruct (Z.to_nat v) eqn:Ev; [lia|].
    cbn [repeat] in E. discriminate E.
  - binv E. discriminate E.
Qed.

Lemma comment_parse_short p r ver res :
  fits p r -> zlen r <= 10 -> CommentFrame_parse (at_pos p r) ver <> Ok res.
Proof.
  intros F L E. unfold CommentFrame_parse in E. binv E. destruct v as [[h|] cs].
  - apply header_at_end in E0; auto. subst cs. binv E. apply seek_end_inv in E0. subst v.
    binv E. destruct v as [t cs]. change ID3v2_COMMENT_FRAME_LANGUAGE_LENGTH with 3 in E0.
    rewrite read_into_gen in E0.
    2:{ unfold fits in *. rewrite zlen_app. change (zlen (@nil cell)) with 0. lia. }
    2:{ lia. }
    injection E0 as _ <-. rewrite get_cur_at, strlent_empty in E by apply drop_nil. discriminate E.
  - binv E. binv E. destruct v0. binv E. binv E. binv E. destruct v2. binv E. binv E. binv E. destruct v4.
    discriminate E.
Qed.

Lemma apic_parse_short p r ver res :
  fits p r -> zlen r <= 10 -> ApicFrame_parse (at_pos p r) ver <> Ok res.
Proof.
  intros F L E. unfold ApicFrame_parse in E. binv E. destruct v as [[h|] cs].
  - apply header_at_end in E0; auto. subst cs. binv E. apply seek_end_inv in E0. subst v.
    rewrite get_cur_at, strlent_empty in E by reflexivity. discriminate E.
  - binv E. binv E. binv E. binv E. destruct v2. binv E. destruct v2. binv E. binv E. binv E. destruct v4. discriminate E.
Qed.

(** ** Accepted frames move the reader forward *)

Definition moved (k : Z) (p r : mem) (cs : CharStream) : Prop :=
  exists c r', r = c ++ r' /\ cs = at_pos (p ++ c) r' /\ k <= zlen c.

Lemma moved_refl p r : moved 0 p r (at_pos p r).
Proof. exists [], r. rewrite app_nil_r. split; [reflexivity|split; [reflexivity|apply zlen_nonneg]]. Qed.

Lemma moved_trans k1 k2 p c r cs :
  k1 <= zlen c -> moved k2 (p ++ c) r cs -> moved (k1 + k2) p (c ++ r) cs.
Proof.
  intros K (d & r' & -> & -> & D). exists (c ++ d), r'. rewrite <- !app_assoc. repeat split. zl. lia.
Qed.

Lemma read_into_moved p r n d cs :
  fits p r -> 0 <= n -> read_into (at_pos p r) n = Ok (d, cs) ->
  exists c r', r = c ++ r' /\ cs = at_pos (p ++ c) r' /\ c = take n r /\ r' = drop n r
    /\ d = take n r ++ repeat None (Z.to_nat n - length r).
Proof.
  intros F N E. rewrite read_into_gen in E by auto. injection E as <- <-.
  exists (take n r), (drop n r). now rewrite take_drop.
Qed.

Lemma seek1_moved p r cs :
  fits p r -> CharStream_seek (at_pos p r) ID3v2_FRAME_ENCODING_LENGTH SEEK_CUR = Ok cs ->
  cs = at_pos (p ++ take 1 r) (drop 1 r).
Proof.
  intros F E. destruct r as [|a r].
  - apply seek_end_inv in E. subst. rewrite take_nil, drop_nil. now rewrite app_nil_r.
  - change (a :: r) with ([a] ++ r) in *. change ID3v2_FRAME_ENCODING_LENGTH with 1 in E.
    rewrite (seek_fwd_at p [a] r 1) in E by (first [exact F|reflexivity]). injection E as <-. reflexivity.
Qed.

Lemma getc_moved p r z cs : CharStream_getc (at_pos p r) = Ok (z, cs) ->
  exists c r', r = c ++ r' /\ cs = at_pos (p ++ c) r'.
Proof.
  rewrite getc_gen. destruct r as [|[b|] r]; intros E; try discriminate; injection E as <- <-.
  - exists [], []. now rewrite !app_nil_r.
  - now exists [Some b], r.
Qed.

Lemma fits_app p c r : fits p (c ++ r) -> fits (p ++ c) r.
Proof. apply fits_shift. Qed.

Lemma moved_app p c r cs : moved 0 (p ++ c) r cs -> moved 0 p (c ++ r) cs.
Proof. intros M. apply (moved_trans 0 0); auto. apply zlen_nonneg. Qed.

Lemma vla_pos n u : vla n = Ok u -> 0 < n.
Proof. unfold vla. destruct (n <=? 0) eqn:E; [discriminate|lia]. Qed.

Ltac fitc F c :=
  unfold fits in *; pose proof (zlen_take_drop 2 c); pose proof (zlen_take_drop 1 (drop 2 c));
  repeat match goal with E : @eq (list cell) _ (_ ++ _) |- _ => apply (f_equal (@zlen cell)) in E
                       | E : @eq mem _ (_ ++ _) |- _ => apply (f_equal (@zlen cell)) in E end;
  rewrite ?zlen_app in *; lia.

Lemma text_parse_moved p r ver f cs :
  fits p r -> TextFrame_parse (at_pos p r) ver = Ok (f, cs) -> moved 10 p r cs.
Proof.
  intros F E. destruct (Z.le_gt_cases (zlen r) 10) as [L|L]; [now destruct (text_parse_short p r ver (f, cs) F L)|].
  unfold TextFrame_parse in E. binv E. destruct v as [[h|] cs1]; [|binv E; discriminate E].
  apply header_parse_some in E0; auto.
  destruct E0 as (i & s & c & n & -> & Li & Ls & _ & _ & -> & _).
  binv E. apply seek1_moved in E0; [|fitc F c].
  cbn [deref bind] in E. binv E. binv E. binv E. destruct v2 as [t cs2]. subst v. apply vla_pos in E2.
  apply read_into_moved in E3; [|fitc F c|lia].
  destruct E3 as (c3 & r3 & E3 & -> & _). binv E. injection E as _ <-.
  exists (i ++ s ++ take 2 c ++ take 1 (drop 2 c) ++ c3), r3. repeat split.
  - rewrite <- !app_assoc. do 2 f_equal. rewrite <- E3, take_drop, take_drop. reflexivity.
  - now rewrite <- !app_assoc.
  - rewrite !zlen_app, zlen_take by lia. rewrite !zlen_app in L.
    pose proof (zlen_nonneg (take 1 (drop 2 c))). pose proof (zlen_nonneg c3). lia.
Qed.

Lemma comment_parse_moved p r ver f cs :
  fits p r -> CommentFrame_parse (at_pos p r) ver = Ok (f, cs) -> moved 10 p r cs.
Proof.
  intros F E. destruct (Z.le_gt_cases (zlen r) 10) as [L|L]; [now destruct (comment_parse_short p r ver (f, cs) F L)|].
  unfold CommentFrame_parse in E. binv E. destruct v as [[h|] cs1].
  2:{ binv E. binv E. destruct v0. binv E. binv E. binv E. destruct v2. binv E. binv E. binv E. destruct v4. discriminate E. }
  apply header_parse_some in E0; auto.
  destruct E0 as (i & s & c & n & -> & Li & Ls & _ & _ & -> & _).
  binv E. apply seek1_moved in E0; [|fitc F c]. subst v.
  binv E. destruct v as [lang cs2]. change ID3v2_COMMENT_FRAME_LANGUAGE_LENGTH with 3 in E0.
  apply read_into_moved in E0; [|fitc F c|lia].
  destruct E0 as (c2 & r2 & E0 & -> & _).
  binv E. binv E. binv E. destruct v1 as [sd cs3]. apply vla_pos in E2.
  apply read_into_moved in E3; [|fitc F c|lia].
  destruct E3 as (c3 & r3 & E3 & -> & _).
  binv E. binv E. binv E. destruct v3 as [cm cs4]. apply vla_pos in E5.
  apply read_into_moved in E6; [|fitc F c|lia].
  destruct E6 as (c4 & r4 & E6 & -> & _).
  cbn [deref bind] in E. binv E. injection E as _ <-.
  exists (i ++ s ++ take 2 c ++ take 1 (drop 2 c) ++ c2 ++ c3 ++ c4), r4. repeat split.
  - rewrite <- !app_assoc. do 2 f_equal. rewrite <- E6, <- E3, <- E0, take_drop, take_drop. reflexivity.
  - now rewrite <- !app_assoc.
  - rewrite !zlen_app, zlen_take by lia. rewrite !zlen_app in L.
    pose proof (zlen_nonneg (take 1 (drop 2 c))). pose proof (zlen_nonneg c2). pose proof (zlen_nonneg c3). pose proof (zlen_nonneg c4). lia.
Qed.

Lemma apic_parse_moved p r ver f cs :
  fits p r -> ApicFrame_parse (at_pos p r) ver = Ok (f, cs) -> moved 10 p r cs.
Proof.
  intros F E. destruct (Z.le_gt_cases (zlen r) 10) as [L|L]; [now destruct (apic_parse_short p r ver (f, cs) F L)|].
  unfold ApicFrame_parse in E. binv E. destruct v as [[h|] cs1].
  2:{ binv E. binv E. binv E. binv E. destruct v2. binv E. destruct v2. binv E. binv E. binv E. destruct v4. discriminate E. }
  apply header_parse_some in E0; auto.
  destruct E0 as (i & s & c & n & -> & Li & Ls & _ & _ & -> & _).
  binv E. apply seek1_moved in E0; [|fitc F c]. subst v.
  binv E. binv E. binv E. destruct v1 as [mime cs2]. apply vla_pos in E1.
  apply read_into_moved in E2; [|fitc F c|lia].
  destruct E2 as (c2 & r2 & E2 & -> & _).
  binv E. destruct v1 as [pt cs3]. apply getc_moved in E3. destruct E3 as (c3 & r3 & E3 & ->).
  binv E. binv E. binv E. destruct v3 as [ds cs4]. apply vla_pos in E5.
  apply read_into_moved in E6; [|fitc F c|lia].
  destruct E6 as (c4 & r4 & E6 & -> & _).
  cbn [deref bind] in E. binv E. binv E. binv E. binv E. binv E. binv E. destruct v8 as [pic cs5]. apply vla_pos in E11.
  apply read_into_moved in E12; [|fitc F c|lia].
  destruct E12 as (c5 & r5 & E12 & -> & _).
  binv E. injection E as _ <-.
  exists (i ++ s ++ take 2 c ++ take 1 (drop 2 c) ++ c2 ++ c3 ++ c4 ++ c5), r5. repeat split.
  - rewrite <- !app_assoc. do 2 f_equal. rewrite <- E12, <- E6, <- E3, <- E2, take_drop, take_drop. reflexivity.
  - now rewrite <- !app_assoc.
  - rewrite !zlen_app, zlen_take by lia. rewrite !zlen_app in L.
    pose proof (zlen_nonneg (take 1 (drop 2 c))). pose proof (zlen_nonneg c2). pose proof (zlen_nonneg c3). pose proof (zlen_nonneg c4). pose proof (zlen_nonneg c5). lia.
Qed.

(** Rewinding over a header that was read completely, or to a point from which
    the known kinds cannot be parsed. *)
Lemma rewind p i s c :
  fits p (i ++ s ++ c) -> zlen i = 4 -> zlen s = 4 ->
  exists p' r', CharStream_seek (at_pos (p ++ i ++ s ++ take 2 c) (drop 2 c)) (- ID3v2_FRAME_HEADER_LENGTH) SEEK_CUR
     = Ok (at_pos p' r') /\ fits p' r' /\
     (zlen r' <= 10 \/ (p' = p /\ r' = i ++ s ++ c)).
Proof.
  intros F Li Ls. destruct (Z.le_gt_cases 2 (zlen c)) as [C|C].
  - exists p, (i ++ s ++ c). split; [|split; auto].
    assert (Eq : i ++ s ++ c = (i ++ s ++ take 2 c) ++ drop 2 c) by (rewrite <- !app_assoc, take_drop; reflexivity).
    rewrite Eq. apply seek_back_at.
    + now rewrite <- Eq.
    + zl. rewrite zlen_take by lia. rewrite Li, Ls, Z.min_l by lia. reflexivity.
  - assert (D : drop 2 c = []). { apply zlen_0. rewrite zlen_drop; lia. }
    assert (T : take 2 c = c). { rewrite <- (take_drop 2 c) at 2. now rewrite D, app_nil_r. }
    rewrite D, T. unfold fits in F. rewrite !zlen_app in F.
    pose proof (zlen_nonneg p). pose proof (zlen_nonneg c).
    change ID3v2_FRAME_HEADER_LENGTH with 10.
    rewrite seek_gen; unfold fits; zl; try lia.
    rewrite app_nil_r.
    set (k := clamp_int _ _ _).
    assert (K : 0 <= k /\ zlen (p ++ i ++ s ++ c) - 10 <= k <= zlen (p ++ i ++ s ++ c)).
    { unfold k, clamp_int. zl. destruct (_ <? 0) eqn:?; [lia|]. match goal with |- context [if ?b then _ else _] => destruct b eqn:? end; lia. }
    do 2 eexists. split; [reflexivity|]. split.
    + pose proof (zlen_take_drop k (p ++ i ++ s ++ c)). rewrite H1. zl. lia.
    + left. rewrite zlen_drop by lia. lia.
Qed.

(** Every frame that is accepted, whatever the bytes, moves the reader at
    least 8 bytes; NULL is returned only in front of four zero bytes. *)
Lemma frame_parse_moved p r ver fo cs :
  fits p r -> Frame_parse (at_pos p r) ver = Ok (fo, cs) ->
  match fo with
  | Some _ => moved 8 p r cs
  | None => cs = at_pos p r /\ exists t, r = cells [x00; x00; x00; x00] ++ t
  end.
Proof.
  intros F E. unfold Frame_parse in E. binv E. destruct v as [[h|] cs1].
  2:{ apply header_parse_none in E0; auto. injection E as <- <-. exact E0. }
  apply header_parse_some in E0; auto.
  destruct E0 as (i & s & c & n & -> & Li & Ls & _ & Hh & -> & _).
  binv E. binv E. binv E.
  destruct (rewind p i s c F Li Ls) as (p' & r' & R & F' & Cs).
  assert (M10 : forall cs0, moved 10 p (i ++ s ++ c) cs0 -> moved 8 p (i ++ s ++ c) cs0).
  { intros cs0 (d & r0 & A & B & C). exists d, r0. repeat split; auto. lia. }
  destruct v; [|destruct v0; [|destruct v1]].
  - rewrite R in E. cbn [bind] in E. binv E. destruct v as [f0 cs0]. injection E as <- <-.
    destruct Cs as [L|[-> ->]]; [now destruct (text_parse_short p' r' ver (f0, cs0) F' L)|].
    eapply M10, text_parse_moved; eauto.
  - rewrite R in E. cbn [bind] in E. binv E. destruct v as [f0 cs0]. injection E as <- <-.
    destruct Cs as [L|[-> ->]]; [now destruct (comment_parse_short p' r' ver (f0, cs0) F' L)|].
    eapply M10, comment_parse_moved; eauto.
  - rewrite R in E. cbn [bind] in E. binv E. destruct v as [f0 cs0]. injection E as <- <-.
    destruct Cs as [L|[-> ->]]; [now destruct (apic_parse_short p' r' ver (f0, cs0) F' L)|].
    eapply M10, apic_parse_moved; eauto.
  - destruct (fh_size h <? 0) eqn:N; [discriminate|]. binv E. destruct v as [d cs2].
    injection E as <- <-. apply read_into_moved in E3; [|fitc F c|lia].
    destruct E3 as (c3 & r3 & E3 & -> & _).
    exists (i ++ s ++ take 2 c ++ c3), r3. repeat split.
    + rewrite <- !app_assoc. do 2 f_equal. now rewrite <- E3, take_drop.
    + now rewrite <- !app_assoc.
    + rewrite !zlen_app. pose proof (zlen_nonneg (take 2 c)). pose proof (zlen_nonneg c3). lia.
Qed.
