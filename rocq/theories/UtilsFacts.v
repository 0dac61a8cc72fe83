(** Facts about the model of utils.c. *)
From Verif Require Import Utils Spec.
From Verif Require Export BaseFacts.

(** ** Strings *)

Lemma is_zero_beq b : is_zero b = beq b x00.
Proof. reflexivity. Qed.

(** string_has_bom looks at two bytes, or one when the first decides. *)
Lemma has_bom_cells l tail :
  (2 <= length l)%nat -> string_has_bom (Some (cells l ++ tail)) = Ok (starts_with_bom l).
Proof.
  destruct l as [|a [|b l]]; cbn [length]; intros H; try lia. clear H.
  unfold string_has_bom, starts_with_bom. cbn [cells map app memcmp_eq].
  change (Byte.eqb) with beq.
  destruct (beq_spec xff a) as [<-|N1].
  - destruct (beq_spec xfe b) as [<-|N2]; [reflexivity|].
    destruct (beq_spec b xfe); [congruence|]. reflexivity.
  - destruct (beq_spec a xff); [congruence|]. cbn [bind andb orb].
    destruct (beq_spec xfe a) as [<-|N2].
    + destruct (beq_spec xff b) as [<-|N3]; [reflexivity|].
      destruct (beq_spec b xff); [congruence|]. reflexivity.
    + destruct (beq_spec a xfe); [congruence|]. reflexivity.
Qed.

Lemma bom_starts be l : starts_with_bom (bom_bytes be ++ l) = true.
Proof. destruct be; reflexivity. Qed.

Lemma starts_with_bom_app_zero l r :
  starts_with_bom l = false -> starts_with_bom (l ++ x00 :: r) = false.
Proof.
  destruct l as [|a [|b l]]; simpl; auto.
  - destruct r; auto.
  - intros _. now rewrite !andb_false_r.
Qed.

Definition is_unicode (t : text) : bool := match t with Iso _ => false | Utf16 _ _ => true end.

Lemma has_bom_text t tail :
  text_ok t = true -> string_has_bom (Some (cells (text_image t) ++ tail)) = Ok (is_unicode t).
Proof.
  destruct t as [cs|be us]; unfold text_image, text_ok; cbn [text_bytes text_end is_unicode]; intros H.
  - apply andb_true_iff in H. destruct H as [H1 H2]. apply negb_true_iff in H2.
    destruct cs as [|c cs].
    + reflexivity.
    + rewrite has_bom_cells by (simpl; rewrite app_length; simpl; lia).
      f_equal. now apply (starts_with_bom_app_zero (c :: cs)).
  - rewrite <- app_assoc, has_bom_cells by (rewrite app_length; destruct be; simpl; lia).
    now rewrite bom_starts.
Qed.

Lemma c_strlen_chars cs tail :
  forallb (fun c => negb (is_zero c)) cs = true ->
  c_strlen (cells cs ++ Some x00 :: tail) = Ok (zlen cs).
Proof.
  induction cs as [|c cs IH]; intros H.
  - reflexivity.
  - simpl in H. apply andb_true_iff in H. destruct H as [H1 H2].
    cbn [cells map app c_strlen].
    rewrite is_zero_beq in H1. destruct (beq c x00); [discriminate|].
    fold (cells cs). rewrite IH by auto. cbn [bind]. f_equal. rewrite zlen_cons. lia.
Qed.

Lemma wstrlen_cons b0 b1 m :
  wstrlen (Some b0 :: Some b1 :: m) =
  if is_zero b0 && is_zero b1 then Ok 0 else let* n := wstrlen m in Ok (n + 2).
Proof. cbn [wstrlen]. unfold is_zero. change Byte.eqb with beq. destruct (beq b0 x00), (beq b1 x00); reflexivity. Qed.

Lemma wstrlen_units us tail :
  forallb (fun u => negb (is_zero (fst u) && is_zero (snd u))) us = true ->
  wstrlen (cells (flat_map (fun u => [fst u; snd u]) us) ++ Some x00 :: Some x00 :: tail)
  = Ok (2 * zlen us).
Proof.
  induction us as [|[a b] us IH]; intros H.
  - reflexivity.
  - simpl in H. apply andb_true_iff in H. destruct H as [H1 H2].
    cbn [flat_map fst snd app cells map]. fold (cells (flat_map (fun u : byte * byte => [fst u; snd u]) us)).
    rewrite wstrlen_cons, IH by auto. apply negb_true_iff in H1. rewrite H1. cbn [bind].
    f_equal. rewrite zlen_cons. lia.
Qed.

Lemma zlen_units us : zlen (flat_map (fun u : byte * byte => [fst u; snd u]) us) = 2 * zlen us.
Proof.
  induction us as [|u us IH]; [reflexivity|].
  cbn [flat_map]. rewrite zlen_app, IH, !zlen_cons, zlen_nil. lia.
Qed.

Lemma wstrlen_text be us tail :
  text_ok (Utf16 be us) = true ->
  wstrlen (cells (text_image (Utf16 be us)) ++ tail) = Ok (zlen (text_bytes (Utf16 be us))).
Proof.
  intros H. unfold text_image. cbn [text_bytes text_end].
  rewrite !cells_app, <- !app_assoc, zlen_app, zlen_units.
  destruct be; cbn [bom_bytes cells map app]; rewrite wstrlen_cons;
    fold (cells (flat_map (fun u : byte * byte => [fst u; snd u]) us));
    rewrite wstrlen_units by exact H.
  - change (is_zero xfe && is_zero xff) with false. cbv iota. cbn [bind]. f_equal.
    change (zlen [xfe; xff]) with 2. lia.
  - change (is_zero xff && is_zero xfe) with false. cbv iota. cbn [bind]. f_equal.
    change (zlen [xff; xfe]) with 2. lia.
Qed.

Lemma strlen_text t tail :
  text_ok t = true -> zlen (text_image t) < 2 ^ 31 ->
  ID3v2_strlen (Some (cells (text_image t) ++ tail)) = Ok (zlen (text_bytes t)).
Proof.
  intros H L. unfold ID3v2_strlen. rewrite has_bom_text by auto. cbn [bind].
  assert (L' : 0 <= zlen (text_bytes t) < 2 ^ 31).
  { unfold text_image in L. rewrite zlen_app in L. pose proof (zlen_nonneg (text_bytes t)).
    pose proof (zlen_nonneg (text_end t)). lia. }
  destruct t as [cs|be us]; cbn [is_unicode negb].
  - unfold text_image. cbn [text_bytes text_end] in *. rewrite cells_app, <- app_assoc.
    cbn [cells map app]. fold (cells cs).
    rewrite c_strlen_chars by (simpl in H; apply andb_true_iff in H; tauto). cbn [bind].
    rewrite to_i32_id; auto. lia.
  - rewrite wstrlen_text by auto. cbn [bind]. apply chk_int_ok. lia.
Qed.

Lemma strlent_text t tail :
  text_ok t = true -> zlen (text_image t) < 2 ^ 31 ->
  ID3v2_strlent (Some (cells (text_image t) ++ tail)) = Ok (zlen (text_image t)).
Proof.
  intros H L. unfold ID3v2_strlent. rewrite has_bom_text by auto. cbn [bind].
  rewrite strlen_text by auto. cbn [bind].
  unfold text_image in *. rewrite zlen_app in *.
  pose proof (zlen_nonneg (text_bytes t)).
  replace (if is_unicode t then 2 else 1) with (zlen (text_end t)) by (destruct t; reflexivity).
  pose proof (zlen_nonneg (text_end t)).
  apply iadd_ok. lia.
Qed.

Lemma strlen_text' t :
  text_ok t = true -> zlen (text_image t) < 2 ^ 31 ->
  ID3v2_strlen (Some (cells (text_image t))) = Ok (zlen (text_bytes t)).
Proof. intros. rewrite <- (app_nil_r (cells _)). now apply strlen_text. Qed.
Lemma strlent_text' t :
  text_ok t = true -> zlen (text_image t) < 2 ^ 31 ->
  ID3v2_strlent (Some (cells (text_image t))) = Ok (zlen (text_image t)).
Proof. intros. rewrite <- (app_nil_r (cells _)). now apply strlent_text. Qed.
Lemma has_bom_text' t :
  text_ok t = true -> string_has_bom (Some (cells (text_image t))) = Ok (is_unicode t).
Proof. intros. rewrite <- (app_nil_r (cells _)). now apply has_bom_text. Qed.

Lemma text_image_pos t : 1 <= zlen (text_image t).
Proof.
  unfold text_image. rewrite zlen_app. pose proof (zlen_nonneg (text_bytes t)).
  destruct t; cbn [text_end]; rewrite ?zlen_cons, zlen_nil; lia.
Qed.

(** An object in which no byte is zero has no terminator. *)
Lemma c_strlen_unterminated l :
  forallb (fun c => negb (is_zero c)) l = true -> c_strlen (cells l) = Ub OobRead.
Proof.
  induction l as [|c l IH]; intros H; [reflexivity|].
  simpl in H. apply andb_true_iff in H. destruct H as [H1 H2].
  cbn [cells map c_strlen]. rewrite is_zero_beq in H1. destruct (beq c x00); [discriminate|].
  fold (cells l). now rewrite IH.
Qed.

(** ** Bit operations *)

(** A multiple of 2^k or a number below 2^k. *)
Lemma lor_disjoint k a b : 0 <= k -> 0 <= b < 2 ^ k -> Z.lor (a * 2 ^ k) b = a * 2 ^ k + b.
Proof.
  intros Hk Hb. rewrite <- Z.lxor_lor; [symmetry; apply Z.add_nocarry_lxor|].
  all: apply Z.bits_inj'; intros n Hn; rewrite Z.land_spec, Z.bits_0.
  all: destruct (Z.ltb_spec n k) as [C|C].
  1,3: rewrite Z.mul_pow2_bits_low by lia; reflexivity.
  all: apply andb_false_iff; right; destruct (Z.eq_dec b 0) as [->|N]; [apply Z.bits_0|].
  all: apply Z.bits_above_log2; [lia|]; apply Z.log2_lt_pow2; [lia|];
    apply Z.lt_le_trans with (2 ^ k); [lia|]; apply Z.pow_le_mono_r; lia.
Qed.

Lemma land_ff z : Z.land z 0xFF = z mod 256.
Proof. change 0xFF with (Z.ones 8). now rewrite Z.land_ones by lia. Qed.

(** ** Big-endian numbers *)

Lemma lor_step r b : 0 <= r -> Z.lor (to_u32 (Z.shiftl r 8)) (bv b) = to_u32 (r * 256 + bv b).
Proof.
  intros Hr. pose proof (bv_range b) as Hb.
  assert (E : to_u32 (Z.shiftl r 8) = (r mod 2 ^ 24) * 2 ^ 8).
  { unfold to_u32. rewrite !Z.shiftl_mul_pow2 by lia.
    change (2 ^ 32) with (2 ^ 24 * 2 ^ 8). rewrite Z.mul_mod_distr_r; lia. }
  rewrite E, lor_disjoint by (change (2 ^ 8) with 256; lia).
  unfold to_u32. change (2 ^ 32) with (2 ^ 24 * 256). change (2 ^ 24) with 16777216.
  change (2 ^ 8) with 256. lia.
Qed.

Lemma fold_be_eqm l a b : a mod 2 ^ 32 = b mod 2 ^ 32 ->
  fold_left (fun acc b => acc * 256 + bv b) l a mod 2 ^ 32
  = fold_left (fun acc b => acc * 256 + bv b) l b mod 2 ^ 32.
Proof.
  revert a b; induction l as [|x l IH]; intros a b H; [exact H|]. cbn [fold_left]. apply IH.
  rewrite <- Z.add_mod_idemp_l, <- Z.mul_mod_idemp_l, H by lia.
  now rewrite Z.mul_mod_idemp_l, Z.add_mod_idemp_l by lia.
Qed.

Lemma btoi_loop_spec l tail r :
  0 <= r < 2 ^ 32 ->
  btoi_loop (length l) (cells l ++ tail) r
  = Ok (to_u32 (fold_left (fun acc b => acc * 256 + bv b) l r)).
Proof.
  revert r; induction l as [|b l IH]; intros r Hr.
  - cbn [length btoi_loop fold_left]. now rewrite to_u32_id.
  - cbn [length btoi_loop cells map app fold_left]. rewrite lor_step by lia. fold (cells l).
    rewrite IH by apply to_u32_range. f_equal.
    apply fold_be_eqm. unfold to_u32. now rewrite Z.mod_mod by lia.
Qed.

Lemma btoi_spec l tail n :
  n = zlen l -> btoi (cells l ++ tail) n = Ok (to_u32 (be_value l)).
Proof.
  intros ->. unfold btoi. rewrite to_nat_zlen. apply btoi_loop_spec. lia.
Qed.

Lemma btoi_spec' l n :
  n = zlen l -> btoi (cells l) n = Ok (to_u32 (be_value l)).
Proof. intros H. rewrite <- (app_nil_r (cells l)). now apply btoi_spec. Qed.

Lemma be_value_be32 n : be_value (be32 n) = n mod 2 ^ 32.
Proof.
  unfold be_value, be32. cbn [fold_left]. rewrite !bv_zb.
  change (2 ^ 24) with 16777216. change (2 ^ 16) with 65536. change (2 ^ 8) with 256.
  change (2 ^ 32) with 4294967296. lia.
Qed.

Lemma be_value4 a b c d :
  be_value [a; b; c; d] = ((bv a * 256 + bv b) * 256 + bv c) * 256 + bv d.
Proof. reflexivity. Qed.

Lemma itob_spec n : itob n = cells (be32 n).
Proof.
  unfold itob, be32, int_byte, cells. cbn [map].
  rewrite !Z.shiftr_div_pow2 by lia.
  change (2 ^ (8 * 3)) with 16777216. change (2 ^ (8 * 2)) with 65536.
  change (2 ^ (8 * 1)) with 256. change (2 ^ (8 * 0)) with 1.
  change (2 ^ 24) with 16777216. change (2 ^ 16) with 65536. change (2 ^ 8) with 256.
  unfold to_u32. change (2 ^ 32) with 4294967296.
  assert (C4 : forall a b c d a' b' c' d' : byte, a = a' -> b = b' -> c = c' -> d = d' ->
    [Some a; Some b; Some c; Some d] = [Some a'; Some b'; Some c'; Some d']) by (intros; congruence).
  apply C4; apply zb_eqm; lia.
Qed.

(** ** Synchsafe numbers *)

(** One round of the encoding loop. *)
Lemma sync_round v k : 0 <= k < 31 ->
  Z.lor (to_i32 (Z.shiftl (Z.land v (Z.lnot (2 ^ k - 1))) 1)) (Z.land v (2 ^ k - 1))
  = to_i32 (v / 2 ^ k * 2 ^ (k + 1)) + v mod 2 ^ k.
Proof.
  intros Hk.
  replace (2 ^ k - 1) with (Z.ones k) by (rewrite Z.ones_equiv; lia).
  rewrite Z.land_ones by lia. rewrite <- Z.ldiff_land, Z.ldiff_ones_r by lia.
  rewrite Z.shiftl_mul_pow2, Z.shiftl_mul_pow2, Z.shiftr_div_pow2 by lia.
  rewrite <- Z.mul_assoc. change (2 ^ 1) with 2. replace (2 ^ k * 2) with (2 ^ (k + 1)) by (rewrite Z.pow_add_r by lia; reflexivity).
  set (q := v / 2 ^ k).
  assert (E : exists c, to_i32 (q * 2 ^ (k + 1)) = c * 2 ^ (k + 1)).
  { unfold to_i32.
    assert (P32 : 2 ^ 32 = 2 ^ (31 - k) * 2 ^ (k + 1)) by (rewrite <- Z.pow_add_r by lia; f_equal; lia).
    assert (P31 : 2 ^ 31 = 2 ^ (30 - k) * 2 ^ (k + 1)) by (rewrite <- Z.pow_add_r by lia; f_equal; lia).
    rewrite P31, P32, <- Z.mul_add_distr_r, Z.mul_mod_distr_r by (try apply Z.pow_nonzero; lia).
    rewrite <- Z.mul_sub_distr_r. eauto. }
  destruct E as [c E]. rewrite E. apply lor_disjoint; [lia|].
  pose proof (Z.mod_pos_bound v (2 ^ k) ltac:(apply Z.pow_pos_nonneg; lia)).
  rewrite Z.pow_add_r by lia. lia.
Qed.

(** The encoding of any int, in closed form. *)
Definition sync_closed (v : Z) : Z :=
  to_i32 (v / 2 ^ 21 * 2 ^ 24 + v / 2 ^ 14 mod 128 * 2 ^ 16 + v / 2 ^ 7 mod 128 * 2 ^ 8 + v mod 128).

Lemma syncint_encode_closed v : syncint_encode v = Ok (sync_closed v).
Proof.
  unfold syncint_encode. cbn [syncint_encode_loop].
  set (m1 := to_i32 (to_i32 (Z.shiftl (127 + 1) 8) - 1)).
  set (o1 := Z.lor (to_i32 (Z.shiftl (Z.land v (Z.lnot 127)) 1)) (Z.land v 127)).
  change m1 with 0x7FFF.
  set (m2 := to_i32 (to_i32 (Z.shiftl (0x7FFF + 1) 8) - 1)).
  set (o2 := Z.lor (to_i32 (Z.shiftl (Z.land o1 (Z.lnot 0x7FFF)) 1)) (Z.land o1 0x7FFF)).
  change m2 with 0x7FFFFF.
  set (m3 := to_i32 (to_i32 (Z.shiftl (0x7FFFFF + 1) 8) - 1)).
  set (o3 := Z.lor (to_i32 (Z.shiftl (Z.land o2 (Z.lnot 0x7FFFFF)) 1)) (Z.land o2 0x7FFFFF)).
  change m3 with 0x7FFFFFFF.
  change (Z.lxor 127 0x7FFFFFFF =? 0) with false.
  change (Z.lxor 0x7FFF 0x7FFFFFFF =? 0) with false.
  change (Z.lxor 0x7FFFFF 0x7FFFFFFF =? 0) with false.
  change (Z.lxor 0x7FFFFFFF 0x7FFFFFFF =? 0) with true.
  cbv iota. f_equal.
  assert (E1 : o1 = to_i32 (v / 2 ^ 7 * 2 ^ 8) + v mod 2 ^ 7) by (apply (sync_round v 7); lia).
  assert (E2 : o2 = to_i32 (o1 / 2 ^ 15 * 2 ^ 16) + o1 mod 2 ^ 15) by (apply (sync_round o1 15); lia).
  assert (E3 : o3 = to_i32 (o2 / 2 ^ 23 * 2 ^ 24) + o2 mod 2 ^ 23) by (apply (sync_round o2 23); lia).
  clearbody o1 o2 o3. clear m1 m2 m3.
  rewrite E3. unfold sync_closed, to_i32 in *.
  change (2 ^ 31) with 2147483648 in *. change (2 ^ 32) with 4294967296 in *.
  change (2 ^ 7) with 128 in *. change (2 ^ 8) with 256 in *.
  change (2 ^ 14) with 16384 in *. change (2 ^ 15) with 32768 in *. change (2 ^ 16) with 65536 in *.
  change (2 ^ 21) with 2097152 in *. change (2 ^ 23) with 8388608 in *. change (2 ^ 24) with 16777216 in *.
  lia.
Qed.

Lemma lor_lt_pow2 a b k : 0 <= k -> 0 <= a < 2 ^ k -> 0 <= b < 2 ^ k -> 0 <= Z.lor a b < 2 ^ k.
Proof.
  intros Hk [Ha Ha'] [Hb Hb']. split; [apply Z.lor_nonneg; tauto|].
  destruct (Z.eq_dec (Z.lor a b) 0) as [->|N]; [lia|].
  apply Z.log2_lt_pow2.
  - assert (0 <= Z.lor a b) by (apply Z.lor_nonneg; tauto). lia.
  - rewrite Z.log2_lor by lia. apply Z.max_lub_lt.
    + destruct (Z.eq_dec a 0) as [->|]; [destruct (Z.eq_dec b 0) as [->|]; [simpl in N; lia|]|apply Z.log2_lt_pow2; lia].
      destruct (Z.eq_dec k 0) as [->|]; [lia|simpl; lia].
    + destruct (Z.eq_dec b 0) as [->|]; [|apply Z.log2_lt_pow2; lia].
      destruct (Z.eq_dec k 0) as [->|]; [|simpl; lia]. assert (a = 0) by lia. subst. simpl in N. lia.
Qed.

Lemma synchsafe_value_range l : 0 <= synchsafe_value l < 2 ^ 29.
Proof.
  destruct l as [|d [|c [|b [|a [|? ?]]]]]; cbn [synchsafe_value]; try lia.
  pose proof (bv_range a). pose proof (bv_range b). pose proof (bv_range c). pose proof (bv_range d).
  change (2 ^ 7) with 128. change (2 ^ 14) with 16384. change (2 ^ 21) with 2097152.
  repeat apply lor_lt_pow2; change (2 ^ 29) with 536870912; lia.
Qed.

Lemma synchsafe_sum d c b a : bv a < 128 -> bv b < 128 -> bv c < 128 ->
  synchsafe_value [d; c; b; a] = bv a + bv b * 2 ^ 7 + bv c * 2 ^ 14 + bv d * 2 ^ 21.
Proof.
  intros Ha Hb Hc. cbn [synchsafe_value].
  pose proof (bv_range a). pose proof (bv_range b). pose proof (bv_range c). pose proof (bv_range d).
  rewrite (Z.lor_comm (bv a)), (lor_disjoint 7) by (change (2 ^ 7) with 128; lia).
  rewrite (Z.lor_comm _ (bv c * _)), (lor_disjoint 14) by (change (2 ^ 14) with 16384; change (2 ^ 7) with 128; lia).
  rewrite (Z.lor_comm _ (bv d * _)), (lor_disjoint 21) by (change (2 ^ 21) with 2097152; change (2 ^ 14) with 16384; change (2 ^ 7) with 128; lia).
  lia.
Qed.

(** Decoding looks at the four bytes of the int. *)
Lemma syncint_decode_bytes v :
  syncint_decode v = synchsafe_value (be32 v).
Proof.
  unfold syncint_decode, be32, synchsafe_value.
  rewrite !land_ff, !Z.shiftr_div_pow2, !Z.shiftl_mul_pow2, !bv_zb by lia.
  rewrite Z.lor_0_l.
  assert (B : forall z, 0 <= z mod 256 < 256) by (intros; lia).
  pose proof (B (v / 2 ^ 8)). pose proof (B (v / 2 ^ 16)). pose proof (B (v / 2 ^ 24)).
  rewrite !to_u32_id; auto;
  change (2 ^ 7) with 128; change (2 ^ 14) with 16384; change (2 ^ 21) with 2097152;
  change (2 ^ 32) with 4294967296; lia.
Qed.

Lemma be32_to_i32 n : be32 (to_i32 n) = be32 n.
Proof.
  unfold be32, to_i32. change (2 ^ 31) with 2147483648. change (2 ^ 32) with 4294967296.
  change (2 ^ 24) with 16777216. change (2 ^ 16) with 65536. change (2 ^ 8) with 256.
  assert (C4 : forall a b c d a' b' c' d' : byte, a = a' -> b = b' -> c = c' -> d = d' ->
    [a; b; c; d] = [a'; b'; c'; d']) by (intros; congruence).
  apply C4; apply zb_eqm; lia.
Qed.

Lemma be32_to_u32 n : be32 (to_u32 n) = be32 n.
Proof.
  unfold be32, to_u32. change (2 ^ 32) with 4294967296.
  change (2 ^ 24) with 16777216. change (2 ^ 16) with 65536. change (2 ^ 8) with 256.
  assert (C4 : forall a b c d a' b' c' d' : byte, a = a' -> b = b' -> c = c' -> d = d' ->
    [a; b; c; d] = [a'; b'; c'; d']) by (intros; congruence).
  apply C4; apply zb_eqm; lia.
Qed.

Lemma be32_be_value a b c d : be32 (be_value [a; b; c; d]) = [a; b; c; d].
Proof.
  rewrite be_value4. unfold be32.
  change (2 ^ 24) with 16777216. change (2 ^ 16) with 65536. change (2 ^ 8) with 256.
  pose proof (bv_range a). pose proof (bv_range b). pose proof (bv_range c). pose proof (bv_range d).
  assert (C4 : forall a b c d a' b' c' d' : byte, a = a' -> b = b' -> c = c' -> d = d' ->
    [a; b; c; d] = [a'; b'; c'; d']) by (intros; congruence).
  apply C4; apply bv_inj; rewrite bv_zb; lia.
Qed.

(** btoi, conversion to int, syncint_decode: as in both header parsers. *)
Lemma decode_be_value l : length l = 4%nat ->
  syncint_decode (to_i32 (to_u32 (be_value l))) = synchsafe_value l.
Proof.
  destruct l as [|a [|b [|c [|d [|? ?]]]]]; intros H; try discriminate H.
  rewrite syncint_decode_bytes, be32_to_i32, be32_to_u32, be32_be_value. reflexivity.
Qed.

(** The bytes written for a size. *)
Lemma be32_sync_closed v : be32 (sync_closed v) =
  [zb (v / 2 ^ 21); zb (v / 2 ^ 14 mod 128); zb (v / 2 ^ 7 mod 128); zb (v mod 128)].
Proof.
  unfold sync_closed. rewrite be32_to_i32. unfold be32.
  change (2 ^ 24) with 16777216. change (2 ^ 16) with 65536. change (2 ^ 8) with 256.
  change (2 ^ 21) with 2097152. change (2 ^ 14) with 16384. change (2 ^ 7) with 128.
  assert (C4 : forall a b c d a' b' c' d' : byte, a = a' -> b = b' -> c = c' -> d = d' ->
    [a; b; c; d] = [a'; b'; c'; d']) by (intros; congruence).
  apply C4; apply zb_eqm; lia.
Qed.

Lemma be32_sync_small v : 0 <= v < 2 ^ 28 -> be32 (sync_closed v) = synchsafe32 v.
Proof.
  intros H. rewrite be32_sync_closed. unfold synchsafe32.
  rewrite (Z.mod_small (v / 2 ^ 21)); [reflexivity|].
  change (2 ^ 21) with 2097152. change (2 ^ 28) with 268435456 in H. lia.
Qed.

Lemma synchsafe_value_sync v : synchsafe_value (be32 (sync_closed v)) = v mod 2 ^ 29.
Proof.
  rewrite be32_sync_closed, synchsafe_sum; rewrite !bv_zb;
  change (2 ^ 21) with 2097152; change (2 ^ 14) with 16384; change (2 ^ 7) with 128;
  change (2 ^ 29) with 536870912; lia.
Qed.

Lemma synchsafe_value_synchsafe32 v : 0 <= v < 2 ^ 28 -> synchsafe_value (synchsafe32 v) = v.
Proof.
  intros H. rewrite <- be32_sync_small, synchsafe_value_sync by exact H.
  apply Z.mod_small. change (2 ^ 28) with 268435456 in H. change (2 ^ 29) with 536870912. lia.
Qed.
