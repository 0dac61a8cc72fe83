(** Facts about the model of char_stream.c: a stream whose cursor stands
    between [pre] and [rest]. *)
From Verif Require Import Stream Spec.
From Verif Require Export UtilsFacts.

Lemma fits_shift pre d rest : fits pre (d ++ rest) <-> fits (pre ++ d) rest.
Proof. unfold fits. rewrite !zlen_app. lia. Qed.

Lemma get_cur_at pre rest : CharStream_get_cur (at_pos pre rest) = rest.
Proof.
  unfold CharStream_get_cur, at_pos. cbn [cs_cursor cs_stream].
  pose proof (zlen_nonneg pre). replace (zlen pre <? 0) with false by lia.
  rewrite to_nat_zlen. now apply skipn_app_exact.
Qed.

Lemma at_pos_shift pre d rest n :
  n = zlen d ->
  with_cursor (at_pos pre (d ++ rest)) (zlen pre + n) = at_pos (pre ++ d) rest.
Proof.
  intros ->. unfold with_cursor, at_pos. cbn [cs_size cs_stream].
  rewrite !zlen_app, <- app_assoc. f_equal. lia.
Qed.

Lemma clamp_id v lo hi : lo <= v <= hi -> clamp_int v lo hi = v.
Proof. intros. unfold clamp_int. destruct (v <? lo) eqn:?; [lia|]. destruct (hi <? v) eqn:?; lia. Qed.

Lemma read_at pre d rest n :
  fits pre (d ++ rest) -> n = zlen d ->
  CharStream_read (at_pos pre (d ++ rest)) n = Ok (d, at_pos (pre ++ d) rest).
Proof.
  intros F ->. unfold CharStream_read, fits in *. cbn [at_pos cs_size cs_cursor].
  pose proof (zlen_nonneg d). pose proof (zlen_nonneg rest). pose proof (zlen_nonneg pre).
  rewrite zlen_app in *.
  rewrite isub_ok by lia. cbn [bind]. rewrite clamp_id by lia.
  replace (mkCS (zlen pre) (zlen pre + (zlen d + zlen rest)) (pre ++ d ++ rest))
    with (at_pos pre (d ++ rest)) by (unfold at_pos; now rewrite zlen_app).
  rewrite get_cur_at, memcpy_from_app by reflexivity. cbn [bind].
  cbn [at_pos cs_cursor]. now rewrite at_pos_shift.
Qed.

Lemma read_into_at pre d rest n :
  fits pre (d ++ rest) -> n = zlen d ->
  read_into (at_pos pre (d ++ rest)) n = Ok (d, at_pos (pre ++ d) rest).
Proof.
  intros F E. unfold read_into. rewrite read_at by auto. cbn [bind]. subst n.
  rewrite to_nat_zlen, Nat.sub_diag. cbn [repeat]. now rewrite app_nil_r.
Qed.

Lemma getc_at pre b (rest : mem) :
  CharStream_getc (at_pos pre (Some b :: rest)) = Ok (schar b, at_pos (pre ++ [Some b]) rest).
Proof.
  unfold CharStream_getc. rewrite get_cur_at. cbn [at_pos cs_size cs_cursor].
  rewrite zlen_cons. pose proof (zlen_nonneg rest).
  ifF.
  do 2 f_equal. apply (at_pos_shift pre [Some b] rest 1). reflexivity.
Qed.

Lemma slice_at pre d rest n :
  fits pre (d ++ rest) -> n = zlen d ->
  CharStream_slice (at_pos pre (d ++ rest)) n = Ok (d ++ rest, at_pos (pre ++ d) rest).
Proof.
  intros F ->. unfold CharStream_slice. rewrite get_cur_at. cbn [at_pos cs_cursor].
  unfold fits in F. rewrite zlen_app in F.
  pose proof (zlen_nonneg d). pose proof (zlen_nonneg rest). pose proof (zlen_nonneg pre).
  rewrite iadd_ok by lia. cbn [bind]. now rewrite at_pos_shift.
Qed.

Lemma seek_fwd_at pre d rest n :
  fits pre (d ++ rest) -> n = zlen d ->
  CharStream_seek (at_pos pre (d ++ rest)) n SEEK_CUR = Ok (at_pos (pre ++ d) rest).
Proof.
  intros F ->. unfold CharStream_seek. cbn [at_pos cs_cursor cs_size].
  unfold fits in F. rewrite zlen_app in F.
  pose proof (zlen_nonneg d). pose proof (zlen_nonneg rest). pose proof (zlen_nonneg pre).
  rewrite iadd_ok by lia. cbn [bind]. rewrite clamp_id by (rewrite zlen_app; lia).
  now rewrite at_pos_shift.
Qed.

Lemma seek_back_at pre d rest n :
  fits pre (d ++ rest) -> n = - zlen d ->
  CharStream_seek (at_pos (pre ++ d) rest) n SEEK_CUR = Ok (at_pos pre (d ++ rest)).
Proof.
  intros F ->. unfold CharStream_seek. cbn [at_pos cs_cursor cs_size].
  unfold fits in F. rewrite zlen_app in F.
  pose proof (zlen_nonneg d). pose proof (zlen_nonneg rest). pose proof (zlen_nonneg pre).
  rewrite iadd_ok by (rewrite zlen_app; lia). cbn [bind].
  rewrite clamp_id by (rewrite zlen_app; lia).
  unfold with_cursor, at_pos. cbn [cs_size cs_stream]. rewrite !zlen_app, <- app_assoc.
  do 2 f_equal; lia.
Qed.

Lemma write_at pre old rest data tail n :
  fits pre (old ++ rest) -> n = zlen data -> zlen old = zlen data ->
  CharStream_write (at_pos pre (old ++ rest)) (data ++ tail) n = Ok (at_pos (pre ++ data) rest).
Proof.
  intros F -> L. unfold CharStream_write. rewrite memcpy_from_app by reflexivity. cbn [bind].
  cbn [at_pos cs_cursor cs_stream cs_size].
  unfold fits in F. rewrite zlen_app in F.
  pose proof (zlen_nonneg data). pose proof (zlen_nonneg rest). pose proof (zlen_nonneg pre).
  replace (zlen pre <? 0) with false by lia. rewrite !zlen_app.
  replace (zlen pre + (zlen old + zlen rest) <? zlen pre + zlen data) with false by lia.
  cbn [orb]. rewrite iadd_ok by lia. cbn [bind].
  rewrite !to_nat_zlen, (firstn_app_exact pre) by reflexivity.
  rewrite (app_assoc pre old rest), skipn_app_exact.
  2:{ rewrite app_length. unfold zlen in L. lia. }
  unfold at_pos. rewrite zlen_app, <- app_assoc. do 2 f_equal. lia.
Qed.

Lemma write_at' pre old rest data n :
  fits pre (old ++ rest) -> n = zlen data -> zlen old = zlen data ->
  CharStream_write (at_pos pre (old ++ rest)) data n = Ok (at_pos (pre ++ data) rest).
Proof. intros. rewrite <- (app_nil_r data) at 1. now apply write_at. Qed.

(** Writing more than is left leaves the buffer. *)
Lemma write_overflow pre rest data n :
  n = zlen data -> zlen rest < zlen data ->
  CharStream_write (at_pos pre rest) data n = Ub OobWrite.
Proof.
  intros -> L. unfold CharStream_write. rewrite memcpy_from_all by reflexivity. cbn [bind].
  cbn [at_pos cs_cursor cs_stream cs_size]. rewrite zlen_app.
  replace (zlen pre + zlen rest <? zlen pre + zlen data) with true by lia.
  now rewrite orb_true_r.
Qed.

Lemma new_at n : 0 <= n -> CharStream_new n = Ok (at_pos [] (repeat (Some x00) (Z.to_nat n))).
Proof.
  intros. unfold CharStream_new. replace (n <? 0) with false by lia.
  unfold at_pos, zlen. rewrite repeat_length. cbn [app length]. f_equal. f_equal; lia.
Qed.

Lemma from_buffer_at l tail n :
  n = zlen l -> CharStream_from_buffer (Some (l ++ tail)) n = Ok (at_pos [] l).
Proof.
  intros ->. unfold CharStream_from_buffer. rewrite memcpy_from_app by reflexivity. reflexivity.
Qed.

(** Splitting off the part of zeroed memory that is overwritten next. *)
Lemma repeat_split {A} (a : A) n k : (k <= n)%nat -> repeat a n = repeat a k ++ repeat a (n - k).
Proof. intros. rewrite <- repeat_app. f_equal. lia. Qed.

Lemma write_zeros pre n data tail k :
  zlen pre + Z.of_nat n < 2 ^ 31 -> k = zlen data -> (length data <= n)%nat ->
  CharStream_write (at_pos pre (repeat (Some x00) n)) (data ++ tail) k
  = Ok (at_pos (pre ++ data) (repeat (Some x00) (n - length data))).
Proof.
  intros F E L. rewrite (repeat_split _ n (length data)) by lia.
  apply write_at; auto.
  - unfold fits. rewrite zlen_app, !zlen_repeat. lia.
  - rewrite zlen_repeat. reflexivity.
Qed.

Lemma write_zeros' pre n data k :
  zlen pre + Z.of_nat n < 2 ^ 31 -> k = zlen data -> (length data <= n)%nat ->
  CharStream_write (at_pos pre (repeat (Some x00) n)) data k
  = Ok (at_pos (pre ++ data) (repeat (Some x00) (n - length data))).
Proof. intros. rewrite <- (app_nil_r data) at 1. now apply write_zeros. Qed.

(** Reading any number of bytes: what is left is all one gets. *)
Definition take (n : Z) (m : mem) : mem := firstn (Z.to_nat n) m.
Definition drop (n : Z) (m : mem) : mem := skipn (Z.to_nat n) m.

Lemma read_gen pre rest n :
  fits pre rest -> 0 <= n ->
  CharStream_read (at_pos pre rest) n
  = Ok (take n rest, at_pos (pre ++ take n rest) (drop n rest)).
Proof.
  intros F H. unfold take, drop.
  destruct (Z.le_gt_cases n (zlen rest)) as [L|L].
  - rewrite <- (firstn_skipn (Z.to_nat n) rest) at 1. apply read_at.
    + now rewrite firstn_skipn.
    + unfold zlen in *. rewrite firstn_length. lia.
  - unfold zlen in L. rewrite firstn_all2, skipn_all2 by lia.
    unfold CharStream_read. cbn [at_pos cs_size cs_cursor]. unfold fits in F.
    pose proof (zlen_nonneg rest). pose proof (zlen_nonneg pre).
    rewrite isub_ok by lia. cbn [bind].
    replace (clamp_int n 0 (zlen pre + zlen rest - zlen pre)) with (zlen rest)
      by (unfold clamp_int, zlen in *; destruct (n <? 0) eqn:?; [lia|];
          destruct (Z.of_nat (length pre) + Z.of_nat (length rest) - Z.of_nat (length pre) <? n) eqn:?; lia).
    rewrite get_cur_at, memcpy_from_all by reflexivity. cbn [bind].
    unfold at_pos, with_cursor. cbn [cs_size cs_stream cs_cursor].
    rewrite app_nil_r, zlen_app. change (zlen (@nil cell)) with 0. do 3 f_equal. lia.
Qed.

Lemma read_into_gen pre rest n :
  fits pre rest -> 0 <= n ->
  read_into (at_pos pre rest) n
  = Ok (take n rest ++ repeat None (Z.to_nat n - length rest), at_pos (pre ++ take n rest) (drop n rest)).
Proof.
  intros F H. unfold read_into. rewrite read_gen by auto. cbn [bind]. do 4 f_equal.
  unfold take. rewrite firstn_length. lia.
Qed.
