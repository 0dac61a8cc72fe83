(** Facts about the notions of Base.v. *)
From Verif Require Import Base.
From Coq Require Export Lia ZifyBool ZifyNat.
Ltac Zify.zify_post_hook ::= Z.div_mod_to_equations.

(** ** Outcomes *)

Lemma bind_Ok {A B} (o : outcome A) (k : A -> outcome B) b :
  bind o k = Ok b -> exists a, o = Ok a /\ k a = Ok b.
Proof. destruct o; simpl; intros; try discriminate; eauto. Qed.

(** Invert [bind .. = Ok ..] hypotheses. *)
Ltac binv H :=
  let a := fresh "v" in let Ha := fresh "E" in
  apply bind_Ok in H; destruct H as (a & Ha & H); cbv beta in H.

(** Decide the first [if] of the goal by arithmetic. *)
Ltac ifF := match goal with |- context [if ?b then _ else _] => replace b with false by lia end.
Ltac ifT := match goal with |- context [if ?b then _ else _] => replace b with true by lia end.

(** ** Bytes *)

Lemma bv_range b : 0 <= bv b < 256.
Proof. destruct b; unfold bv; simpl; lia. Qed.

Lemma zb_bv b : zb (bv b) = b.
Proof. destruct b; reflexivity. Qed.

Lemma zb_mod z : zb (z mod 256) = zb z.
Proof. unfold zb. rewrite Z.mod_mod by lia. reflexivity. Qed.

Lemma zb_eqm a b : a mod 256 = b mod 256 -> zb a = zb b.
Proof. unfold zb. now intros ->. Qed.

Lemma bv_zb z : bv (zb z) = z mod 256.
Proof.
  unfold zb, bv.
  pose proof (Z.mod_pos_bound z 256 ltac:(lia)) as Hz.
  destruct (Byte.of_N (Z.to_N (z mod 256))) as [b|] eqn:E.
  - apply Byte.to_of_N in E. rewrite E. lia.
  - apply Byte.of_N_None_iff in E. lia.
Qed.

Lemma zb_schar b : zb (schar b) = b.
Proof. destruct b; reflexivity. Qed.

Lemma schar_range b : -128 <= schar b < 128.
Proof. destruct b; unfold schar, bv; simpl; lia. Qed.

Lemma schar_inj a b : schar a = schar b -> a = b.
Proof. intros H. rewrite <- (zb_schar a), <- (zb_schar b), H. reflexivity. Qed.

Lemma bv_inj a b : bv a = bv b -> a = b.
Proof. intros H. rewrite <- (zb_bv a), <- (zb_bv b), H. reflexivity. Qed.

Lemma beq_true a b : beq a b = true <-> a = b.
Proof. unfold beq. split; [apply Byte.byte_dec_bl | apply Byte.byte_dec_lb]. Qed.

Lemma beq_refl a : beq a a = true.
Proof. apply beq_true. reflexivity. Qed.

Lemma beq_false a b : beq a b = false <-> a <> b.
Proof. rewrite <- beq_true. destruct (beq a b); intuition congruence. Qed.

Lemma beq_spec a b : reflect (a = b) (beq a b).
Proof. apply iff_reflect. symmetry. apply beq_true. Qed.

(** ** Lists and lengths *)

Lemma zlen_nil {A} : zlen (@nil A) = 0.
Proof. reflexivity. Qed.
Lemma zlen_cons {A} (a : A) l : zlen (a :: l) = 1 + zlen l.
Proof. unfold zlen. simpl length. lia. Qed.
Lemma zlen_app {A} (a b : list A) : zlen (a ++ b) = zlen a + zlen b.
Proof. unfold zlen. rewrite app_length. lia. Qed.
Lemma zlen_nonneg {A} (l : list A) : 0 <= zlen l.
Proof. unfold zlen. lia. Qed.
Lemma zlen_cells l : zlen (cells l) = zlen l.
Proof. unfold zlen, cells. now rewrite map_length. Qed.
Lemma zlen_map {A B} (f : A -> B) l : zlen (map f l) = zlen l.
Proof. unfold zlen. now rewrite map_length. Qed.
Lemma zlen_repeat {A} (a : A) n : zlen (repeat a n) = Z.of_nat n.
Proof. unfold zlen. now rewrite repeat_length. Qed.
Lemma to_nat_zlen {A} (l : list A) : Z.to_nat (zlen l) = length l.
Proof. unfold zlen. lia. Qed.
Lemma zlen_0 {A} (l : list A) : zlen l = 0 -> l = [].
Proof. destruct l; auto. rewrite zlen_cons. pose proof (zlen_nonneg l). lia. Qed.

Lemma cells_app a b : cells (a ++ b) = cells a ++ cells b.
Proof. apply map_app. Qed.
Lemma cells_cons a b : cells (a :: b) = Some a :: cells b.
Proof. reflexivity. Qed.
Lemma cells_nil : cells [] = [].
Proof. reflexivity. Qed.
Lemma cells_inj a b : cells a = cells b -> a = b.
Proof.
  revert b; induction a as [|x a IH]; destruct b as [|y b]; simpl; intros H; try discriminate; auto.
  injection H as -> H. f_equal. now apply IH.
Qed.

Lemma firstn_app_exact {A} (a b : list A) n : n = length a -> firstn n (a ++ b) = a.
Proof. intros ->. rewrite firstn_app, firstn_all, Nat.sub_diag. simpl. apply app_nil_r. Qed.
Lemma skipn_app_exact {A} (a b : list A) n : n = length a -> skipn n (a ++ b) = b.
Proof. intros ->. rewrite skipn_app, skipn_all, Nat.sub_diag. reflexivity. Qed.

(** ** memcpy, memcmp, strncmp *)

Lemma memcpy_from_app d rest n :
  n = zlen d -> memcpy_from (Some (d ++ rest)) n = Ok d.
Proof.
  intros ->. unfold memcpy_from. pose proof (zlen_nonneg d).
  replace (zlen d <? 0) with false by lia.
  rewrite zlen_app. pose proof (zlen_nonneg rest).
  replace (zlen d + zlen rest <? zlen d) with false by lia.
  rewrite to_nat_zlen, firstn_app_exact; auto.
Qed.

Lemma memcpy_from_all d n : n = zlen d -> memcpy_from (Some d) n = Ok d.
Proof. intros H. rewrite <- (app_nil_r d) at 1. now apply memcpy_from_app. Qed.

Lemma memcmp_eq_refl l rest : memcmp_eq l (cells l ++ rest) = Ok true.
Proof. induction l as [|x l IH]; [reflexivity|]. cbn. now rewrite beq_refl. Qed.

Lemma memcmp_eq_neq l m rest :
  length l = length m -> l <> m -> memcmp_eq l (cells m ++ rest) = Ok false.
Proof.
  revert m; induction l as [|x l IH]; intros [|y m] H N; try discriminate H; [congruence|].
  cbn. destruct (beq_spec x y) as [->|]; [|reflexivity].
  fold (cells m). apply IH; [now injection H | congruence].
Qed.

(** ** Machine integers *)

Lemma to_u32_id z : 0 <= z < 2 ^ 32 -> to_u32 z = z.
Proof. intros. apply Z.mod_small. lia. Qed.
Lemma to_i32_id z : - 2 ^ 31 <= z < 2 ^ 31 -> to_i32 z = z.
Proof. intros. unfold to_i32. rewrite Z.mod_small by lia. lia. Qed.
Lemma to_u32_range z : 0 <= to_u32 z < 2 ^ 32.
Proof. apply Z.mod_pos_bound. lia. Qed.
Lemma to_i32_range z : - 2 ^ 31 <= to_i32 z < 2 ^ 31.
Proof. unfold to_i32. pose proof (Z.mod_pos_bound (z + 2 ^ 31) (2 ^ 32) ltac:(lia)). lia. Qed.
Lemma chk_int_ok z : - 2 ^ 31 <= z < 2 ^ 31 -> chk_int z = Ok z.
Proof.
  intros H. unfold chk_int.
  replace ((- 2 ^ 31 <=? z) && (z <? 2 ^ 31)) with true by lia. reflexivity.
Qed.
Lemma chk_int_inv z r : chk_int z = Ok r -> r = z /\ - 2 ^ 31 <= z < 2 ^ 31.
Proof.
  unfold chk_int. destruct ((- 2 ^ 31 <=? z) && (z <? 2 ^ 31)) eqn:E; intros H; inversion H; subst.
  split; auto; lia.
Qed.
Lemma iadd_ok a b : - 2 ^ 31 <= a + b < 2 ^ 31 -> iadd a b = Ok (a + b).
Proof. apply chk_int_ok. Qed.
Lemma isub_ok a b : - 2 ^ 31 <= a - b < 2 ^ 31 -> isub a b = Ok (a - b).
Proof. apply chk_int_ok. Qed.
