(** Facts about the frame list and the edit functions. *)
From Verif Require Import File Calls Spec SpecEdit.
From Verif Require Export TagFacts.

(** ** Ids *)

Lemma bytes_eqb_spec a b : reflect (a = b) (bytes_eqb a b).
Proof.
  revert b. induction a as [|x a IH]; intros [|y b]; cbn [bytes_eqb]; try (constructor; congruence).
  change (Byte.eqb x y) with (beq x y). destruct (beq_spec x y) as [->|N]; cbn [andb].
  - destruct (IH b); constructor; congruence.
  - constructor. congruence.
Qed.

Lemma strncmp_key n : forall (a b : list byte) (t : mem), length a = n -> length b = n ->
  strncmp_eq n (cells a) (cells b ++ t) = Ok (same_id a b).
Proof.
  unfold same_id. induction n as [|n IH]; intros a b t La Lb; destruct a as [|x a], b as [|y b]; try discriminate La; try discriminate Lb.
  - reflexivity.
  - cbn [cells map app strncmp_eq id_key]. cbn [length] in La, Lb. rewrite !is_zero_beq.
    destruct (beq_spec x y) as [->|N]; cbn [negb].
    + destruct (beq y x00); cbn [bytes_eqb]; [reflexivity|].
      change (Byte.eqb y y) with (beq y y). rewrite beq_refl. cbn [andb]. apply IH; lia.
    + destruct (beq_spec x x00), (beq_spec y x00); cbn [bytes_eqb]; auto; [congruence|].
      change (Byte.eqb x y) with (beq x y). now destruct (beq_spec x y).
Qed.

Lemma id_bytes_cells f i : fh_id (f_hdr f) = cells i -> id_bytes f = i.
Proof. unfold id_bytes, cells. intros ->. rewrite map_map. apply map_id. Qed.

Lemma id_matches_ok f arg id :
  sane f -> points_to arg id -> length id = 4%nat -> id_matches f arg = Ok (named id f).
Proof.
  intros ((i & Hi & Li) & _) (tail & ->) L. unfold id_matches, named. go.
  rewrite Hi, (id_bytes_cells f i Hi). now apply strncmp_key.
Qed.

Lemma same_id_refl a : same_id a a = true.
Proof. unfold same_id. now destruct (bytes_eqb_spec (id_key a) (id_key a)). Qed.

Lemma id_key_nonzero a : forallb (fun c => negb (is_zero c)) a = true -> id_key a = a.
Proof.
  induction a as [|c a IH]; [reflexivity|]. cbn [forallb id_key]. rewrite andb_true_iff.
  intros [N H]. destruct (is_zero c); [discriminate|]. now rewrite IH.
Qed.

Lemma id_key_full a : id_key a = a -> forallb (fun c => negb (is_zero c)) a = true.
Proof.
  induction a as [|c a IH]; [reflexivity|]. cbn [forallb id_key]. destruct (is_zero c); [discriminate|].
  intros [= E]. now rewrite IH.
Qed.

Lemma id_key_length a : (length (id_key a) <= length a)%nat.
Proof. induction a as [|c a IH]; [cbn; lia|]. cbn [id_key length]. destruct (is_zero c); cbn [length]; lia. Qed.

Lemma id_key_length_eq a : length (id_key a) = length a -> id_key a = a.
Proof.
  induction a as [|c a IH]; [reflexivity|]. cbn [id_key length]. destruct (is_zero c); cbn [length]; [discriminate|].
  intros [= E]. now rewrite IH.
Qed.

(** Ids without zero bytes are compared in full. *)
Lemma named_exact id f :
  sane f -> length id = 4%nat -> forallb (fun c => negb (is_zero c)) id = true ->
  (named id f = true <-> fh_id (f_hdr f) = cells id).
Proof.
  intros ((i & Hi & Li) & _) L N. unfold named, same_id. rewrite Hi, (id_bytes_cells f i Hi), (id_key_nonzero id N).
  destruct (bytes_eqb_spec (id_key i) id) as [E|E]; split; intros H; try discriminate; auto.
  - assert (length (id_key i) = length i) by (rewrite E; lia).
    apply id_key_length_eq in H0. congruence.
  - apply cells_inj in H. subst. now rewrite (id_key_nonzero id N) in E.
Qed.

Lemma frame_of_sane f : frame_ok f = true -> sane (frame_of f).
Proof.
  intros H. destruct (frame_ok_common _ H) as (Hi & _ & Hs). pose proof (body_size_nonneg f).
  split; [exists (frame_id f); auto|]. cbn [frame_of f_hdr fh_size]. lia.
Qed.

Lemma named_frame_of f : named (frame_id f) (frame_of f) = true.
Proof. unfold named. rewrite (id_bytes_cells _ (frame_id f)) by reflexivity. apply same_id_refl. Qed.

(** ** Nodes *)

Definition fnode (p : fptr) : node := mkNode (Some p) true.
Definition nodes (ps : list fptr) : flist := map fnode ps.

Definition pnamed (id : list byte) (p : fptr) : bool := named id (fp_frame p).

Lemma list_of_nodes ps : ps <> [] -> list_of ps = nodes ps.
Proof. destruct ps; [congruence|reflexivity]. Qed.

Definition all_sane (ps : list fptr) : Prop := Forall (fun p => sane (fp_frame p)) ps.

Lemma all_sane_map ps : all_sane ps <-> Forall sane (map fp_frame ps).
Proof. unfold all_sane. now rewrite Forall_map. Qed.

Lemma get_nodes arg id ps :
  all_sane ps -> points_to arg id -> length id = 4%nat ->
  FrameList_get_frame_by_id (nodes ps) arg = Ok (find (pnamed id) ps).
Proof.
  intros H P L. induction H as [|p ps Hp H IH]; [reflexivity|].
  cbn [nodes map FrameList_get_frame_by_id fnode n_frame find]. rewrite (id_matches_ok _ _ id) by auto. go.
  unfold pnamed at 1. destruct (named id (fp_frame p)); [reflexivity|exact IH].
Qed.

Lemma get_list_of arg id ps :
  all_sane ps -> points_to arg id -> length id = 4%nat ->
  FrameList_get_frame_by_id (list_of ps) arg = Ok (find (pnamed id) ps).
Proof. intros. destruct ps; [reflexivity|]. now apply get_nodes. Qed.

Lemma get_frames_nodes arg id ps acc :
  all_sane ps -> points_to arg id -> length id = 4%nat ->
  get_frames_loop (nodes ps) arg (list_of acc) = Ok (list_of (acc ++ filter (pnamed id) ps)).
Proof.
  intros H P L. revert acc. induction H as [|p ps Hp H IH]; intros acc; [cbn; now rewrite app_nil_r|].
  cbn [nodes map get_frames_loop fnode n_frame filter]. rewrite (id_matches_ok _ _ id) by auto. go.
  unfold pnamed at 1. destruct (named id (fp_frame p)).
  - rewrite add_frame_list. go. rewrite IH, <- app_assoc. reflexivity.
  - apply IH.
Qed.

Lemma get_frames_list_of arg id ps :
  all_sane ps -> points_to arg id -> length id = 4%nat ->
  FrameList_get_frames_by_id (list_of ps) arg = Ok (list_of (filter (pnamed id) ps)).
Proof.
  intros. unfold FrameList_get_frames_by_id. change FrameList_new with (list_of []).
  destruct ps; [reflexivity|]. now rewrite list_of_nodes, (get_frames_nodes _ id) by (auto; discriminate).
Qed.

(** ** Removing *)

(** What remains when the node at position [n] is unlinked: the last one is
    overwritten by an empty node. *)
Definition delete_at {A} (n : nat) (l : list A) : list A := firstn n l ++ skipn (S n) l.

Definition unlinked (n : nat) (ps : list fptr) : flist :=
  if (S n =? length ps)%nat then nodes (firstn n ps) ++ [empty_node] else nodes (delete_at n ps).

Lemma unlinked_S n p ps : unlinked (S n) (p :: ps) = fnode p :: unlinked n ps.
Proof.
  unfold unlinked, delete_at. change (S (S n) =? length (p :: ps))%nat with (S n =? length ps)%nat.
  now destruct (S n =? length ps)%nat.
Qed.

Lemma unlinked_O p ps : unlink_node (nodes ps) = unlinked 0 (p :: ps).
Proof. destruct ps; reflexivity. Qed.

Lemma remove_by_id_nodes arg id ps :
  all_sane ps -> points_to arg id -> length id = 4%nat ->
  FrameList_remove_frame_by_id (nodes ps) arg
  = match first_pos (pnamed id) ps with
    | Some n => Ok (nth_error ps n, unlinked n ps)
    | None => Ok (None, nodes ps)
    end.
Proof.
  intros H P L. induction H as [|p ps Hp H IH]; [reflexivity|].
  cbn [nodes map FrameList_remove_frame_by_id fnode n_frame first_pos]. go.
  rewrite (id_matches_ok _ _ id) by auto. go. unfold pnamed at 1.
  destruct (named id (fp_frame p)).
  - cbn [nth_error]. fold (nodes ps). now rewrite (unlinked_O p ps).
  - fold (nodes ps). rewrite IH. destruct (first_pos (pnamed id) ps) as [n|]; cbn [option_map]; go.
    + cbn [nth_error]. now rewrite unlinked_S.
    + reflexivity.
Qed.

Lemma remove_by_ptr ps n p :
  NoDup (map fp_addr ps) -> nth_error ps n = Some p ->
  FrameList_remove_frame (nodes ps) (Some p) = (Some p, unlinked n ps).
Proof.
  revert n. induction ps as [|q ps IH]; intros [|n] D E; try discriminate E.
  - injection E as ->. cbn [nodes map FrameList_remove_frame fnode n_frame same_ptr addr_of option_map].
    rewrite Nat.eqb_refl. fold (nodes ps). now rewrite (unlinked_O p ps).
  - cbn [nth_error] in E. cbn [map] in D. inversion D as [|? ? Hq D']; subst.
    cbn [nodes map FrameList_remove_frame fnode n_frame same_ptr addr_of option_map].
    destruct (Nat.eqb_spec (fp_addr q) (fp_addr p)) as [Q|Q].
    + destruct Hq. rewrite Q. apply in_map. now apply nth_error_In in E.
    + fold (nodes ps). rewrite (IH n) by auto. now rewrite unlinked_S.
Qed.

Lemma remove_null ps : FrameList_remove_frame (nodes ps) None = (None, nodes ps).
Proof.
  induction ps as [|p ps IH]; [reflexivity|].
  cbn [nodes map FrameList_remove_frame fnode n_frame same_ptr addr_of option_map].
  fold (nodes ps). now rewrite IH.
Qed.

(** ** Replacing *)

Lemma replace_first P ps e q :
  NoDup (map fp_addr ps) -> find P ps = Some e ->
  FrameList_replace_frame (nodes ps) (Some e) q = nodes (put P q ps).
Proof.
  induction ps as [|p ps IH]; intros D F; [discriminate F|]. cbn [find] in F. cbn [map] in D.
  inversion D as [|? ? Hp D']; subst.
  cbn [nodes map FrameList_replace_frame fnode n_frame same_ptr addr_of option_map put].
  destruct (P p).
  - injection F as ->. now rewrite Nat.eqb_refl.
  - destruct (Nat.eqb_spec (fp_addr p) (fp_addr e)) as [Q|Q].
    + destruct Hp. rewrite Q. apply in_map. apply find_some in F. tauto.
    + cbn [map]. f_equal. now apply IH.
Qed.

(** ** Lists of frames behind the pointers *)

Section Maps.
  Context {A B : Type} (g : A -> B) (P : B -> bool).
  Let Q := fun a => P (g a).
  Lemma map_put x l : map g (put Q x l) = put P (g x) (map g l).
  Proof. induction l as [|a l IH]; [reflexivity|]. cbn [put map]. unfold Q at 1. destruct (P (g a)); cbn [map]; [reflexivity|now rewrite IH]. Qed.
  Lemma map_first_pos l : first_pos P (map g l) = first_pos Q l.
  Proof. induction l as [|a l IH]; [reflexivity|]. cbn [map first_pos]. unfold Q at 1. destruct (P (g a)); [reflexivity|now rewrite IH]. Qed.
  Lemma map_nth_pos i l : nth_pos P i (map g l) = nth_pos Q i l.
  Proof.
    revert i. induction l as [|a l IH]; intros i; [reflexivity|]. cbn [map nth_pos]. unfold Q at 1.
    destruct (P (g a)); [destruct (i =? 0); [reflexivity|]|]; now rewrite IH.
  Qed.
  Lemma map_find l : find P (map g l) = option_map g (find Q l).
  Proof. induction l as [|a l IH]; [reflexivity|]. cbn [map find]. unfold Q at 1. destruct (P (g a)); [reflexivity|exact IH]. Qed.
  Lemma map_filter_g l : map g (filter Q l) = filter P (map g l).
  Proof. induction l as [|a l IH]; [reflexivity|]. cbn [map filter]. unfold Q at 1. destruct (P (g a)); cbn [map]; now rewrite IH. Qed.
  Lemma map_delete_at n l : map g (delete_at n l) = delete_at n (map g l).
  Proof. unfold delete_at. now rewrite map_app, firstn_map, skipn_map. Qed.
End Maps.

Section Positions.
  Context {A : Type} (P : A -> bool).
  Lemma remove_first_pos l : remove_first P l = match first_pos P l with Some n => delete_at n l | None => l end.
  Proof.
    induction l as [|a l IH]; [reflexivity|]. cbn [remove_first first_pos]. destruct (P a); [reflexivity|].
    rewrite IH. now destruct (first_pos P l).
  Qed.
  Lemma remove_nth_pos i l : remove_nth P i l = match nth_pos P i l with Some n => delete_at n l | None => l end.
  Proof.
    revert i. induction l as [|a l IH]; intros i; [reflexivity|]. cbn [remove_nth nth_pos].
    destruct (P a); [destruct (i =? 0); [reflexivity|]|]; rewrite IH; now destruct (nth_pos P _ l).
  Qed.
  Lemma first_pos_lt l n : first_pos P l = Some n -> exists a, nth_error l n = Some a /\ P a = true.
  Proof.
    revert n. induction l as [|a l IH]; intros n E; [discriminate|]. cbn [first_pos] in E. destruct (P a) eqn:Pa.
    - injection E as <-. now exists a.
    - destruct (first_pos P l) as [m|]; [|discriminate]. injection E as <-. cbn [nth_error]. now apply IH.
  Qed.
  Lemma nth_pos_lt l : forall i n, nth_pos P i l = Some n -> exists a, nth_error l n = Some a /\ P a = true.
  Proof.
    induction l as [|a l IH]; intros i n E; [discriminate|]. cbn [nth_pos] in E.
    destruct (P a) eqn:Pa; [destruct (i =? 0); [injection E as <-; now exists a|]|];
      (destruct (nth_pos P _ l) as [m|] eqn:M; [|discriminate]; injection E as <-; cbn [nth_error]; now apply (IH _ _ M)).
  Qed.
  Lemma first_pos_none l : first_pos P l = None <-> existsb P l = false.
  Proof.
    induction l as [|a l IH]; [cbn; tauto|]. cbn [first_pos existsb]. destruct (P a); cbn [orb]; [split; discriminate|].
    rewrite <- IH. destruct (first_pos P l); cbn; split; congruence.
  Qed.
  Lemma find_first_pos l : find P l = match first_pos P l with Some n => nth_error l n | None => None end.
  Proof.
    induction l as [|a l IH]; [reflexivity|]. cbn [find first_pos]. destruct (P a); [reflexivity|].
    rewrite IH. now destruct (first_pos P l).
  Qed.
  (** The element number [i] of the sublist. *)
  Lemma nth_filter l : forall i, 0 <= i ->
    nth_error (filter P l) (Z.to_nat i) = match nth_pos P i l with Some n => nth_error l n | None => None end.
  Proof.
    induction l as [|a l IH]; intros i I; [destruct (Z.to_nat i); reflexivity|]. cbn [filter nth_pos].
    destruct (P a).
    - destruct (Z.eqb_spec i 0) as [->|N]; [reflexivity|].
      replace (Z.to_nat i) with (S (Z.to_nat (i - 1))) by lia. cbn [nth_error].
      rewrite IH by lia. now destruct (nth_pos P (i - 1) l).
    - rewrite IH by lia. now destruct (nth_pos P i l).
  Qed.
  Lemma nth_pos_neg l : forall i, i < 0 -> nth_pos P i l = None.
  Proof.
    induction l as [|a l IH]; intros i I; [reflexivity|]. cbn [nth_pos]. destruct (P a).
    - replace (i =? 0) with false by lia. now rewrite IH by lia.
    - now rewrite IH.
  Qed.
  Lemma put_none x l : find P l = None -> put P x l = l ++ [x].
  Proof.
    induction l as [|a l IH]; [reflexivity|]. cbn [find put app]. destruct (P a); [discriminate|]. intros E. now rewrite IH.
  Qed.
End Positions.

Lemma delete_at_incl {A} n (l : list A) : incl (delete_at n l) l.
Proof.
  unfold delete_at. intros x H. apply in_app_or in H. rewrite <- (firstn_skipn n l). apply in_or_app.
  destruct H as [H|H]; [now left|right]. clear - H. revert l H. induction n as [|n IH]; intros [|a l] H; cbn in *; auto.
Qed.

Lemma NoDup_delete_at {A} n (l : list A) : NoDup l -> NoDup (delete_at n l).
Proof.
  intros D. destruct (nth_error l n) as [a|] eqn:E.
  - apply nth_error_split in E. destruct E as (l1 & l2 & -> & <-). unfold delete_at.
    rewrite firstn_app_exact by auto.
    change (l1 ++ a :: l2) with (l1 ++ [a] ++ l2). rewrite app_assoc, skipn_app_exact by (rewrite app_length; cbn; lia).
    now apply NoDup_remove_1 in D.
  - apply nth_error_None in E. unfold delete_at. rewrite firstn_all2, skipn_all2, app_nil_r by lia. auto.
Qed.

(** ** The deleting loop of the indexed deletes *)

Lemma delete_nth_loop_nodes sub frames : forall i index,
  i <= index ->
  delete_nth_loop (nodes sub) i index frames
  = match nth_error sub (Z.to_nat (index - i)) with
    | Some p => snd (FrameList_remove_frame frames (Some p))
    | None => frames
    end.
Proof.
  induction sub as [|p sub IH]; intros i index H; [now destruct (Z.to_nat (index - i))|].
  cbn [nodes map delete_nth_loop fnode n_frame].
  destruct (Z.eqb_spec i index) as [->|N].
  - now rewrite Z.sub_diag.
  - fold (nodes sub). rewrite IH by lia.
    replace (Z.to_nat (index - i)) with (S (Z.to_nat (index - (i + 1)))) by lia. reflexivity.
Qed.

Lemma delete_nth_loop_neg sub frames : forall i index,
  index < i -> delete_nth_loop sub i index frames = frames.
Proof.
  induction sub as [|p sub IH]; intros i index H; [reflexivity|]. cbn [delete_nth_loop].
  replace (i =? index) with false by lia. apply IH. lia.
Qed.
