(** The laws of edits. *)
From Coq Require Import Permutation.
From Verif Require Import File Calls Spec SpecEdit SpecFile SpecHole SpecLaws ListFacts EditFacts HistFacts HoleFacts.

(** ** Tags that differ in addresses only *)

Lemma write_frames_alike : forall l m cs,
  map (fun n => option_map fp_frame (n_frame n)) l = map (fun n => option_map fp_frame (n_frame n)) m ->
  write_frames cs l = write_frames cs m.
Proof.
  induction l as [|n l IH]; intros [|k m] cs E; try discriminate E; [reflexivity|].
  injection E as E1 E2. cbn [write_frames]. rewrite E1.
  destruct (Frame_to_char_stream _) as [[c|]| | |]; try reflexivity. go.
  destruct (CharStream_write _ _ _) as [c'| | |]; try reflexivity. go. now apply IH.
Qed.

Lemma holds_same t u s : tag_holds t s -> tag_holds u s ->
  map (fun n => option_map fp_frame (n_frame n)) (t_frames t) = map (fun n => option_map fp_frame (n_frame n)) (t_frames u).
Proof.
  assert (F : forall ps, map (fun n => option_map fp_frame (n_frame n)) (map filled ps) = map Some (map fp_frame ps)).
  { induction ps as [|p ps IH]; [reflexivity|]. cbn [map filled n_frame option_map]. now rewrite IH. }
  intros (ps & qs & M & _ & _ & E) (ps' & qs' & M' & _ & _ & E'). destruct (behind s) as [hid|].
  - destruct E as (Q & ->), E' as (Q' & ->). rewrite !map_app. cbn [map n_frame option_map]. rewrite !F. congruence.
  - destruct E as (_ & _ & ->), E' as (_ & _ & ->). rewrite !F. congruence.
Qed.

Lemma stream_alike t u : alike t u -> Tag_to_char_stream t = Tag_to_char_stream u.
Proof.
  intros (H & _ & s & T & U & _). pose proof (holds_same t u s T U) as E. unfold Tag_to_char_stream. rewrite H.
  repeat match goal with |- bind ?o _ = bind ?o _ => destruct o; try reflexivity; go end.
  destruct (t_frames t) as [|n l] eqn:Et, (t_frames u) as [|m k] eqn:Eu; try discriminate E; [reflexivity|].
  assert (X : option_map fp_frame (n_frame n) = option_map fp_frame (n_frame m)) by (injection E; auto).
  destruct (n_frame n), (n_frame m); try discriminate X; [|reflexivity]. now apply write_frames_alike.
Qed.

Lemma write_alike f t u : alike t u ->
  (let* (s, _) := ID3v2_write_tag_states f (Some t) in Ok s) = (let* (s, _) := ID3v2_write_tag_states f (Some u) in Ok s).
Proof.
  intros A. pose proof (stream_alike t u A) as S. destruct A as (_ & P & _). cbn [ID3v2_write_tag_states].
  destruct (ID3v2_read_tag_header f) as [h| | |]; try reflexivity. go. rewrite P.
  destruct (isub _ _) as [d| | |]; try reflexivity. go.
  destruct (iadd _ _) as [q| | |]; try reflexivity. go.
  change (Tag_to_char_stream (mkTag (t_header t) (t_frames t) q (t_fresh t))) with (Tag_to_char_stream t).
  change (Tag_to_char_stream (mkTag (t_header u) (t_frames u) q (t_fresh u))) with (Tag_to_char_stream u).
  rewrite S. destruct (Tag_to_char_stream u) as [cs| | |]; try reflexivity. go.
  destruct f as [b|]; [|reflexivity]. destruct (fwrite_bytes _) as [w| | |]; reflexivity.
Qed.

Lemma get_alike t u arg id : alike t u -> points_to arg id -> length id = 4%nat ->
  (let* p := ID3v2_Tag_get_frame (Some t) arg in Ok (option_map fp_frame p))
  = (let* p := ID3v2_Tag_get_frame (Some u) arg in Ok (option_map fp_frame p))
  /\ (let* l := ID3v2_Tag_get_frames (Some t) arg in Ok (frames_in l))
     = (let* l := ID3v2_Tag_get_frames (Some u) arg in Ok (frames_in l)).
Proof.
  intros (_ & _ & s & T & U & S) P L.
  destruct (hole_get t s arg id T S P L) as ((p & Ep & Fp) & (l & El & Fl)).
  destruct (hole_get u s arg id U S P L) as ((q & Eq & Fq) & (m & Em & Fm)).
  rewrite Ep, Eq, El, Em. go. split; congruence.
Qed.

Lemma shelves_sane es : forall s s' d,
  forallb edit_ok es = true -> Forall sane (held s) -> edit_shelves es s = Some (s', d) -> Forall sane (held s').
Proof.
  induction es as [|e es IH]; intros s s' d K G E; cbn [edit_shelves forallb] in *.
  - injection E as <- _. exact G.
  - apply andb_prop in K. destruct K as (K & K'). destruct (edit_shelf e s) as [s1|] eqn:E1; [|discriminate E].
    destruct (edit_shelves es s1) as [[s2 d2]|] eqn:E2; [|discriminate E]. injection E as <- _.
    apply (IH s1 s2 d2 K'); [now apply (edit_shelf_sane e s)|exact E2].
Qed.

Lemma calls_alike t u cs es : alike t u -> 0 <= th_tag_size (t_header t) < 2 ^ 32 ->
  Forall2 means cs es -> forallb edit_ok es = true ->
  match run_calls t cs with
  | Ok t' => exists u', run_calls u cs = Ok u' /\ alike t' u'
  | Ub k => run_calls u cs = Ub k
  | _ => False
  end.
Proof.
  intros (H & P & s & T & U & S) R M K.
  pose proof (any_history cs t s es T S R M K) as A. rewrite H in R.
  pose proof (any_history cs u s es U S R M K) as B.
  destruct (edit_shelves es s) as [[s' d]|] eqn:E; [|now rewrite A].
  destruct A as (t' & -> & T' & Ht & Pt), B as (u' & -> & U' & Hu & Pu).
  exists u'. split; [reflexivity|]. split; [congruence|]. split; [congruence|]. exists s'. repeat split; auto.
  now apply (shelves_sane es s s' d).
Qed.

(** ** Laws of lists *)

Section Laws.
  Context {A : Type}.
  Implicit Types (P Q : A -> bool) (f g x : A) (l : list A).

  Lemma put_put P Q f g l : P f = true -> (forall x, Q x = P x) -> put Q g (put P f l) = put P g l.
  Proof.
    intros F E. induction l as [|x l IH]; cbn [put].
    - now rewrite E, F.
    - destruct (P x) eqn:X; cbn [put]; rewrite E, ?F, ?X; [reflexivity|]. now rewrite IH.
  Qed.

  Lemma put_swap P Q f g l :
    (forall x, P x = true -> Q x = false) -> P g = false -> Q f = false ->
    existsb P l = true \/ existsb Q l = true -> put P f (put Q g l) = put Q g (put P f l).
  Proof.
    intros D G F. induction l as [|x l IH]; cbn [put existsb]; [intros [H|H]; discriminate H|].
    destruct (P x) eqn:Px.
    - rewrite (D x Px). cbn [put]. rewrite Px, F. reflexivity.
    - destruct (Q x) eqn:Qx; cbn [put]; rewrite ?Px, ?Qx, ?G; [reflexivity|]. intros H. now rewrite IH.
  Qed.

  Lemma filter_put P Q f l : P f = true -> (forall x, P x = true -> Q x = false) -> filter Q (put P f l) = filter Q l.
  Proof.
    intros F D. induction l as [|x l IH]; cbn [put filter]; [now rewrite (D f F)|].
    destruct (P x) eqn:X; cbn [filter]; [now rewrite (D f F), (D x X)|]. now rewrite IH.
  Qed.

  Lemma filter_put_same P Q f l : (forall x, Q x = P x) -> P f = true -> filter Q (put P f l) = put P f (filter Q l).
  Proof.
    intros E F. induction l as [|x l IH]; cbn [put filter]; [now rewrite E, F|].
    destruct (P x) eqn:X; cbn [filter]; rewrite ?(E x), ?(E f), ?F, ?X; cbn [put]; rewrite ?X; [reflexivity|exact IH].
  Qed.

  Lemma find_put_other P Q f l : P f = true -> (forall x, P x = true -> Q x = false) -> find Q (put P f l) = find Q l.
  Proof.
    intros F D. induction l as [|x l IH]; cbn [put find]; [now rewrite (D f F)|].
    destruct (P x) eqn:X; cbn [find]; [now rewrite (D f F), (D x X)|]. now rewrite IH.
  Qed.

  Lemma remove_put P f l : P f = true -> existsb P l = true -> remove_first P (put P f l) = remove_first P l.
  Proof.
    intros F. induction l as [|x l IH]; cbn [put existsb remove_first]; [discriminate|].
    destruct (P x) eqn:X; cbn [remove_first]; rewrite ?F, ?X; [reflexivity|]. intros H. now rewrite IH.
  Qed.

  Lemma remove_swap P Q l : (forall x, P x = true -> Q x = false) ->
    remove_first P (remove_first Q l) = remove_first Q (remove_first P l).
  Proof.
    intros D. induction l as [|x l IH]; [reflexivity|]. cbn [remove_first].
    destruct (P x) eqn:Px; [rewrite (D x Px); cbn [remove_first]; now rewrite Px|].
    destruct (Q x) eqn:Qx; cbn [remove_first]; rewrite ?Px, ?Qx; [reflexivity|]. now rewrite IH.
  Qed.

  Lemma first_pos_put P f l : P f = true -> existsb P l = true -> first_pos P (put P f l) = first_pos P l.
  Proof.
    intros F. induction l as [|x l IH]; cbn [put existsb first_pos]; [discriminate|].
    destruct (P x) eqn:X; cbn [first_pos]; rewrite ?F, ?X; [reflexivity|]. intros H. now rewrite IH.
  Qed.

  Lemma put_length P f l : existsb P l = true -> length (put P f l) = length l.
  Proof.
    induction l as [|x l IH]; cbn [put existsb length]; [discriminate|]. destruct (P x); cbn [length]; [reflexivity|].
    intros H. now rewrite IH.
  Qed.
End Laws.

(** ** Ids *)

Lemma same_id_key a b : same_id a b = true <-> id_key a = id_key b.
Proof. unfold same_id. destruct (bytes_eqb_spec (id_key a) (id_key b)); split; congruence. Qed.

Lemma named_same i j f : same_id i j = true -> named j f = named i f.
Proof. intros E. apply same_id_key in E. unfold named, same_id. now rewrite E. Qed.

Lemma named_other i j f : same_id i j = false -> named i f = true -> named j f = false.
Proof.
  intros E N. destruct (named j f) eqn:X; [|reflexivity]. unfold named in *. apply same_id_key in N, X.
  assert (same_id i j = true) by (apply same_id_key; congruence). congruence.
Qed.

Lemma same_id_comm a b : same_id a b = same_id b a.
Proof. apply eq_iff_eq_true. rewrite !same_id_key. split; congruence. Qed.

(** ** Laws of edits *)

Definition tag_ok (t : Tag) (fs : list frame) : Prop :=
  tag_has t fs /\ Forall sane fs /\ 0 <= th_tag_size (t_header t) < 2 ^ 32.

Lemma alike_has t u fs : t_header t = t_header u -> t_padding t = t_padding u ->
  tag_has t fs -> tag_has u fs -> Forall sane fs -> alike t u.
Proof.
  intros H P T U S. split; [exact H|]. split; [exact P|]. exists (whole fs). repeat split; try now apply whole_has.
  unfold held, whole. cbn [seen behind]. destruct fs; [constructor|]. now rewrite app_nil_r.
Qed.

(** Two histories with the same frames and the same change of room. *)
Lemma same_history t fs cs es cs' es' :
  tag_has t fs -> Forall sane fs -> 0 <= th_tag_size (t_header t) < 2 ^ 32 ->
  Forall2 means cs es -> all_allowed es fs = true -> Forall2 means cs' es' -> all_allowed es' fs = true ->
  apply_edits es fs = apply_edits es' fs -> room_deltas es fs = room_deltas es' fs ->
  exists t1 t2, run_calls t cs = Ok t1 /\ run_calls t cs' = Ok t2 /\ alike t1 t2.
Proof.
  intros T S R M A M' A' E D.
  destruct (edit_steps cs t fs es T S R M A) as (t1 & E1 & T1 & S1 & H1 & P1).
  destruct (edit_steps cs' t fs es' T S R M' A') as (t2 & E2 & T2 & S2 & H2 & P2).
  exists t1, t2. split; [exact E1|]. split; [exact E2|]. rewrite <- E in T2. apply (alike_has t1 t2 (apply_edits es fs)); auto; [|congruence].
  rewrite H1, H2, E, D. reflexivity.
Qed.

Lemma last_wins t fs c d f g :
  tag_has t fs -> Forall sane fs -> 0 <= th_tag_size (t_header t) < 2 ^ 32 ->
  means c (Put f) -> means d (Put g) -> frame_ok f = true -> frame_ok g = true ->
  same_id (frame_id f) (frame_id g) = true ->
  exists t1 t2, run_calls t [c; d] = Ok t1 /\ run_calls t [d] = Ok t2 /\ alike t1 t2.
Proof.
  intros T S R M N F G I.
  assert (X : forall x, named (frame_id g) x = named (frame_id f) x) by (intros; now apply named_same).
  apply (same_history t fs _ [Put f; Put g] _ [Put g]); auto.
  - cbn [all_allowed edit_ok allowed]. now rewrite F, G.
  - cbn [all_allowed edit_ok allowed]. now rewrite G.
  - cbn [apply_edits apply_edit]. rewrite put_put; auto using named_frame_of.
    clear - X. induction fs as [|x fs IH]; [reflexivity|]. cbn [put]. now rewrite X, IH.
  - cbn [room_deltas room_delta apply_edit].
    assert (Y : forall l, find (named (frame_id g)) l = find (named (frame_id f)) l).
    { induction l as [|x l IH]; [reflexivity|]. cbn [find]. now rewrite X, IH. }
    rewrite !Y, find_put by apply named_frame_of. lia.
Qed.

Lemma either_order t fs c d f g :
  tag_has t fs -> Forall sane fs -> 0 <= th_tag_size (t_header t) < 2 ^ 32 ->
  means c (Put f) -> means d (Put g) -> frame_ok f = true -> frame_ok g = true ->
  same_id (frame_id f) (frame_id g) = false ->
  exists t1 t2, run_calls t [c; d] = Ok t1 /\ run_calls t [d; c] = Ok t2
    /\ t_header t1 = t_header t2 /\ t_padding t1 = t_padding t2
    /\ (exists l1 l2, tag_has t1 l1 /\ tag_has t2 l2 /\ Permutation l1 l2 /\ forall id, filter (named id) l1 = filter (named id) l2)
    /\ (existsb (named (frame_id f)) fs = true \/ existsb (named (frame_id g)) fs = true -> alike t1 t2).
Proof.
  intros T S R M N F G I.
  assert (I' : same_id (frame_id g) (frame_id f) = false) by now rewrite same_id_comm.
  assert (X : forall x, named (frame_id f) x = true -> named (frame_id g) x = false) by (intros; now apply (named_other (frame_id f))).
  assert (X' : forall x, named (frame_id g) x = true -> named (frame_id f) x = false) by (intros; now apply (named_other (frame_id g))).
  pose proof (named_frame_of f) as Nf. pose proof (named_frame_of g) as Ng.
  destruct (edit_steps [c; d] t fs [Put f; Put g] T S R) as (t1 & E1 & T1 & S1 & H1 & P1).
  { repeat constructor; auto. } { cbn [all_allowed edit_ok allowed]. now rewrite F, G. }
  destruct (edit_steps [d; c] t fs [Put g; Put f] T S R) as (t2 & E2 & T2 & S2 & H2 & P2).
  { repeat constructor; auto. } { cbn [all_allowed edit_ok allowed]. now rewrite F, G. }
  cbn [apply_edits apply_edit room_deltas room_delta] in *.
  rewrite (find_put_other (named (frame_id f))) in H1 by auto. rewrite (find_put_other (named (frame_id g))) in H2 by auto.
  set (l1 := put (named (frame_id g)) (frame_of g) (put (named (frame_id f)) (frame_of f) fs)) in *.
  set (l2 := put (named (frame_id f)) (frame_of f) (put (named (frame_id g)) (frame_of g) fs)) in *.
  assert (Pm : Permutation l1 l2 /\ (existsb (named (frame_id f)) fs = true \/ existsb (named (frame_id g)) fs = true -> l1 = l2)).
  { split.
    - destruct (existsb (named (frame_id f)) fs) eqn:Ef; [|destruct (existsb (named (frame_id g)) fs) eqn:Eg].
      + unfold l1, l2. rewrite put_swap; auto.
      + unfold l1, l2. rewrite put_swap; auto.
      + assert (Ff : find (named (frame_id f)) fs = None) by (rewrite find_existsb in Ef; destruct (find (named (frame_id f)) fs); [discriminate|reflexivity]).
        assert (Fg : find (named (frame_id g)) fs = None) by (rewrite find_existsb in Eg; destruct (find (named (frame_id g)) fs); [discriminate|reflexivity]).
        unfold l1, l2. rewrite (put_none _ _ fs Ff), (put_none _ _ fs Fg), !put_none.
        * rewrite <- !app_assoc. apply Permutation_app_head. apply perm_swap.
        * rewrite <- (put_none (named (frame_id g)) (frame_of g) fs Fg), (find_put_other (named (frame_id g))); auto.
        * rewrite <- (put_none (named (frame_id f)) (frame_of f) fs Ff), (find_put_other (named (frame_id f))); auto.
    - intros H. unfold l1, l2. symmetry. apply put_swap; auto. }
  destruct Pm as (Pm & Eq).
  exists t1, t2. split; [exact E1|]. split; [exact E2|].
  assert (Hh : t_header t1 = t_header t2).
  { rewrite H1, H2. f_equal. f_equal.
    assert (B : bytes_needed l1 = bytes_needed l2).
    { clear - Pm. induction Pm; cbn [bytes_needed fold_right] in *; unfold bytes_needed in *; cbn [fold_right]; lia. }
    rewrite B. lia. }
  split; [exact Hh|]. split; [congruence|]. split.
  - exists l1, l2. repeat split; auto. intros id. unfold l1, l2.
    destruct (same_id (frame_id f) id) eqn:If.
    + assert (Y : forall x, named id x = named (frame_id f) x) by (intros; now apply named_same).
      assert (Z : forall x, named (frame_id g) x = true -> named id x = false) by (intros; rewrite Y; auto).
      rewrite (filter_put (named (frame_id g))), !(filter_put_same (named (frame_id f))) by auto.
      rewrite (filter_put (named (frame_id g))) by auto. reflexivity.
    + assert (Z : forall x, named (frame_id f) x = true -> named id x = false) by (intros; now apply (named_other (frame_id f))).
      rewrite (filter_put (named (frame_id f)) (named id) (frame_of f) (put _ _ _)) by auto.
      destruct (same_id (frame_id g) id) eqn:Ig.
      * assert (Y : forall x, named id x = named (frame_id g) x) by (intros; now apply named_same).
        rewrite !(filter_put_same (named (frame_id g))) by auto. now rewrite (filter_put (named (frame_id f))) by auto.
      * assert (Z' : forall x, named (frame_id g) x = true -> named id x = false) by (intros; now apply (named_other (frame_id g))).
        rewrite !(filter_put (named (frame_id g))) by auto. now rewrite (filter_put (named (frame_id f))) by auto.
  - intros H. specialize (Eq H). apply (alike_has t1 t2 l1); auto; [congruence|]. now rewrite Eq.
Qed.

Lemma set_delete t fs c d f :
  tag_has t fs -> Forall sane fs -> 0 <= th_tag_size (t_header t) < 2 ^ 32 ->
  means c (Put f) -> means d (Remove (frame_id f)) -> frame_ok f = true ->
  allowed (Remove (frame_id f)) fs = true ->
  exists t1 t2, run_calls t [c; d] = Ok t1 /\ run_calls t [d] = Ok t2 /\ alike t1 t2.
Proof.
  intros T S R M N F A.
  assert (X : existsb (named (frame_id f)) fs = true).
  { cbn [allowed victim_pos] in A. destruct (first_pos (named (frame_id f)) fs) eqn:E; [|discriminate A].
    clear - E. revert n E. induction fs as [|x fs IH]; intros n E; [discriminate E|]. cbn [first_pos existsb] in *.
    destruct (named (frame_id f) x); [reflexivity|]. destruct (first_pos (named (frame_id f)) fs); [|discriminate E]. now apply (IH n0). }
  pose proof (named_frame_of f) as Nf.
  apply (same_history t fs _ [Put f; Remove (frame_id f)] _ [Remove (frame_id f)]); auto.
  - cbn [all_allowed edit_ok apply_edit andb]. rewrite F. cbn [andb allowed victim_pos] in *. rewrite andb_true_r, first_pos_put by auto.
    destruct (first_pos (named (frame_id f)) fs); [|discriminate A]. unfold leaves_no_hole in *. rewrite put_length by auto. exact A.
  - cbn [all_allowed edit_ok]. now rewrite A.
  - cbn [apply_edits apply_edit]. now apply remove_put.
  - cbn [room_deltas room_delta apply_edit]. rewrite find_existsb in X. destruct (find (named (frame_id f)) fs); [lia|discriminate X].
Qed.

Lemma set_delete_new t fs c d f :
  tag_has t fs -> Forall sane fs -> 0 <= th_tag_size (t_header t) < 2 ^ 32 ->
  means c (Put f) -> means d (Remove (frame_id f)) -> frame_ok f = true ->
  fs <> [] -> existsb (named (frame_id f)) fs = false ->
  exists t', run_calls t [c; d] = Ok t' /\ tag_holds t' (mkShelf fs (Some []))
    /\ t_header t' = sized (t_header t) ((th_tag_size (t_header t) - 10) mod 2 ^ 32) /\ t_padding t' = t_padding t.
Proof.
  intros T S R M N F E X. apply whole_has in T.
  assert (W : whole fs = mkShelf fs None) by (destruct fs; [congruence|reflexivity]). rewrite W in T.
  assert (S' : Forall sane (held (mkShelf fs None))) by (unfold held; cbn [seen behind]; now rewrite app_nil_r).
  pose proof (any_history [c; d] t _ [Put f; Remove (frame_id f)] T S' R) as H.
  assert (V : first_pos (named (frame_id f)) (fs ++ [frame_of f]) = Some (length fs)).
  { clear - X. induction fs as [|x fs IH]; cbn [app first_pos existsb length] in *; [now rewrite named_frame_of|].
    apply orb_false_iff in X. destruct X as (-> & X). now rewrite (IH X). }
  assert (Fd : find (named (frame_id f)) fs = None) by (rewrite find_existsb in X; destruct (find (named (frame_id f)) fs); [discriminate|reflexivity]).
  cbn [edit_shelves edit_shelf seen behind size_delta] in H. rewrite X in H. unfold add_to in H. cbn [seen behind] in H.
  unfold victim in H. cbn [victim_pos seen] in H. rewrite V in H. cbn [option_map fst snd take_at seen behind] in H.
  unfold take_at in H. cbn [seen behind edit_shelves option_map fst snd] in H.
  rewrite app_length, Nat.add_1_r, Nat.eqb_refl in H. rewrite firstn_app, Nat.sub_diag, firstn_all in H.
  rewrite skipn_all2 in H by (rewrite app_length; cbn [length]; lia). cbn [firstn] in H. rewrite !app_nil_r in H.
  rewrite nth_error_app2, Nat.sub_diag in H by lia. rewrite Fd in H. cbn [nth_error size_of_opt] in H.
  change (fh_size (f_hdr (frame_of f))) with (body_size f) in H.
  destruct H as (t' & Er & T' & Hh & Pp).
  - auto.
  - cbn [forallb edit_ok]. now rewrite F.
  - exists t'. repeat split; auto. rewrite Hh. f_equal. f_equal. lia.
Qed.

Lemma delete_order t fs c d i j :
  tag_has t fs -> Forall sane fs -> 0 <= th_tag_size (t_header t) < 2 ^ 32 ->
  means c (Remove i) -> means d (Remove j) -> same_id i j = false ->
  all_allowed [Remove i; Remove j] fs = true -> all_allowed [Remove j; Remove i] fs = true ->
  exists t1 t2, run_calls t [c; d] = Ok t1 /\ run_calls t [d; c] = Ok t2 /\ alike t1 t2.
Proof.
  intros T S R M N I A B.
  apply (same_history t fs _ [Remove i; Remove j] _ [Remove j; Remove i]); auto.
  - cbn [apply_edits apply_edit]. apply remove_swap. intros x. apply named_other. now rewrite same_id_comm.
Qed.
