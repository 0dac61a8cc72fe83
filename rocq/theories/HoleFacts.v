(** Every edit on any tag, with a hole in its list or without. *)
From Coq Require Import Permutation.
From Verif Require Import File Calls Spec SpecEdit SpecFile SpecHole EditFacts HistFacts ClaimFacts WriteFacts FileFacts.

(** The list behind the frames that are seen. *)
Definition tl (o : option (list fptr)) : flist :=
  match o with None => [] | Some qs => empty_node :: nodes qs end.
Definition hid (o : option (list fptr)) : list fptr :=
  match o with None => [] | Some qs => qs end.

(** ** The functions of the list *)

Lemma get_tail arg id ps o :
  all_sane ps -> points_to arg id -> length id = 4%nat ->
  FrameList_get_frame_by_id (nodes ps ++ tl o) arg = Ok (find (pnamed id) ps).
Proof.
  intros S P L. destruct o as [qs|]; cbn [tl].
  - now apply get_hole.
  - rewrite app_nil_r. now apply get_nodes.
Qed.

Lemma get_frames_tail arg id ps o :
  all_sane ps -> points_to arg id -> length id = 4%nat ->
  FrameList_get_frames_by_id (nodes ps ++ tl o) arg = Ok (list_of (filter (pnamed id) ps)).
Proof.
  intros S P L. unfold FrameList_get_frames_by_id. change FrameList_new with (list_of []).
  change (filter (pnamed id) ps) with ([] ++ filter (pnamed id) ps). generalize (@nil fptr) as acc.
  induction S as [|p ps Hp S IH]; intros acc.
  - cbn [filter nodes map app]. rewrite app_nil_r. now destruct o.
  - cbn [nodes map app get_frames_loop fnode n_frame filter]. rewrite (id_matches_ok _ _ id) by auto. go.
    unfold pnamed at 1. fold fnode. fold (nodes ps). destruct (named id (fp_frame p)).
    + rewrite add_frame_list. go. rewrite IH, <- app_assoc. reflexivity.
    + apply IH.
Qed.

(** The node at position [n] is overwritten. *)
Definition cut_out (n : nat) (ps : list fptr) (o : option (list fptr)) : flist :=
  nodes (firstn n ps) ++ unlink_node (nodes (skipn (S n) ps) ++ tl o).

Lemma cut_out_is n ps o : (n < length ps)%nat ->
  cut_out n ps o = nodes (delete_at n ps)
    ++ tl match o with Some qs => Some qs | None => if (S n =? length ps)%nat then Some [] else None end.
Proof.
  intros L. unfold cut_out, delete_at, nodes. rewrite map_app, <- app_assoc. f_equal.
  destruct (Nat.eqb_spec (S n) (length ps)) as [E|E].
  - rewrite skipn_all2 by lia. now destruct o.
  - destruct (skipn (S n) ps) as [|q l] eqn:K; [|now destruct o].
    apply (f_equal (@length _)) in K. rewrite skipn_length in K. cbn [length] in K. lia.
Qed.

Lemma remove_by_id_tail arg id ps o :
  all_sane ps -> points_to arg id -> length id = 4%nat ->
  FrameList_remove_frame_by_id (nodes ps ++ tl o) arg
  = match first_pos (pnamed id) ps with
    | Some n => Ok (nth_error ps n, cut_out n ps o)
    | None => match o with None => Ok (None, nodes ps) | Some _ => Ub NullDeref end
    end.
Proof.
  intros H P L. induction H as [|p ps Hp H IH]; [now destruct o|].
  cbn [nodes map app FrameList_remove_frame_by_id fnode n_frame first_pos]. go.
  rewrite (id_matches_ok _ _ id) by auto. go. unfold pnamed at 1. fold fnode. fold (nodes ps).
  destruct (named id (fp_frame p)); [reflexivity|].
  rewrite IH. destruct (first_pos (pnamed id) ps) as [n|]; cbn [option_map]; [reflexivity|]. now destruct o.
Qed.

Lemma replace_tail P ps o e q :
  NoDup (map fp_addr ps) -> find P ps = Some e ->
  FrameList_replace_frame (nodes ps ++ tl o) (Some e) q = nodes (put P q ps) ++ tl o.
Proof.
  induction ps as [|p ps IH]; intros D F; [discriminate F|]. cbn [find] in F. cbn [map] in D.
  inversion D as [|? ? Hp D']; subst.
  cbn [nodes map app FrameList_replace_frame fnode n_frame same_ptr addr_of option_map put].
  destruct (P p).
  - injection F as ->. now rewrite Nat.eqb_refl.
  - destruct (Nat.eqb_spec (fp_addr p) (fp_addr e)) as [Q|Q].
    + destruct Hp. rewrite Q. apply in_map. apply find_some in F. tauto.
    + cbn [map app]. f_equal. now apply IH.
Qed.

Lemma remove_ptr_tail ps o n p :
  NoDup (map fp_addr ps) -> nth_error ps n = Some p ->
  FrameList_remove_frame (nodes ps ++ tl o) (Some p) = (Some p, cut_out n ps o).
Proof.
  revert n. induction ps as [|q ps IH]; intros [|n] D E; try discriminate E.
  - injection E as ->. cbn [nodes map app FrameList_remove_frame fnode n_frame same_ptr addr_of option_map].
    rewrite Nat.eqb_refl. reflexivity.
  - cbn [nth_error] in E. cbn [map] in D. inversion D as [|? ? Hq D']; subst.
    cbn [nodes map app FrameList_remove_frame fnode n_frame same_ptr addr_of option_map].
    destruct (Nat.eqb_spec (fp_addr q) (fp_addr p)) as [Q|Q].
    + destruct Hq. rewrite Q. apply in_map. now apply nth_error_In in E.
    + fold fnode. fold (nodes ps). rewrite (IH n) by auto. reflexivity.
Qed.

(** NULL is found in the hole. *)
Lemma remove_null_tail ps o :
  snd (FrameList_remove_frame (nodes ps ++ tl o) None)
  = nodes ps ++ match o with None => [] | Some qs => unlink_node (nodes qs) end.
Proof.
  induction ps as [|p ps IH]; [now destruct o|].
  cbn [nodes map app FrameList_remove_frame fnode n_frame same_ptr addr_of option_map].
  fold fnode. fold (nodes ps). destruct (FrameList_remove_frame (nodes ps ++ tl o) None) as [r l]. cbn [snd] in *. now rewrite IH.
Qed.

(** ** What a tag owns *)

Definition keeps (t : Tag) (ps : list fptr) (o : option (list fptr)) : Prop :=
  t_frames t = nodes ps ++ tl o /\ (o = None -> ps <> [])
  /\ NoDup (map fp_addr (ps ++ hid o)) /\ Forall (fun a => (a < t_fresh t)%nat) (map fp_addr (ps ++ hid o)).

Definition shown (ps : list fptr) (o : option (list fptr)) : shelf :=
  mkShelf (map fp_frame ps) (option_map (map fp_frame) o).

Lemma holds_keeps t s : tag_holds t s <-> exists ps o, keeps t ps o /\ s = shown ps o.
Proof.
  destruct s as [sn bh]. unfold tag_holds, keeps, shown. cbn [seen behind]. split.
  - intros (ps & qs & <- & D & B & H). destruct bh as [hidden|].
    + destruct H as (<- & E). exists ps, (Some qs). cbn [tl hid option_map]. repeat split; auto. discriminate.
    + destruct H as (N & -> & E). exists ps, None. cbn [tl hid option_map]. rewrite (app_nil_r (nodes ps)). auto.
  - intros (ps & o & (E & N & D & B) & Q). injection Q as -> ->. exists ps, (hid o).
    destruct o as [qs|]; cbn [option_map hid tl] in *; repeat split; auto.
    rewrite app_nil_r in E. exact E.
Qed.

Lemma nodup_front t ps o : keeps t ps o -> NoDup (map fp_addr ps).
Proof.
  intros (_ & _ & D & _). rewrite map_app in D. induction (map fp_addr ps) as [|a l IH]; [constructor|].
  cbn [app] in D. inversion D as [|? ? X Y]; subst. constructor; [|auto]. intros I. apply X. apply in_or_app. now left.
Qed.

Lemma put_app {A} (P : A -> bool) x l m : existsb P l = true -> put P x (l ++ m) = put P x l ++ m.
Proof.
  induction l as [|a l IH]; intros E; [discriminate E|]. cbn [existsb put app] in *.
  destruct (P a); [reflexivity|]. cbn [orb] in E. now rewrite IH.
Qed.

Lemma find_existsb {A} (P : A -> bool) l : existsb P l = match find P l with Some _ => true | None => false end.
Proof. induction l as [|a l IH]; [reflexivity|]. cbn [existsb find]. now destruct (P a). Qed.

Lemma existsb_map {A B} (g : A -> B) P l : existsb P (map g l) = existsb (fun a => P (g a)) l.
Proof. induction l as [|a l IH]; [reflexivity|]. cbn [map existsb]. now rewrite IH. Qed.

(** ** The edits *)

Definition padd (p : fptr) (ps : list fptr) (o : option (list fptr)) : list fptr * option (list fptr) :=
  match o, ps with
  | None, _ => (ps ++ [p], None)
  | Some qs, [] => (p :: qs, None)
  | Some qs, _ => (ps, Some (qs ++ [p]))
  end.

Lemma add_tail p ps o : (o = None -> ps <> []) ->
  FrameList_add_frame (nodes ps ++ tl o) p
  = Ok (nodes (fst (padd p ps o)) ++ tl (snd (padd p ps o))).
Proof.
  intros N. destruct o as [qs|], ps as [|q ps]; cbn [padd fst snd tl nodes map app FrameList_add_frame empty_node n_start fnode negb].
  - now rewrite app_nil_r.
  - unfold nodes. rewrite !map_app, <- app_assoc. reflexivity.
  - now destruct N.
  - unfold nodes. rewrite !map_app. cbn [map app]. now rewrite !app_nil_r.
Qed.

Lemma shown_padd p ps o : (o = None -> ps <> []) ->
  shown (fst (padd p ps o)) (snd (padd p ps o)) = add_to (fp_frame p) (shown ps o).
Proof.
  intros N. unfold shown, add_to. destruct o as [qs|], ps as [|q ps]; cbn [padd fst snd option_map seen behind map]; auto;
    now rewrite ?map_app.
Qed.

Lemma fresh_last (t : Tag) (ps : list fptr) f :
  NoDup (map fp_addr ps) -> Forall (fun a => (a < t_fresh t)%nat) (map fp_addr ps) ->
  NoDup (map fp_addr (ps ++ [(t_fresh t, f)])) /\ Forall (fun a => (a < S (t_fresh t))%nat) (map fp_addr (ps ++ [(t_fresh t, f)])).
Proof.
  intros D B. rewrite map_app. cbn [map]. split.
  - pose proof (Add_app (t_fresh t) (map fp_addr ps) []) as Ad. rewrite app_nil_r in Ad.
    apply (NoDup_Add Ad). split; auto. now apply below_fresh.
  - apply Forall_app. split; [|repeat constructor]. eapply Forall_impl; [|exact B]. cbn. lia.
Qed.

Lemma keeps_padd t ps o f h pad :
  keeps t ps o ->
  let r := padd (t_fresh t, f) ps o in
  keeps (mkTag h (nodes (fst r) ++ tl (snd r)) pad (S (t_fresh t))) (fst r) (snd r).
Proof.
  intros (_ & N & D & B) r. split; [reflexivity|]. cbn [t_fresh].
  destruct o as [qs|], ps as [|q ps]; cbn [padd fst snd hid app] in *; unfold r; cbn [padd fst snd hid app].
  - split; [discriminate|]. rewrite app_nil_r. cbn [map]. split.
    + constructor; auto. now apply below_fresh.
    + constructor; [cbn; lia|]. eapply Forall_impl; [|exact B]. cbn. lia.
  - split; [discriminate|]. destruct (fresh_last t (q :: ps ++ qs) f D B) as (D' & B').
    cbn [app] in D', B'. rewrite <- app_assoc in D', B'. auto.
  - now destruct N.
  - split; [discriminate|]. rewrite app_nil_r in D, B |- *.
    exact (fresh_last t (q :: ps) f D B).
Qed.

Lemma install_add t ps o f : keeps t ps o ->
  let r := padd (t_fresh t, f) ps o in
  install_frame t None f
  = Ok (mkTag (with_tag_size (t_header t) (th_tag_size (t_header t) + fh_size (f_hdr f)))
              (nodes (fst r) ++ tl (snd r)) (t_padding t) (S (t_fresh t))).
Proof. intros (E & N & _) r. unfold install_frame. rewrite E, add_tail by auto. reflexivity. Qed.

(** Removing position [n]. *)
Definition pbehind (n : nat) (ps : list fptr) (o : option (list fptr)) : option (list fptr) :=
  match o with Some qs => Some qs | None => if (S n =? length ps)%nat then Some [] else None end.

Lemma shown_taken n ps o : shown (delete_at n ps) (pbehind n ps o) = take_at n (shown ps o).
Proof.
  unfold shown, take_at, pbehind. cbn [seen behind]. rewrite map_delete_at, map_length. f_equal.
  destruct o; [reflexivity|]. cbn [option_map]. now destruct (S n =? length ps)%nat.
Qed.

Lemma delete_at_app {A} n (l m : list A) : (n < length l)%nat -> delete_at n (l ++ m) = delete_at n l ++ m.
Proof.
  intros L. unfold delete_at. rewrite firstn_app, skipn_app.
  replace (n - length l)%nat with 0%nat by lia. replace (S n - length l)%nat with 0%nat by lia.
  cbn [firstn skipn]. now rewrite app_nil_r, app_assoc.
Qed.

Lemma keeps_taken t ps o n h pad : keeps t ps o -> (n < length ps)%nat ->
  keeps (mkTag h (cut_out n ps o) pad (t_fresh t)) (delete_at n ps) (pbehind n ps o).
Proof.
  intros (_ & N & D & B) L. split; [now apply cut_out_is|].
  assert (Q : delete_at n ps ++ hid (pbehind n ps o) = delete_at n (ps ++ hid o)).
  { rewrite delete_at_app by auto. f_equal. unfold pbehind. destruct o; [reflexivity|]. now destruct (S n =? length ps)%nat. }
  rewrite Q, map_delete_at. split; [|split].
  - unfold pbehind. destruct o as [qs|]; [discriminate|]. destruct (Nat.eqb_spec (S n) (length ps)); [discriminate|].
    intros _ K. apply (f_equal (@length _)) in K. unfold delete_at in K. rewrite app_length, firstn_length, skipn_length in K.
    cbn [length] in K. lia.
  - now apply NoDup_delete_at.
  - cbn [t_fresh]. rewrite Forall_forall in *. intros a I. apply B. now apply delete_at_incl in I.
Qed.

Lemma nth_pos_zero {A} (P : A -> bool) l : nth_pos P 0 l = first_pos P l.
Proof. induction l as [|a l IH]; [reflexivity|]. cbn [nth_pos first_pos]. destruct (P a); [reflexivity|]. now rewrite IH. Qed.

Lemma filter_none {A} (P : A -> bool) l : first_pos P l = None -> filter P l = [].
Proof.
  induction l as [|a l IH]; [reflexivity|]. cbn [first_pos filter]. destruct (P a); [discriminate|].
  destruct (first_pos P l); [discriminate|]. auto.
Qed.

(** Deleting by index. *)
Definition punindexed (id : list byte) (i : Z) (ps : list fptr) (o : option (list fptr)) : list fptr * option (list fptr) :=
  match nth_pos (pnamed id) i ps with
  | Some n => (delete_at n ps, pbehind n ps o)
  | None => match o with
            | Some (q :: qs) => if i =? 0 then (ps ++ q :: qs, None) else (ps, o)
            | _ => (ps, o)
            end
  end.

Lemma delete_nth_tail t ps o arg id i :
  keeps t ps o -> all_sane ps -> points_to arg id -> length id = 4%nat ->
  let r := punindexed id i ps o in
  (let* head := ID3v2_Tag_get_frames (Some t) arg in
   Ok (mkTag (t_header t) (delete_nth_loop head 0 i (t_frames t)) (t_padding t) (t_fresh t)))
  = Ok (mkTag (t_header t) (nodes (fst r) ++ tl (snd r)) (t_padding t) (t_fresh t)).
Proof.
  intros K S P L r. pose proof (nodup_front _ _ _ K) as D. destruct K as (E & N & _ & _).
  unfold ID3v2_Tag_get_frames. rewrite E, (get_frames_tail _ id) by auto. go.
  f_equal. f_equal. subst r. unfold punindexed.
  destruct (Z.le_gt_cases 0 i) as [I|I].
  - destruct (filter (pnamed id) ps) as [|q sub] eqn:F.
    + pose proof (nth_filter (pnamed id) ps i I) as X. rewrite F in X.
      assert (nth_pos (pnamed id) i ps = None) as ->.
      { destruct (nth_pos (pnamed id) i ps) as [n|] eqn:Q; [|reflexivity]. apply nth_pos_lt in Q.
        destruct Q as (a & Ha & _). rewrite Ha in X. destruct (Z.to_nat i); discriminate X. }
      cbn [list_of delete_nth_loop n_frame]. rewrite Z.eqb_sym. destruct (Z.eqb_spec i 0) as [Z0|Z0].
      * rewrite remove_null_tail. destruct o as [[|q qs]|]; cbn [fst snd tl unlink_node nodes map app]; auto.
        unfold nodes. rewrite map_app. cbn [map]. now rewrite app_nil_r.
      * destruct o as [[|q qs]|]; reflexivity.
    + rewrite list_of_nodes, <- F, delete_nth_loop_nodes, Z.sub_0_r, nth_filter by (discriminate || lia).
      destruct (nth_pos (pnamed id) i ps) as [n|] eqn:Q.
      * apply nth_pos_lt in Q. destruct Q as (a & Ha & _). rewrite Ha.
        rewrite (remove_ptr_tail _ _ n a) by auto. cbn [fst snd]. apply cut_out_is. apply nth_error_Some. congruence.
      * destruct o as [[|y qs]|]; try reflexivity. destruct (Z.eqb_spec i 0) as [->|]; [|reflexivity].
        rewrite nth_pos_zero in Q. apply filter_none in Q. congruence.
  - rewrite nth_pos_neg by auto. rewrite delete_nth_loop_neg by auto.
    destruct o as [[|y qs]|]; try reflexivity. now replace (i =? 0) with false by lia.
Qed.

Lemma keeps_unindexed t ps o id i :
  keeps t ps o ->
  let r := punindexed id i ps o in
  keeps (mkTag (t_header t) (nodes (fst r) ++ tl (snd r)) (t_padding t) (t_fresh t)) (fst r) (snd r).
Proof.
  intros K r. subst r. unfold punindexed. destruct (nth_pos (pnamed id) i ps) as [n|] eqn:Q.
  - apply nth_pos_lt in Q. destruct Q as (a & Ha & _). assert (n < length ps)%nat by (apply nth_error_Some; congruence).
    cbn [fst snd]. unfold pbehind at 1. rewrite <- cut_out_is by auto. now apply keeps_taken.
  - destruct o as [[|q qs]|]; [|destruct (i =? 0)|]; try (destruct K as (_ & K); split; [reflexivity|exact K]).
    destruct K as (_ & N & D & B). split; [reflexivity|]. cbn [fst snd hid t_fresh] in *. rewrite app_nil_r.
    split; [|auto]. intros _ X. destruct ps; discriminate X.
Qed.

Lemma shown_unindexed id i ps o :
  let r := punindexed id i ps o in
  Some (shown (fst r) (snd r)) = edit_shelf (RemoveNth id i) (shown ps o).
Proof.
  cbn [edit_shelf victim_pos]. unfold punindexed. cbn [shown seen].
  rewrite (map_nth_pos fp_frame (named id)). change (fun a => named id (fp_frame a)) with (pnamed id).
  destruct (nth_pos (pnamed id) i ps) as [n|]; cbn [fst snd]; [now rewrite shown_taken|].
  destruct o as [[|q qs]|]; cbn [fst snd shown behind option_map map]; auto.
  destruct (i =? 0); [|reflexivity]. unfold shown. cbn [fst snd option_map]. now rewrite map_app.
Qed.

(** ** One edit *)

Lemma held_shown ps o : held (shown ps o) = map fp_frame (ps ++ hid o).
Proof. unfold held, shown. cbn [seen behind]. rewrite map_app. now destruct o. Qed.

Lemma any_edit_step t s c e :
  tag_holds t s -> Forall sane (held s) -> 0 <= th_tag_size (t_header t) < 2 ^ 32 ->
  means c e -> edit_ok e = true ->
  match edit_shelf e s with
  | Some s' =>
      exists t', run_call t c = Ok t' /\ tag_holds t' s'
        /\ t_header t' = sized (t_header t) ((th_tag_size (t_header t) + size_delta e (seen s)) mod 2 ^ 32)
        /\ t_padding t' = t_padding t
  | None => run_call t c = Ub NullDeref
  end.
Proof.
  intros T S R M K. apply holds_keeps in T. destruct T as (ps & o & O & ->).
  rewrite held_shown in S. apply all_sane_map in S. apply Forall_app in S. destruct S as (S & _).
  change (seen (shown ps o)) with (map fp_frame ps).
  destruct e as [f|f|id|id i]; cbn [edit_ok] in K.
  - cbn [edit_shelf shown seen size_delta]. rewrite existsb_map.
    change (fun a => named (frame_id f) (fp_frame a)) with (pnamed (frame_id f)).
    assert (L : length (frame_id f) = 4%nat) by (apply frame_ok_common in K; apply K).
    assert (G : finds t (frame_id f) (find (pnamed (frame_id f)) ps)).
    { intros arg P. destruct O as (-> & _). now apply get_tail. }
    rewrite (run_put_gen t _ c f G M K). rewrite find_existsb, (map_find fp_frame (named (frame_id f))).
    change (fun a => named (frame_id f) (fp_frame a)) with (pnamed (frame_id f)).
    destruct (find (pnamed (frame_id f)) ps) as [e|] eqn:E; cbn [option_map size_of_opt].
    + unfold install_frame. pose proof (nodup_front _ _ _ O) as D. destruct O as (Hl & N & D' & B).
      rewrite Hl, (replace_tail (pnamed (frame_id f))) by auto.
      assert (He : sane (fp_frame e)) by (unfold all_sane in S; rewrite Forall_forall in S; apply S; apply find_some in E; tauto).
      destruct He as (_ & He). pose proof (frame_ok_common _ K) as (_ & _ & Hs). pose proof (body_size_nonneg f).
      cbn [frame_of f_hdr fh_size]. rewrite isub_ok by lia. go. eexists. split; [reflexivity|].
      cbn [with_frames t_header t_padding]. split; [|split; reflexivity].
      apply holds_keeps. exists (put (pnamed (frame_id f)) (t_fresh t, frame_of f) ps), o. split.
      * split; [reflexivity|]. split; [intros _; apply put_not_nil|]. cbn [with_frames t_fresh].
        rewrite <- put_app by (rewrite find_existsb, E; reflexivity). split.
        -- apply put_nodup; auto. now apply below_fresh.
        -- apply Forall_forall. intros a I. apply put_addrs in I. destruct I as [<-|I]; [cbn; lia|].
           rewrite Forall_forall in B. apply B in I. lia.
      * unfold shown. cbn [seen behind]. f_equal. symmetry.
        apply (map_put fp_frame (named (frame_id f)) (t_fresh t, frame_of f)).
    + rewrite (install_add t ps o) by auto. eexists. split; [reflexivity|]. cbn [t_header t_padding frame_of f_hdr fh_size].
      split; [|split; [rewrite Z.sub_0_r|]; reflexivity].
      apply holds_keeps. eexists _, _. split; [now apply keeps_padd|]. rewrite shown_padd by apply O. reflexivity.
  - cbn [edit_shelf size_delta]. rewrite (run_append t c f) by auto. unfold append_frame.
    rewrite (install_add t ps o) by auto. eexists. split; [reflexivity|]. cbn [t_header t_padding frame_of f_hdr fh_size].
    split; [|split; reflexivity].
    apply holds_keeps. eexists _, _. split; [now apply keeps_padd|]. rewrite shown_padd by apply O. reflexivity.
  - destruct (run_remove t c id M) as (arg & P & L & ->).
    cbn [edit_shelf victim_pos shown seen size_delta]. unfold victim. cbn [victim_pos].
    rewrite (map_first_pos fp_frame (named id)). change (fun a => named id (fp_frame a)) with (pnamed id).
    unfold ID3v2_Tag_delete_frame. destruct O as (Hl & O). rewrite Hl, (remove_by_id_tail _ id) by auto.
    destruct (first_pos (pnamed id) ps) as [n|] eqn:E; cbn [option_map].
    + apply first_pos_lt in E. destruct E as (q & Eq & _). rewrite Eq. go.
      assert (Hq : sane (fp_frame q)) by (unfold all_sane in S; rewrite Forall_forall in S; apply S; now apply nth_error_In in Eq).
      destruct Hq as (_ & Hq). change ID3v2_FRAME_HEADER_LENGTH with 10. rewrite iadd_ok by lia. go.
      assert (n < length ps)%nat by (apply nth_error_Some; congruence).
      eexists. split; [reflexivity|]. cbn [t_header t_padding]. split; [|split; [|reflexivity]].
      * apply holds_keeps. eexists _, _. split; [apply keeps_taken; [split; eauto|auto]|]. now rewrite shown_taken.
      * rewrite with_sized. do 2 f_equal. rewrite nth_error_map, Eq. cbn [option_map size_of_opt]. lia.
    + now destruct o.
  - destruct (run_remove_nth t c id i M) as (L & arg & P & ->).
    rewrite (delete_nth_tail t ps o arg id) by auto. rewrite <- shown_unindexed.
    eexists. split; [reflexivity|]. cbn [t_header t_padding size_delta]. split; [|split; [|reflexivity]].
    + apply holds_keeps. eexists _, _. split; [now apply keeps_unindexed|reflexivity].
    + rewrite Z.add_0_r, Z.mod_small by auto. symmetry. now apply sized_same.
Qed.

(** ** Any number of edits *)

Lemma add_to_sane f s : sane f -> Forall sane (held s) -> Forall sane (held (add_to f s)).
Proof.
  unfold held, add_to. destruct s as [l [h|]]; cbn [seen behind]; intros F S.
  - destruct l as [|g l]; cbn [seen behind app] in *.
    + rewrite app_nil_r. now constructor.
    + change (Forall sane ((g :: l) ++ h ++ [f])). rewrite app_assoc. apply Forall_app. auto.
  - rewrite app_nil_r in *. apply Forall_app. auto.
Qed.

Lemma take_at_sane n s : Forall sane (held s) -> Forall sane (held (take_at n s)).
Proof.
  unfold held, take_at. cbn [seen behind]. intros S. apply Forall_app in S. destruct S as (S & S'). apply Forall_app. split.
  - now apply (Forall_delete_at sane n).
  - destruct (behind s); auto. destruct (_ =? _)%nat; constructor.
Qed.

Lemma edit_shelf_sane e s s' : edit_ok e = true -> Forall sane (held s) -> edit_shelf e s = Some s' -> Forall sane (held s').
Proof.
  intros K S E. destruct e as [f|f|id|id i]; cbn [edit_shelf edit_ok] in *.
  - injection E as <-. destruct (existsb _ (seen s)); [|apply add_to_sane; auto; now apply frame_of_sane].
    unfold held in *. cbn [seen behind]. apply Forall_app in S. apply Forall_app. split; [|tauto].
    apply Forall_put; [now apply frame_of_sane|tauto].
  - injection E as <-. apply add_to_sane; auto. now apply frame_of_sane.
  - destruct (victim_pos (Remove id) (seen s)); [|discriminate E]. injection E as <-. now apply take_at_sane.
  - injection E as <-. cbn [victim_pos]. destruct (nth_pos (named id) i (seen s)); [now apply take_at_sane|].
    destruct s as [l [[|f h]|]]; auto. cbn [behind seen]. destruct (i =? 0); auto.
    unfold held in *. cbn [seen behind] in *. now rewrite app_nil_r.
Qed.

Lemma any_history cs : forall t s es,
  tag_holds t s -> Forall sane (held s) -> 0 <= th_tag_size (t_header t) < 2 ^ 32 ->
  Forall2 means cs es -> forallb edit_ok es = true ->
  match edit_shelves es s with
  | Some (s', d) =>
      exists t', run_calls t cs = Ok t' /\ tag_holds t' s'
        /\ t_header t' = sized (t_header t) ((th_tag_size (t_header t) + d) mod 2 ^ 32)
        /\ t_padding t' = t_padding t
  | None => run_calls t cs = Ub NullDeref
  end.
Proof.
  induction cs as [|c cs IH]; intros t s es T S R F K; inversion F as [|? e ? es' M F']; subst.
  - cbn [edit_shelves]. exists t. cbn [run_calls]. repeat split; auto.
    rewrite Z.add_0_r, Z.mod_small by auto. symmetry. now apply sized_same.
  - cbn [forallb] in K. apply andb_prop in K. destruct K as (K & K').
    pose proof (any_edit_step t s c e T S R M K) as H. cbn [edit_shelves run_calls].
    destruct (edit_shelf e s) as [s1|] eqn:E; [|now rewrite H].
    destruct H as (t1 & E1 & T1 & H1 & P1). rewrite E1. go.
    assert (R1 : 0 <= th_tag_size (t_header t1) < 2 ^ 32) by (rewrite H1; cbn [sized th_tag_size]; apply Z.mod_pos_bound; lia).
    specialize (IH t1 s1 es' T1 (edit_shelf_sane _ _ _ K S E) R1 F' K').
    destruct (edit_shelves es' s1) as [[s2 d]|]; cbn [option_map fst snd]; [|exact IH].
    destruct IH as (t2 & E2 & T2 & H2 & P2). exists t2. repeat split; auto; [|congruence].
    rewrite H2, H1. unfold sized. cbn [th_identifier th_major th_minor th_flags th_tag_size th_ext_size]. f_equal.
    rewrite Z.add_mod_idemp_l by lia. f_equal. lia.
Qed.

(** ** Tags without a hole *)

Lemma whole_has t fs : tag_has t fs <-> tag_holds t (whole fs).
Proof.
  unfold tag_has, tag_holds, whole. cbn [seen behind]. split.
  - intros (ps & E & M & D & B). exists ps, []. rewrite app_nil_r. repeat split; auto.
    destruct ps as [|p ps]; destruct fs as [|f fs]; try discriminate M; auto. split; [discriminate|]. auto.
  - intros (ps & qs & M & D & B & H). exists ps. destruct fs as [|f fs].
    + destruct H as (Q & E). destruct ps; [|discriminate M]. destruct qs; [|discriminate Q]. auto.
    + destruct H as (N & -> & E). rewrite app_nil_r in D, B. repeat split; auto. destruct ps; [congruence|exact E].
Qed.

(** The edits of C25 are those that leave no hole. *)
Lemma whole_edit e fs : edit_ok e = true -> allowed e fs = true -> edit_shelf e (whole fs) = Some (whole (apply_edit e fs)).
Proof.
  assert (Ap : forall l (f : frame), add_to f (whole l) = whole (l ++ [f])).
  { intros [|g l] f; reflexivity. }
  assert (Tk : forall n l, leaves_no_hole n l = true -> (n < length l)%nat -> take_at n (whole l) = whole (delete_at n l)).
  { intros n l H L. unfold take_at, whole. cbn [seen behind]. fold (delete_at n l). f_equal.
    unfold leaves_no_hole in H. apply orb_true_iff in H. destruct l as [|a [|b l]]; cbn [length] in *.
    - lia.
    - assert (n = 0%nat) as -> by lia. reflexivity.
    - destruct H as [H|H]; [apply Nat.ltb_lt in H|discriminate H].
      replace (S n =? S (S (length l)))%nat with false by (symmetry; apply Nat.eqb_neq; lia).
      destruct (delete_at n (a :: b :: l)) as [|x y] eqn:D; [|reflexivity].
      apply (f_equal (@length _)) in D. unfold delete_at in D. rewrite app_length, firstn_length, skipn_length in D. cbn [length] in D. lia. }
  intros K A. destruct e as [f|f|id|id i]; cbn [edit_shelf apply_edit allowed victim_pos] in *.
  - f_equal. change (seen (whole fs)) with fs. rewrite find_existsb.
    destruct (find (named (frame_id f)) fs) eqn:E.
    + unfold whole. cbn [behind]. f_equal. destruct fs as [|a l]; [discriminate E|].
      pose proof (put_not_nil (named (frame_id f)) (frame_of f) (a :: l)). destruct (put _ _ _); [congruence|reflexivity].
    + rewrite Ap. now rewrite put_none.
  - f_equal. apply Ap.
  - change (seen (whole fs)) with fs. rewrite remove_first_pos. destruct (first_pos (named id) fs) as [n|] eqn:E; [|discriminate A].
    cbn [option_map]. f_equal. apply Tk; auto. apply first_pos_lt in E. destruct E as (q & Eq & _). apply nth_error_Some. congruence.
  - change (seen (whole fs)) with fs. rewrite remove_nth_pos. destruct (nth_pos (named id) i fs) as [n|] eqn:E.
    + f_equal. apply Tk; auto. apply nth_pos_lt in E. destruct E as (q & Eq & _). apply nth_error_Some. congruence.
    + destruct fs; reflexivity.
Qed.

Lemma edits_whole es : forall fs, all_allowed es fs = true ->
  option_map fst (edit_shelves es (whole fs)) = Some (whole (apply_edits es fs)).
Proof.
  induction es as [|e es IH]; intros fs A; [reflexivity|]. cbn [all_allowed edit_shelves apply_edits] in *.
  apply andb_prop in A. destruct A as (A & A'). apply andb_prop in A. destruct A as (K & A).
  rewrite whole_edit by auto. specialize (IH _ A'). now destruct (edit_shelves es (whole (apply_edit e fs))).
Qed.

(** ** Getters *)

Lemma hole_get t s arg id :
  tag_holds t s -> Forall sane (held s) -> points_to arg id -> length id = 4%nat ->
  (exists p, ID3v2_Tag_get_frame (Some t) arg = Ok p /\ option_map fp_frame p = find (named id) (seen s))
  /\ (exists l, ID3v2_Tag_get_frames (Some t) arg = Ok l /\ frames_in l = filter (named id) (seen s)).
Proof.
  intros T S P L. apply holds_keeps in T. destruct T as (ps & o & (E & _) & ->).
  rewrite held_shown in S. apply all_sane_map in S. apply Forall_app in S. destruct S as (S & _). cbn [shown seen].
  unfold ID3v2_Tag_get_frame, ID3v2_Tag_get_frames. rewrite E, (get_tail _ id), (get_frames_tail _ id) by auto. split.
  - eexists. split; [reflexivity|]. now rewrite (map_find fp_frame (named id)).
  - eexists. split; [reflexivity|]. rewrite <- (map_filter_g fp_frame (named id)).
    change (fun a => named id (fp_frame a)) with (pnamed id).
    destruct (filter (pnamed id) ps) as [|q l]; [reflexivity|]. rewrite list_of_nodes by discriminate.
    unfold nodes, frames_in. generalize (q :: l). clear. induction l as [|a l IH]; [reflexivity|]. cbn [map flat_map fnode n_frame app]. now rewrite IH.
Qed.

(** ** Writing *)

Lemma tag_write_holed t ps qs fs maj mi fl n ext :
  t_frames t = nodes ps ++ empty_node :: qs -> ps <> [] -> map fp_frame ps = map frame_of fs -> oks fs ->
  t_header t = mkTH (lit "ID3") maj mi fl n ext ->
  0 <= n -> n + 10 < 2 ^ 31 -> frames_size fs <= n ->
  Tag_to_char_stream t = Exit 1.
Proof.
  intros Hl P M H Hh N L R. rewrite tag_write_start, Hh, start_tag_ok by auto. go. rewrite Hl.
  destruct ps as [|p ps]; [congruence|]. change (nodes (p :: ps)) with (fnode p :: nodes ps) at 1. cbn [app fnode n_frame].
  rewrite (write_frames_ok fs); auto.
  rewrite zlen_cells. change (zlen (lit "ID3" ++ maj :: mi :: fl :: four_bytes n)) with 10. lia.
Qed.

Lemma holed_write t fs hidden content h maj mi fl n ext :
  tag_holds t (mkShelf (map frame_of fs) (Some hidden)) -> oks fs -> fs <> [] ->
  t_header t = mkTH (lit "ID3") maj mi fl n ext -> frames_size fs <= n -> n + 10 < 2 ^ 31 ->
  0 <= t_padding t < 2 ^ 31 -> ID3v2_read_tag_header (Some content) = Ok h ->
  ID3v2_write_tag (Some content) (Some t) = Exit 1.
Proof.
  intros (ps & qs & M & _ & _ & Q & E) K N Hh R B Pd Hc. cbn [seen] in M.
  pose proof (frames_size_nonneg fs).
  assert (W : Tag_to_char_stream t = Exit 1).
  { apply (tag_write_holed t ps (nodes qs) fs maj mi fl n ext); auto; try lia.
    intros ->. destruct fs; [congruence|discriminate M]. }
  unfold ID3v2_write_tag. rewrite (write_tag_starts content t h Hc Pd). cbv zeta. rewrite W. reflexivity.
Qed.

Lemma hidden_write t hidden content maj mi fl n ext :
  tag_holds t (mkShelf [] (Some hidden)) -> announces_extended content = false ->
  t_header t = mkTH (lit "ID3") maj mi fl n ext -> 0 <= n < 2 ^ 28 -> 2048 - 2 ^ 31 < t_padding t < 2 ^ 31 ->
  ID3v2_write_tag (Some content) (Some t)
  = Ok (Some (tag_bytes maj mi fl n [] ++ audio content), Some (padded t)).
Proof.
  intros (ps & qs & M & _ & _ & Q & E) A Hh R Pd. cbn [seen] in M. destruct ps; [|discriminate M]. cbn [map app] in E.
  set (t0 := mkTag (t_header t) [empty_node] (t_padding t) (t_fresh t)).
  assert (X : Tag_to_char_stream t = Tag_to_char_stream t0).
  { unfold Tag_to_char_stream. cbn [t0 t_header t_frames]. rewrite E. reflexivity. }
  assert (H0 : tag_has t0 (map frame_of [])).
  { exists []. repeat split; constructor. }
  destruct (stream_bytes t0 [] maj mi fl n ext H0 (Forall_nil _) Hh (proj1 R) (proj2 R)) as (cs & W & S & Z).
  rewrite <- X in W. now apply (write_gen content t cs).
Qed.

(** ** No frame is lost, or kept by mistake *)

Lemma frames_in_nodes_all ps : frames_in (nodes ps) = map fp_frame ps.
Proof. induction ps as [|p ps IH]; [reflexivity|]. cbn [nodes map frames_in flat_map fnode n_frame app]. f_equal. exact IH. Qed.

Lemma frames_in_app a b : frames_in (a ++ b) = frames_in a ++ frames_in b.
Proof. unfold frames_in. apply flat_map_app. Qed.

Lemma holds_in t s : tag_holds t s -> frames_in (t_frames t) = held s.
Proof.
  intros T. apply holds_keeps in T. destruct T as (ps & o & (E & _) & ->). rewrite held_shown, E, frames_in_app, frames_in_nodes_all, map_app.
  f_equal. destruct o as [qs|]; [|reflexivity]. apply (frames_in_nodes_all qs).
Qed.

Lemma held_add f s : Permutation (held (add_to f s)) (f :: held s).
Proof.
  unfold held, add_to. destruct s as [l [h|]]; cbn [seen behind].
  - destruct l as [|g l]; cbn [seen behind app]; [now rewrite app_nil_r|].
    rewrite app_assoc. change (g :: (l ++ h) ++ [f]) with ((g :: l ++ h) ++ [f]). apply Permutation_sym, Permutation_cons_append.
  - rewrite !app_nil_r. apply Permutation_sym, Permutation_cons_append.
Qed.

Lemma delete_at_perm {A} n (l : list A) x : nth_error l n = Some x -> Permutation (delete_at n l ++ [x]) l.
Proof.
  intros E. apply nth_error_split in E. destruct E as (l1 & l2 & -> & <-). unfold delete_at.
  rewrite firstn_app_exact by auto. change (l1 ++ x :: l2) with (l1 ++ [x] ++ l2) at 1.
  rewrite app_assoc, skipn_app_exact by (rewrite app_length; cbn; lia).
  rewrite <- app_assoc. apply Permutation_app_head. apply Permutation_sym, Permutation_cons_append.
Qed.

Lemma held_take n s x : nth_error (seen s) n = Some x -> Permutation (held (take_at n s) ++ [x]) (held s).
Proof.
  intros E. unfold held at 1, take_at. cbn [seen behind]. fold (delete_at n (seen s)).
  replace match match behind s with Some h => Some h | None => if (S n =? length (seen s))%nat then Some [] else None end with Some h => h | None => [] end
    with match behind s with Some h => h | None => [] end by (destruct (behind s); [reflexivity|]; now destruct (_ =? _)%nat).
  unfold held. set (b := match behind s with Some h => h | None => [] end).
  rewrite <- app_assoc. transitivity (delete_at n (seen s) ++ [x] ++ b).
  - apply Permutation_app_head, Permutation_app_comm.
  - rewrite app_assoc. now apply Permutation_app_tail, delete_at_perm.
Qed.

Lemma put_perm {A} (P : A -> bool) g l x : find P l = Some x -> Permutation (put P g l ++ [x]) (g :: l).
Proof.
  induction l as [|a l IH]; intros E; [discriminate E|]. cbn [find put] in *. destruct (P a).
  - injection E as ->. cbn [app]. apply perm_skip, Permutation_sym, Permutation_cons_append.
  - cbn [app]. rewrite (IH E). apply perm_swap.
Qed.

Lemma shelf_perm e s s' : edit_shelf e s = Some s' ->
  Permutation (held s' ++ taken_out e (seen s)) (put_in e ++ held s).
Proof.
  intros E. destruct e as [f|f|id|id i]; cbn [edit_shelf put_in app] in *; unfold taken_out.
  - injection E as <-. rewrite find_existsb. destruct (find (named (frame_id f)) (seen s)) as [x|] eqn:X.
    + unfold held. cbn [seen behind]. set (b := match behind s with Some h => h | None => [] end).
      rewrite <- app_assoc. transitivity (put (named (frame_id f)) (frame_of f) (seen s) ++ [x] ++ b).
      * apply Permutation_app_head, Permutation_app_comm.
      * rewrite app_assoc. change (frame_of f :: seen s ++ b) with ((frame_of f :: seen s) ++ b). now apply Permutation_app_tail, put_perm.
    + rewrite app_nil_r. apply held_add.
  - injection E as <-. rewrite app_nil_r. apply held_add.
  - destruct (victim_pos (Remove id) (seen s)) as [n|] eqn:V; [|discriminate E]. injection E as <-.
    destruct (victim_some _ _ _ V) as (x & -> & X). now apply held_take.
  - injection E as <-. change (nth_pos (named id) i (seen s)) with (victim_pos (RemoveNth id i) (seen s)).
    destruct (victim_pos (RemoveNth id i) (seen s)) as [n|] eqn:V.
    + destruct (victim_some _ _ _ V) as (x & -> & X). now apply held_take.
    + unfold victim. rewrite V, app_nil_r. destruct s as [l [[|f h]|]]; auto. cbn [behind seen].
      destruct (i =? 0); auto. unfold held. cbn [seen behind]. now rewrite app_nil_r.
Qed.

Lemma nothing_lost t s c e t' :
  tag_holds t s -> Forall sane (held s) -> 0 <= th_tag_size (t_header t) < 2 ^ 32 ->
  means c e -> edit_ok e = true -> run_call t c = Ok t' ->
  Permutation (frames_in (t_frames t') ++ taken_out e (seen s)) (put_in e ++ frames_in (t_frames t)).
Proof.
  intros T S R M K E. pose proof (any_edit_step t s c e T S R M K) as H.
  destruct (edit_shelf e s) as [s'|] eqn:X; [|rewrite H in E; discriminate E].
  destruct H as (t1 & E1 & T1 & _). rewrite E in E1. injection E1 as <-.
  rewrite (holds_in _ _ T), (holds_in _ _ T1). now apply shelf_perm.
Qed.

(** A hole with frames behind it is closed. *)
Lemma hole_closed t l f hidden c id :
  tag_holds t (mkShelf l (Some (f :: hidden))) -> Forall sane (l ++ f :: hidden) -> 0 <= th_tag_size (t_header t) < 2 ^ 32 ->
  means c (RemoveNth id 0) -> existsb (named id) l = false ->
  exists t', run_call t c = Ok t' /\ tag_has t' (l ++ f :: hidden) /\ t_header t' = t_header t.
Proof.
  intros T S R M X. pose proof (any_edit_step t _ c _ T S R M eq_refl) as H. cbn [edit_shelf victim_pos seen behind] in H.
  rewrite nth_pos_zero in H. apply first_pos_none in X. rewrite X in H. change (0 =? 0) with true in H. cbn iota in H.
  destruct H as (t' & E & T' & H & _). exists t'. repeat split; auto.
  - apply whole_has. unfold whole. destruct (l ++ f :: hidden) eqn:Q; [destruct l; discriminate Q|exact T'].
  - rewrite H. cbn [size_delta]. rewrite Z.add_0_r, Z.mod_small by auto. now apply sized_same.
Qed.
