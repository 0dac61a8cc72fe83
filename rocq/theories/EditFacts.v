(** Every API call that changes a tag behaves as the edit it means. *)
From Verif Require Import File Calls Spec SpecEdit.
From Verif Require Export ListFacts.

Definition owns (t : Tag) (ps : list fptr) : Prop :=
  t_frames t = list_of ps /\ NoDup (map fp_addr ps)
  /\ Forall (fun a => (a < t_fresh t)%nat) (map fp_addr ps).

Lemma tag_has_owns t fs : tag_has t fs <-> exists ps, owns t ps /\ map fp_frame ps = fs.
Proof. unfold tag_has, owns. split; intros (ps & H); exists ps; tauto. Qed.

Definition pput (f : fspec) (n : nat) (ps : list fptr) : list fptr :=
  put (pnamed (frame_id f)) (n, frame_of f) ps.

Lemma put_not_nil {A} (P : A -> bool) x l : put P x l <> [].
Proof. destruct l as [|a l]; cbn [put]; [discriminate|]. destruct (P a); discriminate. Qed.

Lemma put_addrs P (p : fptr) ps : incl (map fp_addr (put P p ps)) (fp_addr p :: map fp_addr ps).
Proof.
  induction ps as [|q ps IH]; cbn [put map]; intros a H; [exact H|].
  destruct (P q); cbn [map] in H.
  - destruct H as [->|H]; cbn; auto.
  - destruct H as [<-|H]; [cbn; auto|]. apply IH in H. destruct H as [<-|H]; cbn; auto.
Qed.

Lemma put_nodup P (p : fptr) ps :
  NoDup (map fp_addr ps) -> ~ In (fp_addr p) (map fp_addr ps) -> NoDup (map fp_addr (put P p ps)).
Proof.
  induction ps as [|q ps IH]; cbn [put map]; intros D N.
  - constructor; auto.
  - inversion D as [|? ? Hq D']; subst. destruct (P q); cbn [map].
    + constructor; [intros I; apply N; now right|auto].
    + constructor; [|apply IH; auto; intros I; apply N; now right].
      intros I. apply put_addrs in I. destruct I as [E|I]; [|contradiction]. apply N. left. now rewrite E.
Qed.

Lemma below_fresh n (l : list nat) : Forall (fun a => (a < n)%nat) l -> ~ In n l.
Proof. rewrite Forall_forall. intros H I. apply H in I. lia. Qed.

Lemma put_owns t f ps h pad :
  owns t ps -> owns (mkTag h (list_of (pput f (t_fresh t) ps)) pad (S (t_fresh t))) (pput f (t_fresh t) ps).
Proof.
  intros (_ & D & B). split; [reflexivity|]. cbn [t_fresh]. unfold pput. split.
  - apply put_nodup; auto. now apply below_fresh.
  - apply Forall_forall. intros a Ha. apply put_addrs in Ha. rewrite Forall_forall in B.
    destruct Ha as [<-|Ha]; [cbn; lia|]. apply B in Ha. lia.
Qed.

Lemma append_owns t f ps h pad :
  owns t ps -> owns (mkTag h (list_of (ps ++ [(t_fresh t, f)])) pad (S (t_fresh t))) (ps ++ [(t_fresh t, f)]).
Proof.
  intros (_ & D & B). split; [reflexivity|]. cbn [t_fresh]. rewrite map_app. cbn [map]. split.
  - pose proof (Add_app (t_fresh t) (map fp_addr ps) []) as Ad. rewrite app_nil_r in Ad.
    apply (NoDup_Add Ad). split; auto. now apply below_fresh.
  - apply Forall_app. split; [|repeat constructor]. eapply Forall_impl; [|exact B]. cbn. lia.
Qed.

Lemma sane_put ps f n : all_sane ps -> frame_ok f = true -> all_sane (pput f n ps).
Proof.
  intros H F. unfold pput. induction H as [|p ps Hp H IH]; cbn [put].
  - repeat constructor; now apply frame_of_sane.
  - destruct (pnamed (frame_id f) p); constructor; auto. now apply frame_of_sane.
Qed.

(** ** Set and add *)

Lemma install_put t ps f :
  owns t ps -> all_sane ps -> frame_ok f = true ->
  install_frame t (find (pnamed (frame_id f)) ps) (frame_of f)
  = Ok (mkTag (with_tag_size (t_header t)
                 (th_tag_size (t_header t) + size_delta (Put f) (map fp_frame ps)))
              (list_of (pput f (t_fresh t) ps)) (t_padding t) (S (t_fresh t))).
Proof.
  intros (Hl & D & B) S F. pose proof (frame_ok_common _ F) as (_ & _ & Hs). pose proof (body_size_nonneg f).
  cbn [size_delta]. rewrite (map_find fp_frame (named (frame_id f))).
  change (fun a => named (frame_id f) (fp_frame a)) with (pnamed (frame_id f)).
  unfold install_frame. rewrite Hl. destruct (find (pnamed (frame_id f)) ps) as [e|] eqn:E; cbn [option_map size_of_opt].
  - destruct ps as [|p ps]; [discriminate E|]. rewrite list_of_nodes by discriminate.
    rewrite (replace_first (pnamed (frame_id f))) by auto.
    assert (He : sane (fp_frame e)) by (unfold all_sane in S; rewrite Forall_forall in S; apply S; apply find_some in E; tauto).
    destruct He as (_ & He). cbn [frame_of f_hdr fh_size]. rewrite isub_ok by lia. go.
    unfold with_frames, pput. now rewrite list_of_nodes by apply put_not_nil.
  - rewrite add_frame_list. go. cbn [frame_of f_hdr fh_size]. unfold with_frames, pput.
    rewrite put_none by auto. now rewrite Z.sub_0_r.
Qed.

Lemma append_put t ps f :
  owns t ps ->
  append_frame t (frame_of f)
  = Ok (mkTag (with_tag_size (t_header t)
                 (th_tag_size (t_header t) + size_delta (Append f) (map fp_frame ps)))
              (list_of (ps ++ [(t_fresh t, frame_of f)])) (t_padding t) (S (t_fresh t))).
Proof.
  intros (Hl & _). unfold append_frame, install_frame. rewrite Hl, add_frame_list. reflexivity.
Qed.

Lemma points_to_lit s : points_to (clit s) (lit s).
Proof. exists (cells [x00]). unfold clit. now rewrite cells_app. Qed.
Lemma points_to_no_flags : points_to NO_FLAGS [x00; x00].
Proof. now exists (cells [x00]). Qed.
Lemma points_to_empty : points_to EMPTY_UNICODE_STR (text_image (Utf16 false [])).
Proof. now exists (cells [x00]). Qed.

(** What the setter finds. *)
Definition finds (t : Tag) (id : list byte) (e : option fptr) : Prop :=
  forall arg, points_to arg id -> FrameList_get_frame_by_id (t_frames t) arg = Ok e.

Lemma owns_finds t ps id : owns t ps -> all_sane ps -> length id = 4%nat -> finds t id (find (pnamed id) ps).
Proof. intros (Hl & _) S L arg P. rewrite Hl. now apply get_list_of. Qed.

Lemma set_text t e id fl s i f x :
  finds t i e -> frame_ok (FText i f x) = true ->
  points_to id i -> points_to fl f -> points_to s (text_image x) ->
  ID3v2_Tag_set_text_frame t (mkTextInput id fl s) = install_frame t e (frame_of (FText i f x)).
Proof.
  intros G F Pi (tf & ->) (ts & ->). unfold ID3v2_Tag_set_text_frame.
  cbn [ti_id ti_flags ti_text]. rewrite (G id Pi). destruct Pi as (ti & ->). rewrite TextFrame_new_ok by auto. reflexivity.
Qed.

Lemma set_comment t e fl la sd co f l d c :
  finds t (lit "COMM") e -> frame_ok (FComment f l d c) = true ->
  points_to fl f -> points_to la l -> points_to sd (text_image d) -> points_to co (text_image c) ->
  ID3v2_Tag_set_comment_frame t (mkCommentInput fl la sd co) = install_frame t e (frame_of (FComment f l d c)).
Proof.
  intros G F (ti & ->) (tf & ->) (ts & ->) (tc & ->). unfold ID3v2_Tag_set_comment_frame.
  cbn [ci_flags ci_language ci_short_description ci_comment]. rewrite CommentFrame_new_ok by auto. go.
  unfold ID3v2_Tag_get_comment_frame, ID3v2_Tag_get_frame. rewrite G by apply points_to_lit. reflexivity.
Qed.

Lemma set_apic t e fl mi de ty da f m d pic :
  finds t (lit "APIC") e -> frame_ok (FPicture f m ty d pic) = true ->
  points_to fl f -> points_to mi (text_image m) -> points_to de (text_image d) -> points_to da pic ->
  ID3v2_Tag_set_apic_frame t (mkApicInput fl mi de ty (zlen pic) da)
  = install_frame t e (frame_of (FPicture f m ty d pic)).
Proof.
  intros G F (ti & ->) (tf & ->) (ts & ->) (tc & ->). unfold ID3v2_Tag_set_apic_frame.
  cbn [ai_flags ai_mime_type ai_description ai_picture_type ai_picture_size ai_data].
  rewrite ApicFrame_new_ok by auto. go.
  unfold ID3v2_Tag_get_album_cover_frame, ID3v2_Tag_get_frame. rewrite G by apply points_to_lit. reflexivity.
Qed.

Lemma run_put_gen t e c f :
  finds t (frame_id f) e -> means c (Put f) -> frame_ok f = true ->
  run_call t c = install_frame t e (frame_of f).
Proof.
  intros G M F.
  inversion M; subst; cbn [run_call frame_id] in *;
    unfold ID3v2_Tag_set_artist, ID3v2_Tag_set_album, ID3v2_Tag_set_title, ID3v2_Tag_set_track,
      ID3v2_Tag_set_album_artist, ID3v2_Tag_set_genre, ID3v2_Tag_set_year,
      ID3v2_Tag_set_disc_number, ID3v2_Tag_set_composer, ID3v2_Tag_set_comment, ID3v2_Tag_set_album_cover;
    first [ apply set_text | apply set_comment | apply set_apic ]; auto;
    first [ apply points_to_no_flags | apply points_to_empty | apply points_to_lit ].
Qed.

Lemma run_put t ps c f :
  owns t ps -> all_sane ps -> means c (Put f) -> frame_ok f = true ->
  run_call t c = install_frame t (find (pnamed (frame_id f)) ps) (frame_of f).
Proof.
  intros O S M F. apply run_put_gen; auto. apply owns_finds; auto. apply frame_ok_common in F. apply F.
Qed.

Lemma run_append t c f :
  means c (Append f) -> frame_ok f = true -> run_call t c = append_frame t (frame_of f).
Proof.
  intros M F. inversion M; subst; cbn [run_call].
  - unfold ID3v2_Tag_add_comment_frame. cbn [ci_flags ci_language ci_short_description ci_comment].
    repeat match goal with H : points_to _ _ |- _ => destruct H as (? & ->) end. now rewrite CommentFrame_new_ok by auto.
  - unfold ID3v2_Tag_add_apic_frame. cbn [ai_flags ai_mime_type ai_description ai_picture_type ai_picture_size ai_data].
    repeat match goal with H : points_to _ _ |- _ => destruct H as (? & ->) end. now rewrite ApicFrame_new_ok by auto.
Qed.

(** ** Delete *)

Lemma run_remove t c id : means c (Remove id) ->
  exists arg, points_to arg id /\ length id = 4%nat /\ run_call t c = ID3v2_Tag_delete_frame t arg.
Proof.
  intros M. inversion M; subst; cbn [run_call]; eauto;
    (eexists; split; [|split]; [| |reflexivity]; [apply points_to_lit|reflexivity]).
Qed.

Lemma run_remove_nth t c id i : means c (RemoveNth id i) ->
  length id = 4%nat /\ exists arg, points_to arg id /\
  run_call t c = let* head := ID3v2_Tag_get_frames (Some t) arg in
                 Ok (mkTag (t_header t) (delete_nth_loop head 0 i (t_frames t)) (t_padding t) (t_fresh t)).
Proof.
  intros M. inversion M; subst; cbn [run_call]; (split; [reflexivity|]);
    (eexists; split; [|reflexivity]; apply points_to_lit).
Qed.

(** Deleting by id, for every outcome. *)
Lemma delete_frame_at t ps arg id :
  t_frames t = list_of ps -> all_sane ps -> points_to arg id -> length id = 4%nat ->
  ID3v2_Tag_delete_frame t arg
  = match first_pos (pnamed id) ps with
    | Some n => Ok (mkTag (with_tag_size (t_header t)
                             (th_tag_size (t_header t) - (10 + size_of_opt (option_map fp_frame (nth_error ps n)))))
                          (unlinked n ps) (t_padding t) (t_fresh t))
    | None => Ub NullDeref
    end.
Proof.
  intros Hl S P L. unfold ID3v2_Tag_delete_frame. rewrite Hl. destruct ps as [|p ps]; [reflexivity|].
  rewrite list_of_nodes, (remove_by_id_nodes _ id) by (auto; discriminate).
  destruct (first_pos (pnamed id) (p :: ps)) as [n|] eqn:E; [|reflexivity]. go.
  apply first_pos_lt in E. destruct E as (q & Eq & _). rewrite Eq. go.
  assert (Hq : sane (fp_frame q)) by (unfold all_sane in S; rewrite Forall_forall in S; apply S; now apply nth_error_In in Eq).
  destruct Hq as (_ & Hq). change ID3v2_FRAME_HEADER_LENGTH with 10. rewrite iadd_ok by lia. go.
  cbn [option_map size_of_opt]. do 4 f_equal. lia.
Qed.

Lemma delete_nth_at t ps arg id i :
  owns t ps -> all_sane ps -> points_to arg id -> length id = 4%nat ->
  (let* head := ID3v2_Tag_get_frames (Some t) arg in
   Ok (mkTag (t_header t) (delete_nth_loop head 0 i (t_frames t)) (t_padding t) (t_fresh t)))
  = Ok (mkTag (t_header t)
              (match nth_pos (pnamed id) i ps with Some n => unlinked n ps | None => t_frames t end)
              (t_padding t) (t_fresh t)).
Proof.
  intros (Hl & D & B) S P L. unfold ID3v2_Tag_get_frames. rewrite Hl, (get_frames_list_of _ id) by auto. go.
  f_equal. f_equal.
  destruct (Z.le_gt_cases 0 i) as [I|I].
  - destruct (filter (pnamed id) ps) as [|q sub] eqn:E.
    + pose proof (nth_filter (pnamed id) ps i I) as N. rewrite E in N.
      assert (nth_pos (pnamed id) i ps = None) as ->.
      { destruct (nth_pos (pnamed id) i ps) as [n|] eqn:Q; [|reflexivity]. apply nth_pos_lt in Q.
        destruct Q as (a & Ha & _). rewrite Ha in N. destruct (Z.to_nat i); discriminate N. }
      cbn [list_of delete_nth_loop n_frame]. destruct (0 =? i); [|reflexivity].
      destruct ps; [reflexivity|]. rewrite list_of_nodes by discriminate. now rewrite remove_null.
    + rewrite list_of_nodes, <- E, delete_nth_loop_nodes, Z.sub_0_r, nth_filter by (discriminate || lia).
      destruct (nth_pos (pnamed id) i ps) as [n|] eqn:Q; [|reflexivity].
      apply nth_pos_lt in Q. destruct Q as (a & Ha & _). rewrite Ha.
      destruct ps as [|p ps]; [destruct n; discriminate Ha|].
      rewrite list_of_nodes by discriminate. now rewrite (remove_by_ptr _ n a).
  - rewrite nth_pos_neg by auto. rewrite delete_nth_loop_neg by auto. reflexivity.
Qed.

Lemma unlinked_list_of n (ps : list fptr) :
  (n < length ps)%nat -> leaves_no_hole n (map fp_frame ps) = true -> unlinked n ps = list_of (delete_at n ps).
Proof.
  intros L H. unfold leaves_no_hole in H. rewrite map_length in H. unfold unlinked.
  destruct (Nat.eqb_spec (S n) (length ps)) as [E|E].
  - assert (length ps = 1)%nat by (apply orb_true_iff in H; destruct H as [H|H]; [apply Nat.ltb_lt in H; lia|now apply Nat.eqb_eq]).
    destruct ps as [|p [|q ps]]; try discriminate. assert (n = 0%nat) by (cbn in *; lia). subst. reflexivity.
  - symmetry. apply list_of_nodes. unfold delete_at. intros Q. apply (f_equal (@length _)) in Q.
    rewrite app_length, firstn_length, skipn_length in Q. cbn [length] in Q. lia.
Qed.

Lemma delete_owns t ps n h pad :
  owns t ps -> owns (mkTag h (list_of (delete_at n ps)) pad (t_fresh t)) (delete_at n ps).
Proof.
  intros (_ & D & B). split; [reflexivity|]. rewrite map_delete_at. split; [now apply NoDup_delete_at|].
  cbn [t_fresh]. rewrite Forall_forall in *. intros a Ha. apply B. now apply delete_at_incl in Ha.
Qed.

Lemma sane_delete n ps : all_sane ps -> all_sane (delete_at n ps).
Proof. unfold all_sane. rewrite !Forall_forall. intros H p Hp. apply H. now apply delete_at_incl in Hp. Qed.

(** ** One step *)

Lemma with_sized h n : with_tag_size h n = sized h (n mod 2 ^ 32).
Proof. reflexivity. Qed.

Lemma sized_same h n : n = th_tag_size h -> sized h n = h.
Proof. intros ->. now destruct h. Qed.

Lemma edit_step t fs c e :
  tag_has t fs -> Forall sane fs -> 0 <= th_tag_size (t_header t) < 2 ^ 32 ->
  means c e -> edit_ok e = true -> allowed e fs = true ->
  exists t', run_call t c = Ok t' /\ tag_has t' (apply_edit e fs) /\ Forall sane (apply_edit e fs)
    /\ t_header t' = sized (t_header t) ((th_tag_size (t_header t) + size_delta e fs) mod 2 ^ 32)
    /\ t_padding t' = t_padding t.
Proof.
  intros T S R M K A. apply tag_has_owns in T. destruct T as (ps & O & <-). apply all_sane_map in S.
  destruct e as [f|f|id|id i]; cbn [edit_ok] in K.
  - eexists. split; [rewrite (run_put t ps c f) by auto; now apply install_put|].
    cbn [t_header t_padding apply_edit]. split; [|split; [|split; reflexivity]].
    + apply tag_has_owns. exists (pput f (t_fresh t) ps). split; [now apply put_owns|].
      apply (map_put fp_frame (named (frame_id f)) (t_fresh t, frame_of f)).
    + change (frame_of f) with (fp_frame (t_fresh t, frame_of f)). rewrite <- (map_put fp_frame).
      apply all_sane_map. now apply sane_put.
  - eexists. split; [rewrite (run_append t c f) by auto; now apply (append_put t ps)|].
    cbn [t_header t_padding apply_edit]. split; [|split; [|split; reflexivity]].
    + apply tag_has_owns. exists (ps ++ [(t_fresh t, frame_of f)]). split; [now apply append_owns|].
      now rewrite map_app.
    + apply all_sane_map in S. apply Forall_app. split; auto. constructor; [now apply frame_of_sane|constructor].
  - destruct (run_remove t c id M) as (arg & P & L & ->).
    rewrite (delete_frame_at t ps arg id) by (auto; apply O).
    cbn [allowed victim_pos apply_edit size_delta] in *. unfold victim. cbn [victim_pos].
    rewrite remove_first_pos. rewrite (map_first_pos fp_frame (named id)) in *.
    change (fun a => named id (fp_frame a)) with (pnamed id) in *.
    destruct (first_pos (pnamed id) ps) as [n|] eqn:E; [|discriminate A].
    apply first_pos_lt in E. destruct E as (q & Eq & _).
    assert (n < length ps)%nat by (apply nth_error_Some; congruence).
    eexists. split; [reflexivity|]. rewrite unlinked_list_of by auto. cbn [t_header t_padding].
    split; [|split; [|split; [|reflexivity]]].
    + apply tag_has_owns. exists (delete_at n ps). split; [now apply delete_owns|apply map_delete_at].
    + rewrite <- map_delete_at. apply all_sane_map. now apply sane_delete.
    + rewrite with_sized. do 2 f_equal. rewrite nth_error_map, Eq. cbn [option_map size_of_opt]. lia.
  - destruct (run_remove_nth t c id i M) as (L & arg & P & ->).
    rewrite (delete_nth_at t ps arg id) by auto.
    cbn [allowed victim_pos apply_edit size_delta] in *. rewrite Z.add_0_r, Z.mod_small by auto.
    rewrite remove_nth_pos. rewrite (map_nth_pos fp_frame (named id)) in *.
    change (fun a => named id (fp_frame a)) with (pnamed id) in *.
    eexists. split; [reflexivity|]. cbn [t_header t_padding]. rewrite sized_same by reflexivity.
    destruct (nth_pos (pnamed id) i ps) as [n|] eqn:E.
    + apply nth_pos_lt in E. destruct E as (q & Eq & _).
      assert (n < length ps)%nat by (apply nth_error_Some; congruence).
      rewrite unlinked_list_of by auto. split; [|split; [|split; reflexivity]].
      * apply tag_has_owns. exists (delete_at n ps). split; [now apply delete_owns|apply map_delete_at].
      * rewrite <- map_delete_at. apply all_sane_map. now apply sane_delete.
    + split; [|split; [|split; reflexivity]].
      * apply tag_has_owns. exists ps. split; [exact O|reflexivity].
      * now apply all_sane_map.
Qed.

(** ** Room *)

Lemma bytes_needed_app a b : bytes_needed (a ++ b) = bytes_needed a + bytes_needed b.
Proof. induction a as [|f a IH]; [reflexivity|]. cbn [app bytes_needed fold_right] in *. fold (bytes_needed a). fold (bytes_needed (a ++ b)). lia. Qed.

Lemma bytes_needed_put P g fs :
  bytes_needed (put P g fs) = bytes_needed fs
    + match find P fs with
      | Some f => fh_size (f_hdr g) - fh_size (f_hdr f)
      | None => 10 + fh_size (f_hdr g)
      end.
Proof.
  induction fs as [|f fs IH]; [cbn; lia|]. cbn [put find]. destruct (P f).
  - cbn [bytes_needed fold_right]. lia.
  - cbn [bytes_needed fold_right] in *. fold (bytes_needed fs) in *. fold (bytes_needed (put P g fs)) in *. lia.
Qed.

Lemma bytes_needed_delete n fs f :
  nth_error fs n = Some f -> bytes_needed (delete_at n fs) = bytes_needed fs - (10 + fh_size (f_hdr f)).
Proof.
  intros E. apply nth_error_split in E. destruct E as (l1 & l2 & -> & <-). unfold delete_at.
  rewrite firstn_app_exact by auto. change (l1 ++ f :: l2) with (l1 ++ [f] ++ l2).
  rewrite app_assoc, skipn_app_exact by (rewrite app_length; cbn; lia).
  rewrite !bytes_needed_app. cbn [bytes_needed fold_right]. lia.
Qed.

Lemma victim_some e fs n : victim_pos e fs = Some n -> exists f, victim e fs = Some f /\ nth_error fs n = Some f.
Proof.
  unfold victim. intros E. rewrite E. destruct e; cbn [victim_pos] in E; try discriminate.
  - apply first_pos_lt in E. destruct E as (a & -> & _). eauto.
  - apply nth_pos_lt in E. destruct E as (a & -> & _). eauto.
Qed.

Lemma room_step e fs : allowed e fs = true ->
  size_delta e fs = bytes_needed (apply_edit e fs) - bytes_needed fs + room_delta e fs.
Proof.
  intros A. destruct e as [f|f|id|id i]; cbn [size_delta apply_edit room_delta allowed] in *.
  - rewrite bytes_needed_put. destruct (find _ fs); cbn [size_of_opt frame_of f_hdr fh_size]; lia.
  - rewrite bytes_needed_app. cbn [bytes_needed fold_right frame_of f_hdr fh_size]. lia.
  - destruct (victim_pos (Remove id) fs) as [n|] eqn:E; [|discriminate].
    destruct (victim_some _ _ _ E) as (f & -> & Ef). cbn [victim_pos] in E. rewrite remove_first_pos, E.
    rewrite (bytes_needed_delete _ _ f) by auto. cbn [size_of_opt]. lia.
  - destruct (victim_pos (RemoveNth id i) fs) as [n|] eqn:E.
    + destruct (victim_some _ _ _ E) as (f & -> & Ef). cbn [victim_pos] in E. rewrite remove_nth_pos, E.
      rewrite (bytes_needed_delete _ _ f) by auto. lia.
    + unfold victim. rewrite E. cbn [victim_pos] in E. rewrite remove_nth_pos, E. lia.
Qed.

(** ** Histories *)

Lemma edit_steps cs : forall t fs es,
  tag_has t fs -> Forall sane fs -> 0 <= th_tag_size (t_header t) < 2 ^ 32 ->
  Forall2 means cs es -> all_allowed es fs = true ->
  exists t', run_calls t cs = Ok t' /\ tag_has t' (apply_edits es fs) /\ Forall sane (apply_edits es fs)
    /\ t_header t' = sized (t_header t)
         ((bytes_needed (apply_edits es fs) + (th_tag_size (t_header t) - bytes_needed fs) + room_deltas es fs) mod 2 ^ 32)
    /\ t_padding t' = t_padding t.
Proof.
  induction cs as [|c cs IH]; intros t fs es T S R F A; inversion F as [|? e ? es' M F']; subst.
  - exists t. cbn [run_calls apply_edits room_deltas]. repeat split; auto; try tauto.
    symmetry. apply sized_same. rewrite <- (Z.mod_small (th_tag_size (t_header t)) (2 ^ 32)) at 2 by auto. f_equal. lia.
  - cbn [all_allowed] in A. apply andb_true_iff in A. destruct A as [A A']. apply andb_true_iff in A. destruct A as [K A].
    destruct (edit_step t fs c e T S R M K A) as (t1 & E1 & T1 & S1 & H1 & P1).
    destruct (IH t1 _ es' T1 S1) as (t2 & E2 & T2 & S2 & H2 & P2); auto.
    { rewrite H1. cbn [sized th_tag_size]. apply Z.mod_pos_bound. lia. }
    exists t2. cbn [run_calls apply_edits room_deltas]. rewrite E1. go. rewrite E2, P2, P1. repeat split; auto.
    rewrite H2, H1. unfold sized. cbn [th_identifier th_major th_minor th_flags th_tag_size th_ext_size].
    f_equal. rewrite (room_step e fs A).
    set (b0 := bytes_needed fs). set (b1 := bytes_needed (apply_edit e fs)). set (b2 := bytes_needed (apply_edits es' _)).
    rewrite <- (Z.add_mod_idemp_l (b2 + _)), <- (Z.add_mod_idemp_r b2), Zminus_mod_idemp_l by lia.
    rewrite (Z.add_mod_idemp_r b2), Z.add_mod_idemp_l by lia. f_equal. lia.
Qed.

(** ** Set, then get *)

Lemma find_put {A} (P : A -> bool) g l : P g = true -> find P (put P g l) = Some g.
Proof.
  intros H. induction l as [|x l IH]; cbn [put find]; [now rewrite H|].
  destruct (P x) eqn:E; cbn [find]; [now rewrite H|now rewrite E].
Qed.

Lemma getter_by_id c f g : means c (Put f) -> getter_of c = Some g ->
  exists arg, points_to arg (frame_id f) /\ forall t, g t = ID3v2_Tag_get_frame t arg.
Proof.
  intros M G. inversion M; subst; cbn [getter_of] in G; injection G as <-;
    (eexists; split; [|intros; reflexivity]); cbn [frame_id ti_id]; auto; apply points_to_lit.
Qed.

Lemma get_frame_has t fs arg id :
  tag_has t fs -> Forall sane fs -> points_to arg id -> length id = 4%nat ->
  exists p, ID3v2_Tag_get_frame (Some t) arg = Ok p /\ option_map fp_frame p = find (named id) fs.
Proof.
  intros T S P L. apply tag_has_owns in T. destruct T as (ps & (Hl & _) & <-). apply all_sane_map in S.
  cbn [ID3v2_Tag_get_frame]. rewrite Hl, (get_list_of arg id) by auto. eexists. split; [reflexivity|].
  now rewrite (map_find fp_frame (named id)).
Qed.

Lemma set_then_get t fs c f g :
  tag_has t fs -> Forall sane fs -> 0 <= th_tag_size (t_header t) < 2 ^ 32 ->
  means c (Put f) -> frame_ok f = true -> getter_of c = Some g ->
  exists t' p, run_call t c = Ok t' /\ g (Some t') = Ok (Some p) /\ fp_frame p = frame_of f.
Proof.
  intros T S R M K G.
  destruct (edit_step t fs c (Put f) T S R M K eq_refl) as (t' & E & T' & S' & _).
  destruct (getter_by_id c f g M G) as (arg & P & Hg).
  destruct (get_frame_has t' _ arg (frame_id f) T' S' P) as (p & Ep & Fp).
  { apply frame_ok_common in K. apply K. }
  cbn [apply_edit] in Fp. rewrite find_put in Fp by apply named_frame_of.
  destruct p as [p|]; [|discriminate Fp]. injection Fp as Fp. exists t', p. rewrite Hg. auto.
Qed.

(** Every setter has its getter. *)
Lemma setter_has_getter c f : means c (Put f) -> exists g, getter_of c = Some g.
Proof. intros M. inversion M; subst; cbn [getter_of]; eauto. Qed.
