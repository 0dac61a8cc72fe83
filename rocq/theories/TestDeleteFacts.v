(** What delete_test.c needs of the file it is run on. *)
From Verif Require Import BaseFacts UtilsFacts StreamFacts FrameFacts HeaderFacts TagFacts.
From Verif Require Import Tests Spec SpecEdit SpecFile SpecRead SpecSession SpecTests.
From Verif Require Import ListFacts EditFacts HistFacts ClaimFacts FileFacts WriteFacts ReadFacts SessionFacts RewriteFacts CutFacts.
From Verif Require Import CompatFacts TestFacts TestRunFacts TestLargeFacts TestEditFacts.
From Coq Require Import Lia ZifyBool ZifyNat Permutation.

(** ** Lists with and without a hole at their end *)

Definition listing (hole : bool) (ps : list fptr) : flist := nodes ps ++ (if hole then [empty_node] else []).

Lemma listing_cons hole p ps : listing hole (p :: ps) = fnode p :: listing hole ps.
Proof. reflexivity. Qed.

Lemma listing_unlink hole p ps : unlink_node (listing hole ps) = listing (hole || (1 =? length (p :: ps))%nat) (delete_at 0 (p :: ps)).
Proof. destruct ps; destruct hole; reflexivity. Qed.

Lemma delete_at_S {A} n (x : A) l : delete_at (S n) (x :: l) = x :: delete_at n l.
Proof. reflexivity. Qed.

Lemma remove_listing arg id hole ps :
  all_sane ps -> points_to arg id -> length id = 4%nat ->
  FrameList_remove_frame_by_id (listing hole ps) arg
  = match first_pos (pnamed id) ps with
    | Some n => Ok (nth_error ps n, listing (hole || (S n =? length ps)%nat) (delete_at n ps))
    | None => if hole then Ub NullDeref else Ok (None, nodes ps)
    end.
Proof.
  intros H P L. induction H as [|p ps Hp H IH]; [destruct hole; reflexivity|].
  rewrite listing_cons. cbn [FrameList_remove_frame_by_id fnode n_frame first_pos]. go.
  rewrite (id_matches_ok _ _ id) by auto. go. unfold pnamed at 1.
  destruct (named id (fp_frame p)).
  - cbn [nth_error]. now rewrite (listing_unlink hole p ps).
  - rewrite IH. destruct (first_pos (pnamed id) ps) as [n|]; cbn [option_map]; go.
    + cbn [nth_error]. now rewrite delete_at_S, listing_cons.
    + destruct hole; reflexivity.
Qed.

Lemma remove_ptr_listing hole ps n p :
  NoDup (map fp_addr ps) -> nth_error ps n = Some p ->
  FrameList_remove_frame (listing hole ps) (Some p)
  = (Some p, listing (hole || (S n =? length ps)%nat) (delete_at n ps)).
Proof.
  revert n. induction ps as [|q ps IH]; intros [|n] D E; try discriminate E; cbn [nth_error] in E;
    rewrite listing_cons; cbn [FrameList_remove_frame fnode n_frame same_ptr addr_of option_map].
  - injection E as ->. rewrite Nat.eqb_refl. now rewrite (listing_unlink hole p ps).
  - inversion D as [|? ? N D']; subst.
    assert (Q : fp_addr q <> fp_addr p).
    { intros Q. apply N. rewrite Q. apply in_map. now apply nth_error_In in E. }
    apply Nat.eqb_neq in Q. rewrite Q. rewrite (IH n) by auto. now rewrite delete_at_S, listing_cons.
Qed.

Lemma remove_null_listing hole ps : snd (FrameList_remove_frame (listing hole ps) None) = listing hole ps.
Proof.
  induction ps as [|p ps IH]; [destruct hole; reflexivity|]. rewrite listing_cons.
  cbn [FrameList_remove_frame fnode n_frame same_ptr addr_of option_map].
  destruct (FrameList_remove_frame (listing hole ps) None). cbn [snd] in *. now rewrite IH.
Qed.

Lemma sublist_listing arg id hole ps acc :
  all_sane ps -> points_to arg id -> length id = 4%nat ->
  get_frames_loop (listing hole ps) arg (list_of acc) = Ok (list_of (acc ++ filter (pnamed id) ps)).
Proof.
  intros H P L. revert acc. induction H as [|p ps Hp H IH]; intros acc.
  - rewrite app_nil_r. destruct hole; reflexivity.
  - rewrite listing_cons. cbn [get_frames_loop fnode n_frame filter]. rewrite (id_matches_ok _ _ id) by auto. go.
    unfold pnamed at 1. destruct (named id (fp_frame p)).
    + rewrite add_frame_list. go. rewrite IH, <- app_assoc. reflexivity.
    + apply IH.
Qed.

Lemma first_filter {A} (p : A -> bool) l :
  nth_error (filter p l) 0 = match first_pos p l with Some n => nth_error l n | None => None end.
Proof.
  induction l as [|a l IH]; [reflexivity|]. cbn [filter first_pos]. destruct (p a); [reflexivity|].
  rewrite IH. now destruct (first_pos p l).
Qed.

Lemma delete_first_listing arg id hole ps :
  all_sane ps -> NoDup (map fp_addr ps) -> points_to arg id -> length id = 4%nat ->
  (let* head := FrameList_get_frames_by_id (listing hole ps) arg in Ok (delete_nth_loop head 0 0 (listing hole ps)))
  = Ok (match first_pos (pnamed id) ps with
        | Some n => listing (hole || (S n =? length ps)%nat) (delete_at n ps)
        | None => listing hole ps
        end).
Proof.
  intros S D P L. unfold FrameList_get_frames_by_id. change FrameList_new with (list_of []).
  rewrite (sublist_listing _ id) by auto. go. cbn [app]. f_equal.
  pose proof (first_filter (pnamed id) ps) as F.
  destruct (filter (pnamed id) ps) as [|q sub]; cbn [nth_error] in F.
  - destruct (first_pos (pnamed id) ps) as [n|] eqn:E.
    + apply first_pos_lt in E. destruct E as (a & E & _). congruence.
    + cbn [list_of delete_nth_loop n_frame]. change (0 =? 0) with true. cbv iota. apply remove_null_listing.
  - rewrite list_of_nodes by discriminate. cbn [nodes map delete_nth_loop fnode n_frame]. change (0 =? 0) with true. cbv iota.
    destruct (first_pos (pnamed id) ps) as [n|]; [|discriminate F]. now rewrite (remove_ptr_listing _ _ n).
Qed.

(** ** A tag from which frames are taken *)

Section Taking.
  Variables (maj mi fl : byte) (ext : Z).

  Definition kept (t : Tag) (rs : list fspec) (pad : Z) : Prop :=
    exists ps hole, t_frames t = listing hole ps /\ (ps = [] -> hole = true) /\ map fp_frame ps = map frame_of rs
      /\ NoDup (map fp_addr ps) /\ t_header t = mkTH (lit "ID3") maj mi fl (frames_size rs + pad) ext
      /\ Forall (fun a => (a < t_fresh t)%nat) (map fp_addr ps).

  Lemma kept_pos id ps rs : map fp_frame ps = map frame_of rs -> first_pos (pnamed id) ps = first_pos (titled id) rs.
  Proof.
    intros M. rewrite <- first_pos_frames, <- M. clear M. induction ps as [|p ps IH]; [reflexivity|].
    cbn [first_pos map]. unfold pnamed at 1. now rewrite IH.
  Qed.

  Lemma frames_size_delete n rs f : nth_error rs n = Some f ->
    frames_size rs = frames_size (delete_at n rs) + (10 + body_size f).
  Proof.
    revert n. induction rs as [|x rs IH]; intros [|n] E; try discriminate E; cbn [nth_error] in E.
    - injection E as ->. change (delete_at 0 (f :: rs)) with rs. rewrite frames_size_cons. lia.
    - rewrite delete_at_S, !frames_size_cons, (IH n E). lia.
  Qed.

  Lemma delete_nothing {A} n (l : list A) x : nth_error l n = Some x -> delete_at n l = [] -> S n = length l.
  Proof.
    intros E D. assert (n < length l)%nat by (apply nth_error_Some; congruence).
    apply (f_equal (@length _)) in D. unfold delete_at in D. rewrite app_length, firstn_length, skipn_length in D. cbn [length] in D. lia.
  Qed.

  Lemma kept_delete ps hole rs n f : map fp_frame ps = map frame_of rs -> (ps = [] -> hole = true) -> NoDup (map fp_addr ps) ->
    nth_error rs n = Some f -> forall tp tf, Forall (fun a => (a < tf)%nat) (map fp_addr ps) ->
    forall m pad', m = frames_size (delete_at n rs) + pad' ->
    kept (mkTag (mkTH (lit "ID3") maj mi fl m ext) (listing (hole || (S n =? length ps)%nat) (delete_at n ps)) tp tf)
         (delete_at n rs) pad'.
  Proof.
    intros M N D E tp tf F m pad' ->. exists (delete_at n ps), (hole || (S n =? length ps)%nat).
    split; [reflexivity|]. split; [|split; [|split; [|split]]].
    - intros Q. apply (f_equal (@length _)) in M. rewrite !map_length in M.
      assert (L : (n < length ps)%nat) by (rewrite M; apply nth_error_Some; congruence).
      apply nth_error_Some in L. destruct (nth_error ps n) as [x|] eqn:Ex; [|congruence].
      apply (delete_nothing n ps x Ex) in Q. rewrite Q, Nat.eqb_refl. now destruct hole.
    - now rewrite !map_delete_at, M.
    - rewrite map_delete_at. now apply NoDup_delete_at.
    - reflexivity.
    - rewrite map_delete_at. cbn [t_fresh]. rewrite Forall_forall in *. intros a I. apply F. now apply delete_at_incl in I.
  Qed.

  Lemma take t rs pad c id : kept t rs pad -> oks rs -> 0 <= pad -> frames_size rs + pad < 2 ^ 28 -> means c (Remove id) ->
    match first_pos (titled id) rs with
    | Some n => exists t', run_call t c = Ok t' /\ kept t' (delete_at n rs) pad /\ t_padding t' = t_padding t
    | None => run_call t c = Ub NullDeref
    end.
  Proof.
    intros (ps & hole & Hl & N & M & D & Hh & Fr) K P B Mc. destruct (run_remove t c id Mc) as (arg & Pa & L & ->).
    assert (S : all_sane ps) by (apply all_sane_map; rewrite M; now apply oks_sane).
    unfold ID3v2_Tag_delete_frame. rewrite Hl, (remove_listing arg id) by auto. rewrite (kept_pos id ps rs M).
    destruct (first_pos (titled id) rs) as [n|] eqn:E; [|destruct hole; reflexivity]. go.
    apply first_pos_lt in E. destruct E as (f & E & _).
    pose proof (map_nth_error frame_of _ _ E) as E'. rewrite <- M, nth_error_map in E'.
    destruct (nth_error ps n) as [p|]; [|discriminate E']. cbn [option_map] in E'. injection E' as E'. go. rewrite E'.
    assert (Kf : frame_ok f = true) by (unfold oks in K; rewrite Forall_forall in K; apply K; now apply nth_error_In in E).
    apply frame_ok_common in Kf. destruct Kf as (_ & _ & Hs). pose proof (body_size_nonneg f).
    change (fh_size (f_hdr (frame_of f))) with (body_size f). change ID3v2_FRAME_HEADER_LENGTH with 10.
    pose proof (frames_size_delete n rs f E) as Z. pose proof (frames_size_nonneg (delete_at n rs)) as Nn.
    change (2 ^ 28) with 268435456 in B. rewrite iadd_ok by (change (2 ^ 31) with 2147483648; lia). go.
    eexists. split; [reflexivity|]. split; [|reflexivity]. rewrite Hh. unfold with_tag_size.
    cbn [th_identifier th_major th_minor th_flags th_ext_size th_tag_size].
    refine (kept_delete ps hole rs n f M N D E _ _ Fr _ pad _).
    rewrite to_u32_id by lia. lia.
  Qed.

  Lemma take_first t rs pad c id : kept t rs pad -> oks rs -> means c (RemoveNth id 0) ->
    exists t', run_call t c = Ok t' /\ t_padding t' = t_padding t /\
    match first_pos (titled id) rs with
    | Some n => exists f, nth_error rs n = Some f /\ kept t' (delete_at n rs) (pad + (10 + body_size f))
    | None => kept t' rs pad
    end.
  Proof.
    intros (ps & hole & Hl & N & M & D & Hh & Fr) K Mc. destruct (run_remove_nth t c id 0 Mc) as (L & arg & Pa & ->).
    assert (S : all_sane ps) by (apply all_sane_map; rewrite M; now apply oks_sane).
    cbn [ID3v2_Tag_get_frames]. rewrite Hl. pose proof (delete_first_listing arg id hole ps S D Pa L) as G.
    destruct (FrameList_get_frames_by_id (listing hole ps) arg) as [head|?|?|]; cbn [bind] in G; try discriminate G. go.
    injection G as G. rewrite G. rewrite (kept_pos id ps rs M). eexists. split; [reflexivity|]. split; [reflexivity|].
    destruct (first_pos (titled id) rs) as [n|] eqn:E.
    - apply first_pos_lt in E. destruct E as (f & E & _). exists f. split; [exact E|]. rewrite Hh.
      refine (kept_delete ps hole rs n f M N D E _ _ Fr _ _ _). rewrite (frames_size_delete n rs f E). lia.
    - exists ps, hole. repeat split; auto.
  Qed.

  (** ** All deletions *)

  Fixpoint remaining (es : list edit) (rs : list fspec) : option (list fspec) :=
    match es with
    | [] => Some rs
    | Remove id :: es => match first_pos (titled id) rs with Some n => remaining es (delete_at n rs) | None => None end
    | RemoveNth id _ :: es => match first_pos (titled id) rs with Some n => remaining es (delete_at n rs) | None => remaining es rs end
    | _ => None
    end.

  Definition removal (e : edit) : bool :=
    match e with Remove _ => true | RemoveNth _ i => i =? 0 | _ => false end.

  Lemma oks_delete n rs : oks rs -> oks (delete_at n rs).
  Proof. unfold oks. rewrite !Forall_forall. intros H x I. apply H. now apply delete_at_incl in I. Qed.

  Lemma run_removals cs es : Forall2 means cs es -> forallb removal es = true -> forall t rs pad,
    kept t rs pad -> oks rs -> 0 <= pad -> frames_size rs + pad < 2 ^ 28 ->
    match remaining es rs with
    | Some rs' => exists t' pad', run_calls t cs = Ok t' /\ kept t' rs' pad' /\ 0 <= pad' /\ frames_size rs' + pad' < 2 ^ 28
                    /\ oks rs' /\ t_padding t' = t_padding t
    | None => run_calls t cs = Ub NullDeref
    end.
  Proof.
    intros F R. induction F as [|c e cs es Mc F IH]; intros t rs pad T K P B.
    - cbn [remaining run_calls]. exists t, pad. repeat split; auto.
    - cbn [forallb] in R. apply andb_prop in R. destruct R as (Re & R). specialize (IH R).
      destruct e as [f|f|id|id i]; try discriminate Re; cbn [remaining run_calls].
      + pose proof (take t rs pad c id T K P B Mc) as S. destruct (first_pos (titled id) rs) as [n|] eqn:E; [|now rewrite S].
        destruct S as (t' & -> & T' & P'). cbn [bind]. rewrite <- P'. apply (IH t' _ pad); auto using oks_delete.
        apply first_pos_lt in E. destruct E as (f & E & _). pose proof (frames_size_delete n rs f E). pose proof (body_size_nonneg f). lia.
      + cbn [removal] in Re. assert (i = 0) as -> by lia.
        destruct (take_first t rs pad c id T K Mc) as (t' & -> & P' & S). cbn [bind]. rewrite <- P'.
        destruct (first_pos (titled id) rs) as [n|] eqn:E.
        * destruct S as (f & E' & S). pose proof (frames_size_delete n rs f E'). pose proof (body_size_nonneg f).
          apply (IH t' _ (pad + (10 + body_size f))); auto using oks_delete; lia.
        * now apply (IH t' _ pad).
  Qed.
End Taking.

(** ** Which frames are left *)

Lemma titled_eq id f : length (frame_id f) = length id -> forallb (fun c => negb (is_zero c)) id = true ->
  titled id f = true <-> frame_id f = id.
Proof. intros L N. unfold titled. rewrite <- same_id_full by auto. apply bytes_eqb_eq. Qed.

Definition plain_id (id : list byte) : Prop := length id = 4%nat /\ forallb (fun c => negb (is_zero c)) id = true.

Lemma oks_ids rs : oks rs -> Forall (fun f => length (frame_id f) = 4%nat) rs.
Proof. intros K. eapply Forall_impl; [|exact K]. cbn beta. intros f H. apply frame_ok_common in H. apply H. Qed.

Lemma take_perm id rs n : plain_id id -> oks rs -> first_pos (titled id) rs = Some n ->
  Permutation (map frame_id rs) (id :: map frame_id (delete_at n rs)).
Proof.
  intros (L & N) K. revert n. induction rs as [|f rs IH]; intros n E; [discriminate E|].
  inversion K as [|? ? Kf K']; subst. apply frame_ok_common in Kf. destruct Kf as (Lf & _).
  cbn [first_pos] in E. destruct (titled id f) eqn:T.
  - injection E as <-. apply titled_eq in T; [|lia|exact N]. rewrite <- T. reflexivity.
  - destruct (first_pos (titled id) rs) as [m|]; [|discriminate E]. cbn [option_map] in E. injection E as <-.
    rewrite delete_at_S. cbn [map]. rewrite (IH K' m eq_refl). apply perm_swap.
Qed.

Lemma take_none id rs : plain_id id -> oks rs -> first_pos (titled id) rs = None <-> ~ In id (map frame_id rs).
Proof.
  intros (L & N) K. induction rs as [|f rs IH]; [cbn; tauto|].
  inversion K as [|? ? Kf K']; subst. apply frame_ok_common in Kf. destruct Kf as (Lf & _). specialize (IH K').
  assert (T := titled_eq id f ltac:(lia) N). cbn [first_pos map In].
  destruct (titled id f).
  - split; [discriminate|]. intros Q. destruct Q. left. now apply T.
  - destruct (first_pos (titled id) rs); cbn [option_map].
    + split; [discriminate|]. intros Q. assert (~ In id (map frame_id rs)) by tauto. apply IH in H. discriminate H.
    + split; [|reflexivity]. intros _ [Q|Q]; [apply T in Q; discriminate Q|]. apply IH in Q; auto.
Qed.

Lemma removes_take ids es x : Forall plain_id ids -> forall rs, oks rs -> remaining (map Remove ids ++ es) rs = Some x ->
  exists mid, oks mid /\ Permutation (map frame_id rs) (ids ++ map frame_id mid) /\ remaining es mid = Some x.
Proof.
  induction 1 as [|id ids Hi H IH]; intros rs K E; [exists rs; auto|]. cbn [map app remaining] in E.
  destruct (first_pos (titled id) rs) as [n|] eqn:F; [|discriminate E].
  destruct (IH _ (oks_delete n rs K) E) as (mid & Km & P & E'). exists mid. split; [exact Km|]. split; [|exact E'].
  cbn [app]. rewrite (take_perm id rs n Hi K F). now constructor.
Qed.

Lemma removes_leave ids es others : Forall plain_id ids -> forall rs, oks rs -> Permutation (map frame_id rs) (ids ++ others) ->
  exists mid, oks mid /\ remaining (map Remove ids ++ es) rs = remaining es mid /\ Permutation (map frame_id mid) others.
Proof.
  induction 1 as [|id ids Hi H IH]; intros rs K P; [exists rs; auto|]. cbn [map app remaining] in *.
  destruct (first_pos (titled id) rs) as [n|] eqn:F.
  - apply IH; [now apply oks_delete|]. apply (Permutation_cons_inv (a := id)).
    now rewrite <- (take_perm id rs n Hi K F).
  - apply take_none in F; auto. destruct F. eapply Permutation_in; [symmetry; exact P|]. now left.
Qed.

Definition front_ids : list (list byte) := map lit ["TALB"; "TPE1"; "TPE2"]%string.
Definition back_ids : list (list byte) := map lit ["TCOM"; "TPOS"; "TCON"; "TIT2"; "TRCK"; "TYER"; "APIC"]%string.
Definition delete_edits : list edit := map Remove front_ids ++ RemoveNth (lit "COMM") 0 :: map Remove back_ids.

Lemma deleted_split : deleted_ids = front_ids ++ back_ids.
Proof. reflexivity. Qed.

Lemma front_plain : Forall plain_id front_ids.
Proof. repeat (constructor; [split; reflexivity|]). constructor. Qed.
Lemma back_plain : Forall plain_id back_ids.
Proof. repeat (constructor; [split; reflexivity|]). constructor. Qed.
Lemma comment_plain : plain_id (lit "COMM").
Proof. split; reflexivity. Qed.

Lemma back_remaining rs x : oks rs -> remaining (map Remove back_ids) rs = Some x ->
  Permutation (map frame_id rs) (back_ids ++ map frame_id x).
Proof.
  intros K E. rewrite <- (app_nil_r (map Remove back_ids)) in E.
  destruct (removes_take back_ids [] x back_plain rs K E) as (mid & _ & P & E'). cbn [remaining] in E'. now injection E' as ->.
Qed.

Lemma emptied fs : oks fs -> remaining delete_edits fs = Some [] <-> just_those fs.
Proof.
  intros K. unfold delete_edits, just_those. rewrite deleted_split. split.
  - intros E. destruct (removes_take front_ids _ _ front_plain fs K E) as (mid & Km & P & E'). cbn [remaining] in E'.
    destruct (first_pos (titled (lit "COMM")) mid) as [n|] eqn:F.
    + apply back_remaining in E'; [|now apply oks_delete]. cbn [map] in E'. rewrite app_nil_r in E'.
      exists [lit "COMM"]. split; [now right|]. rewrite P, (take_perm _ mid n comment_plain Km F), E'.
      cbn [app]. symmetry. apply Permutation_middle.
    + apply back_remaining in E'; [|exact Km]. cbn [map] in E'. rewrite app_nil_r in E'.
      exists []. split; [now left|]. now rewrite P, E'.
  - intros (comments & C & P).
    assert (P' : Permutation (map frame_id fs) (front_ids ++ (comments ++ back_ids))).
    { rewrite P. rewrite app_assoc, (Permutation_app_comm comments front_ids), <- app_assoc. reflexivity. }
    destruct (removes_leave front_ids (RemoveNth (lit "COMM") 0 :: map Remove back_ids) _ front_plain fs K P') as (mid & Km & -> & Pm).
    cbn [remaining].
    assert (B : forall rs, oks rs -> Permutation (map frame_id rs) back_ids -> remaining (map Remove back_ids) rs = Some []).
    { intros rs Kr Pr. rewrite <- (app_nil_r (map Remove back_ids)). rewrite <- (app_nil_r back_ids) in Pr.
      destruct (removes_leave back_ids [] [] back_plain rs Kr Pr) as (m & _ & -> & Pe). cbn [remaining].
      symmetry in Pe. apply Permutation_nil in Pe. apply map_eq_nil in Pe. now rewrite Pe. }
    destruct (first_pos (titled (lit "COMM")) mid) as [n|] eqn:F.
    + apply B; [now apply oks_delete|]. pose proof (take_perm _ mid n comment_plain Km F) as Q.
      destruct C as [->| ->].
      * exfalso. assert (I : In (lit "COMM") back_ids) by (eapply Permutation_in; [exact Pm|]; eapply Permutation_in; [symmetry; exact Q|]; now left).
        cbn in I. intuition discriminate.
      * cbn [app] in Pm. apply (Permutation_cons_inv (a := lit "COMM")). now rewrite <- Q.
    + apply B; [exact Km|]. destruct C as [->| ->]; [exact Pm|].
      apply take_none in F; auto using comment_plain. destruct F. eapply Permutation_in; [symmetry; exact Pm|]. now left.
Qed.

Lemma missing_one fs id : oks fs -> In id deleted_ids -> ~ In id (map frame_id fs) -> remaining delete_edits fs = None.
Proof.
  intros K I N. destruct (remaining delete_edits fs) as [x|] eqn:E; [|reflexivity]. destruct N.
  destruct (removes_take front_ids _ _ front_plain fs K E) as (mid & Km & P & E'). cbn [remaining] in E'.
  rewrite deleted_split in I. apply in_app_iff in I. eapply Permutation_in; [symmetry; exact P|]. apply in_app_iff.
  destruct I as [I|I]; [now left|right].
  destruct (first_pos (titled (lit "COMM")) mid) as [n|] eqn:F.
  - apply back_remaining in E'; [|now apply oks_delete]. eapply Permutation_in; [symmetry; exact (take_perm _ mid n comment_plain Km F)|].
    right. eapply Permutation_in; [symmetry; exact E'|]. apply in_app_iff. now left.
  - apply back_remaining in E'; [|exact Km]. eapply Permutation_in; [symmetry; exact E'|]. apply in_app_iff. now left.
Qed.

(** ** The program *)

Definition delete_calls : list call :=
  [DeleteFrame ID3v2_ALBUM_FRAME_ID; DeleteArtist; DeleteAlbumArtist; DeleteCommentFrame 0; DeleteComposer;
   DeleteDiscNumber; DeleteGenre; DeleteTitle; DeleteTrack; DeleteYear; DeleteAlbumCover].

Lemma delete_calls_mean : Forall2 means delete_calls delete_edits.
Proof.
  unfold delete_calls, delete_edits, front_ids, back_ids. cbn [map app].
  repeat (constructor; [first [constructor; first [apply points_to_lit | reflexivity] | constructor]|]). constructor.
Qed.

(** What follows the writing. *)
Definition delete_rest (file : file) : outcome bool :=
  let* edited := ID3v2_read_tag file in
  assert! Ok (match edited with Some _ => true | None => false end) in
  let* t := deref edited in
  assert! Ok (th_tag_size (t_header t) =? to_u32 (t_padding t)) in
  assert! assert_none ID3v2_Tag_get_artist_frame edited in
  assert! assert_none ID3v2_Tag_get_album_frame edited in
  assert! assert_none ID3v2_Tag_get_title_frame edited in
  assert! assert_none ID3v2_Tag_get_track_frame edited in
  assert! assert_none ID3v2_Tag_get_album_artist_frame edited in
  assert! assert_none ID3v2_Tag_get_genre_frame edited in
  assert! assert_none ID3v2_Tag_get_year_frame edited in
  assert! assert_none ID3v2_Tag_get_disc_number_frame edited in
  assert! assert_none ID3v2_Tag_get_composer_frame edited in
  assert! assert_none ID3v2_Tag_get_comment_frame edited in
  assert! assert_none ID3v2_Tag_get_album_cover_frame edited in
  let* file := ID3v2_delete_tag file in
  let* deleted := ID3v2_read_tag file in
  assert! Ok (match deleted with None => true | Some _ => false end) in
  Ok true.

Lemma delete_test_is content t : ID3v2_read_tag (Some content) = Ok t ->
  delete_test (Some content)
  = let* tag := run_calls (or_new t) delete_calls in
    let* (file, _) := ID3v2_write_tag (Some content) (Some tag) in
    delete_rest file.
Proof. intros E. unfold delete_test. cbn [clone_file]. rewrite !bind_is, E, bind_is. reflexivity. Qed.

Lemma tag_new_kept major minor flags fs pad t : 
  t_header t = mkTH (lit "ID3") major minor flags (frames_size fs + pad) 0 -> tag_has t (map frame_of fs) ->
  kept major minor flags 0 t fs pad.
Proof.
  intros Hh (ps & Hl & Hg & D & Fr). destruct ps as [|p ps].
  - exists [], true. repeat split; auto.
  - exists (p :: ps), false. unfold listing. rewrite app_nil_r. repeat split; auto. discriminate.
Qed.

Lemma rest_empty major minor flags pad sound :
  known_version major = true -> has_extended_header flags = false -> 0 <= pad < 2 ^ 28 ->
  delete_rest (Some (tag_bytes major minor flags pad [] ++ sound)) = Ok true <-> untagged (Some sound).
Proof.
  intros V X B.
  destruct (written_holds major minor flags [] pad sound V X (Forall_nil _)) as (Xc & Au & t & E & Ht & T & Pt); [lia|exact (proj2 B)|].
  change (frames_size []) with 0 in *. rewrite Z.add_0_l in *.
  unfold delete_rest. rewrite E. cbn [bind deref]. rewrite Ht, Pt. cbn [th_tag_size].
  change (2 ^ 28) with 268435456 in B. rewrite to_u32_id by lia. rewrite Z.eqb_refl. cbn [bind].
  destruct T as (ps & Hl & Hg & _). destruct ps; [|discriminate Hg].
  destruct (lookup_named t [] Hl (Forall_nil _)) as (G1 & G2 & G3 & G4 & G5 & G6 & G7 & G8 & G9 & G10 & G11 & _). cbv zeta in *.
  unfold assert_none. rewrite G1, G2, G3, G4, G5, G6, G7, G8, G9, G10, G11. cbn [bind find].
  rewrite (delete_file _ Xc), Au. cbn [bind]. rewrite untagged_read.
  destruct (ID3v2_read_tag (Some sound)) as [[x|]|?|?|]; cbn [bind]; split; intros Q; try discriminate Q; reflexivity.
Qed.

Lemma rest_left major minor flags rs n sound :
  known_version major = true -> has_extended_header flags = false -> frames_size rs <= n -> 10 < n -> n < 2 ^ 28 -> oks rs -> rs <> [] ->
  delete_rest (Some (tag_bytes major minor flags n rs ++ sound)) <> Ok true.
Proof.
  intros V X L L' B K N E. unfold delete_rest in E.
  destruct (read_file_exactly (tag_bytes major minor flags n rs ++ sound)) as [(r & ot & R & Er & Sh)|(_ & u & U)].
  2:{ rewrite U in E. discriminate E. }
  rewrite Er, bind_is in E. apply assert_and in E as (Es & E). destruct ot as [t|]; [|discriminate Es]. clear Es.
  cbn [deref] in E. rewrite bind_is in E. apply assert_and in E as (Es & _).
  destruct r as [[[h gs] p]|]; [|destruct Sh]. destruct Sh as (Hh & _ & Hp).
  apply (written_frames major minor flags n rs sound) in R; auto. destruct R as (fin & R & Hn & ->).
  destruct (frames_read_ends _ _ _ _ _ _ R) as (Ef & Nf).
  rewrite zlen_app, images_zlen in Ef by (auto; reflexivity). unfold zeros in Ef. rewrite zlen_repeat in Ef.
  destruct rs as [|f rs]; [congruence|]. rewrite images_cons, <- app_assoc in R. apply first_seen in R; [|now inversion K|exact L'].
  specialize (Nf R). pose proof (frames_size_nonneg (f :: rs)). change (2 ^ 28) with 268435456 in B.
  rewrite Hh, Hp, Hn, to_u32_id in Es by lia.
  assert (Q : (n =? 10 + n - fin) = true) by congruence. lia.
Qed.

Lemma remaining_in es : forall rs x f, remaining es rs = Some x -> In f x -> In f rs.
Proof.
  induction es as [|e es IH]; intros rs x f E I; [now injection E as ->|].
  destruct e as [?|?|id|id i]; try discriminate E; cbn [remaining] in E;
    (destruct (first_pos (titled id) rs) as [n|]; [|try discriminate E]); try (eapply IH; eassumption);
    eapply delete_at_incl; eapply IH; eassumption.
Qed.

Section Delete.
  Variables (major minor flags : byte) (fs : list fspec) (pad : Z) (sound : list byte).
  Hypothesis V : known_version major = true.
  Hypothesis X : has_extended_header flags = false.
  Hypothesis K : Forall (fun f => frame_ok f = true /\ readable f = true) fs.
  Hypothesis P : 0 <= pad.
  Hypothesis B : frames_size fs + pad < 2 ^ 28.

  Local Notation original := (Some (tagged_file major minor flags fs pad sound)).

  Lemma whole_oks : oks fs.
  Proof. eapply Forall_impl; [|exact K]. cbn beta. tauto. Qed.

  Lemma delete_runs :
    match remaining delete_edits fs with
    | Some rs => exists t n, kept major minor flags 0 t rs n /\ 0 <= n /\ frames_size rs + n < 2 ^ 28 /\ oks rs /\ t_padding t = pad
        /\ delete_test original = let* (file, _) := ID3v2_write_tag original (Some t) in delete_rest file
    | None => delete_test original = Ub NullDeref
    end.
  Proof.
    destruct (tagged_read major minor flags fs pad sound V X K P B) as (t & Et & Ht & T & Pt).
    pose proof (run_removals major minor flags 0 _ _ delete_calls_mean eq_refl t fs pad (tag_new_kept _ _ _ _ _ _ Ht T) whole_oks P B) as R.
    rewrite (delete_test_is _ _ Et). cbn [or_new].
    destruct (remaining delete_edits fs) as [rs|]; [|now rewrite R].
    destruct R as (t' & n & -> & R1 & R2 & R3 & R4 & R5). exists t', n. cbn [bind]. repeat split; auto; congruence.
  Qed.

  Lemma delete_misses id : In id deleted_ids -> ~ In id (map frame_id fs) -> delete_test original = Ub NullDeref.
  Proof. intros I N. pose proof delete_runs as R. now rewrite (missing_one fs id whole_oks I N) in R. Qed.

  Lemma pad_small : 0 <= pad < 2 ^ 28.
  Proof. pose proof (frames_size_nonneg fs). lia. Qed.

  Lemma delete_empties : remaining delete_edits fs = Some [] -> delete_test original = Ok true <-> untagged (Some sound).
  Proof.
    intros E. pose proof delete_runs as R. rewrite E in R. destruct R as (t & n & (ps & hole & Hl & N & M & D & Hh & Fr) & Pn & Bn & _ & Pt & ->).
    destruct ps; [|discriminate M]. rewrite (N eq_refl) in Hl.
    assert (T : tag_has t (map frame_of [])) by (exists []; repeat split; auto; constructor).
    destruct (tagged_holds major minor flags fs pad sound V X K P B) as (Xc & Au & _).
    change (frames_size []) with 0 in *. rewrite Z.add_0_l in *. pose proof pad_small as S.
    assert (W : ID3v2_write_tag original (Some t) = Ok (Some (tag_bytes major minor flags n [] ++ sound), Some (padded t))).
    { rewrite <- Au at 2. apply (write_file _ t [] major minor flags n 0 Xc T);
        [constructor|exact Hh|change (frames_size []) with 0; lia|lia|].
      rewrite Pt. change (2 ^ 31) with 2147483648. change (2 ^ 28) with 268435456 in S. lia. }
    rewrite W. cbn [bind]. apply rest_empty; try assumption. lia.
  Qed.

  Lemma delete_leaves rs : remaining delete_edits fs = Some rs -> rs <> [] -> delete_test original <> Ok true.
  Proof.
    intros E Nr. pose proof delete_runs as R. rewrite E in R. destruct R as (t & n & (ps & hole & Hl & N & M & D & Hh & Fr) & Pn & Bn & Kr & Pt & ->).
    destruct (tagged_holds major minor flags fs pad sound V X K P B) as (Xc & Au & _).
    pose proof pad_small as Sp. pose proof (frames_size_nonneg rs) as Nn.
    assert (Np : ps <> []) by (intros ->; destruct rs; [congruence|discriminate M]).
    change (2 ^ 28) with 268435456 in *.
    destruct hole; unfold listing in Hl.
    - assert (W : Tag_to_char_stream t = Exit 1).
      { apply (tag_write_hole t ps rs major minor flags (frames_size rs + n) 0); auto; try lia; change (2 ^ 31) with 2147483648; lia. }
      destruct (file_header _ Xc) as (h & Eh & _).
      unfold ID3v2_write_tag. rewrite (write_tag_starts _ t h Eh) by (rewrite Pt; change (2 ^ 31) with 2147483648; lia).
      cbv zeta. rewrite W. discriminate.
    - rewrite app_nil_r in Hl.
      assert (T : tag_has t (map frame_of rs)).
      { exists ps. rewrite list_of_nodes by exact Np. repeat split; auto. }
      rewrite (write_file _ t rs major minor flags (frames_size rs + n) 0 Xc T Kr Hh); try lia;
        try (rewrite Pt; change (2 ^ 31) with 2147483648; change (2 ^ 28) with 268435456 in *; lia).
      cbn [bind]. rewrite Au. apply rest_left; auto; try (change (2 ^ 28) with 268435456; lia).
      destruct rs as [|f rs]; [congruence|]. rewrite frames_size_cons in *. pose proof (frames_size_nonneg rs).
      assert (I : In f fs) by (apply (remaining_in _ _ _ f E); now left).
      rewrite Forall_forall in K. destruct (K f I) as (K1 & K2). pose proof (readable_size f K1 K2). lia.
  Qed.

  Lemma delete_passes : just_those fs -> untagged (Some sound) -> delete_test original = Ok true.
  Proof. intros J U. apply (emptied fs whole_oks) in J. now apply (delete_empties J). Qed.

  Lemma delete_needs : delete_test original = Ok true -> just_those fs /\ untagged (Some sound).
  Proof.
    intros E. destruct (remaining delete_edits fs) as [rs|] eqn:R.
    - destruct rs as [|f rs]; [split; [now apply (emptied fs whole_oks)|now apply (delete_empties R)]|]. exfalso.
      now apply (delete_leaves (f :: rs) R).
    - pose proof delete_runs as Q. rewrite R in Q. congruence.
  Qed.

  Lemma delete_exactly : delete_test original = Ok true <-> just_those fs /\ untagged (Some sound).
  Proof. split; [exact delete_needs|]. intros (J & U). now apply delete_passes. Qed.
End Delete.

Lemma delete_untagged original : untagged original -> delete_test original = Ub NullDeref.
Proof.
  intros U. destruct original as [content|]; [|reflexivity]. pose proof (proj1 (untagged_read _) U) as E.
  rewrite (delete_test_is _ _ E). reflexivity.
Qed.
