(** How much the edits ask for. *)
From Verif Require Import Spec SpecEdit FrameFacts ListFacts EditFacts TagFacts.
From Verif Require Import Oom SpecOom SpecNeed OomFacts OomReadFacts OomCallFacts NeedFacts.
From Coq Require Import Lia ZifyBool ZifyNat.

Lemma y_unlink l : steady (unlink_node_o l). Proof. unfold unlink_node_o. still. Qed.
#[global] Hint Resolve y_unlink : steady.
Lemma y_remove_by_id id : forall l, steady (FrameList_remove_frame_by_id_o l id).
Proof. induction l as [|n l IH]; cbn [FrameList_remove_frame_by_id_o]; still. Qed.
Lemma y_remove p : forall l, steady (FrameList_remove_frame_o l p).
Proof. induction l as [|n l IH]; cbn [FrameList_remove_frame_o]; still. Qed.
Lemma y_get_loop id : forall l sub, steady (get_frames_loop_o l id sub).
Proof. induction l as [|n l IH]; intros sub; cbn [get_frames_loop_o]; still. Qed.
#[global] Hint Resolve y_remove_by_id y_remove y_get_loop : steady.
Lemma y_get_frames l id : steady (FrameList_get_frames_by_id_o l id). Proof. unfold FrameList_get_frames_by_id_o. still. Qed.
#[global] Hint Resolve y_get_frames : steady.
Lemma y_Tag_get_frames t id : steady (ID3v2_Tag_get_frames_o t id). Proof. unfold ID3v2_Tag_get_frames_o. still. Qed.
Lemma y_delete_nth : forall head i index l, steady (delete_nth_loop_o head i index l).
Proof. induction head as [|n r IH]; intros; cbn [delete_nth_loop_o]; still. Qed.
Lemma y_install t e f : steady (install_frame_o t e f). Proof. unfold install_frame_o. still. Qed.
#[global] Hint Resolve y_Tag_get_frames y_delete_nth y_install : steady.
Lemma y_set_text t i : steady (ID3v2_Tag_set_text_frame_o t i). Proof. unfold ID3v2_Tag_set_text_frame_o. still. Qed.
Lemma y_set_comment t i : steady (ID3v2_Tag_set_comment_frame_o t i). Proof. unfold ID3v2_Tag_set_comment_frame_o. still. Qed.
Lemma y_add_comment t i : steady (ID3v2_Tag_add_comment_frame_o t i). Proof. unfold ID3v2_Tag_add_comment_frame_o. still. Qed.
Lemma y_set_apic t i : steady (ID3v2_Tag_set_apic_frame_o t i). Proof. unfold ID3v2_Tag_set_apic_frame_o. still. Qed.
Lemma y_add_apic t i : steady (ID3v2_Tag_add_apic_frame_o t i). Proof. unfold ID3v2_Tag_add_apic_frame_o. still. Qed.
Lemma y_delete_frame t id : steady (ID3v2_Tag_delete_frame_o t id). Proof. unfold ID3v2_Tag_delete_frame_o. still. Qed.
Lemma y_delete_comment t i : steady (ID3v2_Tag_delete_comment_frame_o t i).
Proof. unfold ID3v2_Tag_delete_comment_frame_o, ID3v2_Tag_get_comment_frames_o. still. Qed.
Lemma y_delete_apic t i : steady (ID3v2_Tag_delete_apic_frame_o t i).
Proof. unfold ID3v2_Tag_delete_apic_frame_o, ID3v2_Tag_get_apic_frames_o. still. Qed.
#[global] Hint Resolve y_set_text y_set_comment y_add_comment y_set_apic y_add_apic y_delete_frame y_delete_comment y_delete_apic : steady.
Lemma y_run_call t c : steady (run_call_o t c).
Proof. destruct c; cbn [run_call_o]; unfold set_text_o, ID3v2_Tag_set_comment_o, ID3v2_Tag_set_album_cover_o; auto with steady. Qed.

Lemma agrees_all_any new : forall l, agrees all new l -> granted new = true.
Proof.
  induction new as [|[q g] new IH]; intros l; [reflexivity|]. cbn [agrees granted forallb snd]. unfold all at 1. rewrite orb_true_r. intros [<- H]. now apply (IH l).
Qed.

(** When everything is granted the result is the expected one. *)
Lemma all_expected {A} (m : oom A) o Q l r l' : steady m -> answers m o Q -> m all l = (r, l') -> r = o.
Proof.
  intros Y W E. destruct (Y all l) as (new & E1 & G & _). apply agrees_all_any in G.
  destruct (W all l) as (new' & E2 & H & _). rewrite E1 in E2. apply app_inv_tail in E2. subst new'.
  specialize (H G). now rewrite E in H.
Qed.

Lemma find_existsb {A} (P : A -> bool) l : existsb P l = match find P l with Some _ => true | None => false end.
Proof. induction l as [|a l IH]; [reflexivity|]. cbn [existsb find]. destruct (P a); [reflexivity|exact IH]. Qed.

Section Edits.
  Context (sizeof : request -> Z) (SN : forall r, 0 <= sizeof r).
  Notation bytes := (bytes sizeof).
  Notation total := (total sizeof).
  Notation proper := (proper sizeof).
  Notation spends := (spends sizeof).

  Lemma all_bind_needs {A B} (m : oom A) (f : A -> oom B) o Q l y l' x : steady m -> answers m o Q -> o = Ok x ->
    bindo m f all l = (Ok y, l') -> exists l1, m all l = (Ok x, l1) /\ f x all l1 = (Ok y, l').
  Proof.
    intros Y W -> E. apply all_bind in E. destruct E as (x' & l1 & E1 & E2). pose proof (all_expected _ _ _ _ _ _ Y W E1) as Z.
    injection Z as ->. eauto.
  Qed.

  Lemma made_frame f : match f with FOther _ _ _ => True | _ => frame_bytes sizeof (frame_of f) - 2 * sizeof RFrameHeader = made_bytes sizeof f end.
  Proof.
    unfold frame_bytes, made_bytes, strings_bytes. destruct f; [| | |exact I]; cbn [data_struct frame_of f_data data_bytes td_size cd_size cd_short ad_mime ad_desc ad_picture_size];
      rewrite ?zlen_cells; lia.
  Qed.

  Lemma p_add_list ps p : forall k y k', FrameList_add_frame_o (list_of ps) p all k = (Ok y, k') ->
    total k' = total k + node_for sizeof (map fp_frame ps) /\ (proper k -> proper k').
  Proof.
    intros k y k' E. destruct ps as [|q ps].
    - cbn in E. apply all_ret in E. destruct E as [_ ->]. cbn [map node_for]. split; [lia|auto].
    - unfold FrameList_add_frame_o in E. cbn [list_of map n_start negb] in E. apply all_bind in E. destruct E as (x & l & E1 & E2). apply all_must in E1. subst l.
      apply all_ret in E2. destruct E2 as [_ ->]. cbn [map node_for]. split; [rewrite total_cons; cbn [SpecNeed.bytes]; lia|]. intro. constructor; auto. cbn. apply SN.
  Qed.

  Lemma p_install t ps e f : owns t ps -> forall k y k', install_frame_o t e f all k = (Ok y, k') ->
    total k' = total k + match e with Some _ => 0 | None => node_for sizeof (map fp_frame ps) end /\ (proper k -> proper k').
  Proof.
    intros (Hl & _) k y k' E. unfold install_frame_o in E. destruct e as [q|].
    - apply all_lift in E. destruct E as [_ ->]. split; [lia|auto].
    - cbv zeta in E. rewrite Hl in E. apply all_bind in E. destruct E as (x & l & E1 & E2). apply p_add_list in E1.
      apply all_ret in E2. destruct E2 as [_ ->]. exact E1.
  Qed.

  Lemma p_put t ps c f : owns t ps -> all_sane ps -> means c (Put f) -> frame_ok f = true ->
    forall k y k', run_call_o t c all k = (Ok y, k') ->
    total k' = total k + edit_bytes sizeof (Put f) (map fp_frame ps) /\ (proper k -> proper k').
  Proof.
    intros O S M F k y k' E.
    assert (G : finds t (frame_id f) (find (pnamed (frame_id f)) ps)).
    { apply owns_finds; auto. apply frame_ok_common in F. apply F. }
    assert (N : forall m l, existsb (named (frame_id f)) (map fp_frame ps) = match find (pnamed (frame_id f)) ps with Some _ => true | None => false end
       -> m = made_bytes sizeof f -> forall k1, total k1 = total k + m -> (proper k -> proper k1)
       -> install_frame_o t (find (pnamed (frame_id f)) ps) (frame_of f) all k1 = (Ok y, l) ->
       total l = total k + edit_bytes sizeof (Put f) (map fp_frame ps) /\ (proper k -> proper l)).
    { intros m l X -> k1 T P I. apply (p_install _ ps) in I; [|exact O]. destruct I as [T2 P2]. cbn [edit_bytes]. rewrite X.
      destruct (find _ ps); split; auto; lia. }
    assert (X : existsb (named (frame_id f)) (map fp_frame ps) = match find (pnamed (frame_id f)) ps with Some _ => true | None => false end).
    { rewrite find_existsb, (map_find fp_frame). change (fun a => named (frame_id f) (fp_frame a)) with (pnamed (frame_id f)). now destruct (find _ ps). }
    assert (MF := made_frame f).
    assert (Txt : forall id fl s i g x, f = FText i g x -> points_to id i -> points_to fl g -> points_to s (text_image x) ->
      ID3v2_Tag_set_text_frame_o t (mkTextInput id fl s) all k = (Ok y, k') ->
      total k' = total k + edit_bytes sizeof (Put f) (map fp_frame ps) /\ (proper k -> proper k')).
    { intros id fl s i g x -> Pi (tf & ->) (ts & ->) R. unfold ID3v2_Tag_set_text_frame_o in R. cbn [ti_id ti_flags ti_text] in R.
      assert (Pi' := Pi). destruct Pi as (ti & ->).
      eapply all_bind_needs in R; [|auto with steady|apply n_TextFrame_new|apply TextFrame_new_ok; exact F].
      destruct R as (k1 & R1 & R). apply all_bind in R. destruct R as (e & k2 & R2 & R). apply all_lift in R2. destruct R2 as [R2 ->].
      rewrite (G _ Pi') in R2. injection R2 as <-. apply (p_TextFrame_new sizeof SN) in R1. destruct R1 as [T P].
      eapply N; eauto. }
    assert (Com : forall fl la sd co g l d c, f = FComment g l d c -> points_to fl g -> points_to la l -> points_to sd (text_image d) -> points_to co (text_image c) ->
      ID3v2_Tag_set_comment_frame_o t (mkCommentInput fl la sd co) all k = (Ok y, k') ->
      total k' = total k + edit_bytes sizeof (Put f) (map fp_frame ps) /\ (proper k -> proper k')).
    { intros fl la sd co g l d c' -> (tf & ->) (tl & ->) (ts & ->) (tc & ->) R. unfold ID3v2_Tag_set_comment_frame_o in R.
      cbn [ci_flags ci_language ci_short_description ci_comment] in R.
      eapply all_bind_needs in R; [|auto with steady|apply n_CommentFrame_new|apply CommentFrame_new_ok; exact F].
      destruct R as (k1 & R1 & R). apply all_bind in R. destruct R as (e & k2 & R2 & R). apply all_lift in R2. destruct R2 as [R2 ->].
      change (FrameList_get_frame_by_id (t_frames t) (clit "COMM") = Ok e) in R2. rewrite (G _ (points_to_lit "COMM")) in R2. injection R2 as <-.
      apply (p_CommentFrame_new sizeof SN) in R1. destruct R1 as [T P]. eapply N; eauto. }
    assert (Pic : forall fl mi de ty da g m d pic, f = FPicture g m ty d pic -> points_to fl g -> points_to mi (text_image m) -> points_to de (text_image d) -> points_to da pic ->
      ID3v2_Tag_set_apic_frame_o t (mkApicInput fl mi de ty (zlen pic) da) all k = (Ok y, k') ->
      total k' = total k + edit_bytes sizeof (Put f) (map fp_frame ps) /\ (proper k -> proper k')).
    { intros fl mi de ty da g m d pic -> (tf & ->) (tm & ->) (td & ->) (tp & ->) R. unfold ID3v2_Tag_set_apic_frame_o in R.
      cbn [ai_flags ai_description ai_picture_type ai_mime_type ai_picture_size ai_data] in R.
      eapply all_bind_needs in R; [|auto with steady|apply n_ApicFrame_new|apply ApicFrame_new_ok; [exact F|reflexivity]].
      destruct R as (k1 & R1 & R). apply all_bind in R. destruct R as (e & k2 & R2 & R). apply all_lift in R2. destruct R2 as [R2 ->].
      change (FrameList_get_frame_by_id (t_frames t) (clit "APIC") = Ok e) in R2. rewrite (G _ (points_to_lit "APIC")) in R2. injection R2 as <-.
      apply (p_ApicFrame_new sizeof SN) in R1. destruct R1 as [T P]. eapply N; eauto. }
    inversion M; subst; cbn [run_call_o] in E; unfold set_text_o, ID3v2_Tag_set_comment_o, ID3v2_Tag_set_album_cover_o in E;
      first [eapply Txt; [reflexivity| | | |exact E]|eapply Com; [reflexivity| | | | |exact E]|eapply Pic; [reflexivity| | | | |exact E]];
      first [assumption|apply points_to_lit|apply points_to_no_flags|apply points_to_empty].
  Qed.

  Lemma p_append t ps c f : owns t ps -> means c (Append f) -> frame_ok f = true ->
    forall k y k', run_call_o t c all k = (Ok y, k') ->
    total k' = total k + edit_bytes sizeof (Append f) (map fp_frame ps) /\ (proper k -> proper k').
  Proof.
    intros O M F k y k' E. assert (MF := made_frame f). cbn [edit_bytes].
    inversion M; subst; cbn [run_call_o] in E; repeat match goal with H : points_to _ _ |- _ => destruct H as (? & ->) end.
    - unfold ID3v2_Tag_add_comment_frame_o in E. cbn [ci_flags ci_language ci_short_description ci_comment] in E.
      eapply all_bind_needs in E; [|auto with steady|apply n_CommentFrame_new|apply CommentFrame_new_ok; exact F].
      destruct E as (k1 & R1 & R). apply (p_CommentFrame_new sizeof SN) in R1. destruct R1 as [T P].
      apply (p_install _ ps) in R; [|exact O]. destruct R as [T2 P2]. split; [lia|auto].
    - unfold ID3v2_Tag_add_apic_frame_o in E. cbn [ai_flags ai_description ai_picture_type ai_mime_type ai_picture_size ai_data] in E.
      eapply all_bind_needs in E; [|auto with steady|apply n_ApicFrame_new|apply ApicFrame_new_ok; [exact F|reflexivity]].
      destruct E as (k1 & R1 & R). apply (p_ApicFrame_new sizeof SN) in R1. destruct R1 as [T P].
      apply (p_install _ ps) in R; [|exact O]. destruct R as [T2 P2]. split; [lia|auto].
  Qed.

  (** ** Removing *)

  Lemma p_unlink l k y k' : unlink_node_o l all k = (Ok y, k') ->
    total k' = total k + match l with [] => sizeof RNode | _ => 0 end /\ (proper k -> proper k').
  Proof.
    intros E. destruct l; cbn [unlink_node_o] in E.
    - apply all_bind in E. destruct E as (x & l & E1 & E2). apply all_must in E1. subst l. apply all_ret in E2. destruct E2 as [_ ->].
      split; [rewrite total_cons; cbn [SpecNeed.bytes]; lia|]. intro. constructor; auto. cbn. apply SN.
    - apply all_ret in E. destruct E as [_ ->]. split; [lia|auto].
  Qed.

  (** [last_node] on the pointers. *)
  Definition last_p {A} (pos : option nat) (ps : list A) : Z :=
    match pos with Some k => if (S k =? length ps)%nat then sizeof RNode else 0 | None => 0 end.
  Lemma last_p_map pos (ps : list fptr) : last_node sizeof pos (map fp_frame ps) = last_p pos ps.
  Proof. unfold last_node, last_p. now rewrite map_length. Qed.
  Lemma last_p_S {A} pos (p : A) ps : last_p (option_map S pos) (p :: ps) = last_p pos ps.
  Proof. now destruct pos. Qed.
  Lemma last_p_O {A} (p : A) ps : last_p (Some O) (p :: ps) = match ps with [] => sizeof RNode | _ => 0 end.
  Proof. now destruct ps. Qed.

  Lemma p_remove_by_id arg id ps : all_sane ps -> points_to arg id -> length id = 4%nat ->
    forall k y k', FrameList_remove_frame_by_id_o (nodes ps) arg all k = (Ok y, k') ->
    total k' = total k + last_p (first_pos (pnamed id) ps) ps /\ (proper k -> proper k').
  Proof.
    intros H P L. induction H as [|p ps Hp H IH]; intros k y k' E.
    - cbn in E. apply all_ret in E. destruct E as [_ ->]. cbn. split; [lia|auto].
    - cbn [nodes map FrameList_remove_frame_by_id_o fnode n_frame first_pos] in *.
      apply all_bind in E. destruct E as (x & l & E1 & E). apply all_lift in E1. destruct E1 as [E1 ->]. injection E1 as <-.
      apply all_bind in E. destruct E as (m & l & E1 & E). apply all_lift in E1. destruct E1 as [E1 ->].
      rewrite (id_matches_ok _ _ id) in E1 by auto. injection E1 as <-. unfold pnamed at 1. destruct (named id (fp_frame p)).
      + apply all_bind in E. destruct E as (r & l & E1 & E). apply p_unlink in E1. apply all_ret in E. destruct E as [_ ->].
        rewrite last_p_O. destruct ps; exact E1.
      + apply all_bind in E. destruct E as ([r rest'] & l & E1 & E). apply all_ret in E. destruct E as [_ ->]. rewrite last_p_S.
        exact (IH _ _ _ E1).
  Qed.

  Lemma p_remove_ptr n p : forall ps, NoDup (map fp_addr ps) -> nth_error ps n = Some p ->
    forall k y k', FrameList_remove_frame_o (nodes ps) (Some p) all k = (Ok y, k') ->
    total k' = total k + last_p (Some n) ps /\ (proper k -> proper k').
  Proof.
    revert n. intros n ps. revert n. induction ps as [|q ps IH]; intros [|n] D E k y k' R; try discriminate E.
    - injection E as ->. cbn [nodes map FrameList_remove_frame_o fnode n_frame same_ptr addr_of option_map] in R. rewrite Nat.eqb_refl in R.
      apply all_bind in R. destruct R as (r & l & E1 & R). apply p_unlink in E1. apply all_ret in R. destruct R as [_ ->].
      rewrite last_p_O. destruct ps; exact E1.
    - cbn [nth_error] in E. cbn [map] in D. inversion D as [|? ? Hq D']; subst.
      cbn [nodes map FrameList_remove_frame_o fnode n_frame same_ptr addr_of option_map] in R.
      destruct (Nat.eqb_spec (fp_addr q) (fp_addr p)) as [Q|Q].
      + destruct Hq. rewrite Q. apply in_map. now apply nth_error_In in E.
      + apply all_bind in R. destruct R as ([r rest'] & l & E1 & R). apply all_ret in R. destruct R as [_ ->].
        change (Some (S n)) with (option_map S (Some n)). rewrite last_p_S. exact (IH n D' E _ _ _ E1).
  Qed.

  Lemma p_remove_null ps : forall k y k', FrameList_remove_frame_o (nodes ps) None all k = (Ok y, k') -> k' = k.
  Proof.
    induction ps as [|q ps IH]; intros k y k' R.
    - cbn in R. now apply all_ret in R.
    - cbn [nodes map FrameList_remove_frame_o fnode n_frame same_ptr addr_of option_map] in R.
      apply all_bind in R. destruct R as ([r rest'] & l & E1 & R). apply all_ret in R. destruct R as [_ ->]. exact (IH _ _ _ E1).
  Qed.

  Lemma p_get_nodes arg id ps : all_sane ps -> points_to arg id -> length id = 4%nat ->
    forall acc k y k', get_frames_loop_o (nodes ps) arg (list_of acc) all k = (Ok y, k') ->
    total k' = total k + sizeof RNode * (Z.max 1 (zlen (acc ++ filter (pnamed id) ps)) - Z.max 1 (zlen acc)) /\ (proper k -> proper k').
  Proof.
    intros H P L. induction H as [|p ps Hp H IH]; intros acc k y k' E.
    - cbn in E. apply all_ret in E. destruct E as [_ ->]. cbn [filter]. rewrite app_nil_r. split; [lia|auto].
    - cbn [nodes map get_frames_loop_o fnode n_frame filter] in *.
      apply all_bind in E. destruct E as (m & l & E1 & E). apply all_lift in E1. destruct E1 as [E1 ->].
      rewrite (id_matches_ok _ _ id) in E1 by auto. injection E1 as <-. unfold pnamed at 1. destruct (named id (fp_frame p)).
      + apply all_bind in E. destruct E as (sub & l & E1 & E). assert (A : sub = list_of (acc ++ [p])).
        { assert (Z := all_expected _ _ _ _ _ _ (y_add _ _) (n_add_frame (list_of acc) p) E1). rewrite add_frame_list in Z. congruence. }
        subst sub. apply p_add_list in E1. destruct E1 as [T1 P1]. apply IH in E. destruct E as [T2 P2].
        split; [|auto]. rewrite <- app_assoc in T2. cbn [app] in T2.
        assert (Zn : node_for sizeof (map fp_frame acc) = sizeof RNode * (Z.max 1 (zlen (acc ++ [p])) - Z.max 1 (zlen acc))).
        { unfold zlen. rewrite app_length. cbn [length]. destruct acc; cbn [map node_for length]; [lia|].
          replace (Z.max _ _ - Z.max _ _) with 1 by lia. lia. }
        rewrite Zn in T1. set (a := Z.max 1 (zlen (acc ++ p :: filter (pnamed id) ps))) in *. set (b := Z.max 1 (zlen (acc ++ [p]))) in *.
        set (c := Z.max 1 (zlen acc)) in *. nia.
      + exact (IH _ _ _ _ E).
  Qed.

  Lemma delete_nth_nodes sub frames : forall i index, i <= index ->
    forall k y k', delete_nth_loop_o (nodes sub) i index frames all k = (Ok y, k') ->
    match nth_error sub (Z.to_nat (index - i)) with
    | Some p => exists y' , FrameList_remove_frame_o frames (Some p) all k = (Ok y', k')
    | None => k' = k
    end.
  Proof.
    induction sub as [|p sub IH]; intros i index H k y k' E.
    - cbn in E. apply all_ret in E. destruct (Z.to_nat _); cbn; tauto.
    - cbn [nodes map delete_nth_loop_o fnode n_frame] in E. destruct (Z.eqb_spec i index) as [->|N].
      + rewrite Z.sub_diag. cbn [Z.to_nat nth_error]. apply all_bind in E. destruct E as ([r l2] & l & E1 & E). apply all_ret in E. destruct E as [_ ->]. eauto.
      + fold (nodes sub) in E. apply IH in E; [|lia]. replace (Z.to_nat (index - i)) with (S (Z.to_nat (index - (i + 1)))) by lia. exact E.
  Qed.
  Lemma delete_nth_neg sub frames : forall i index, index < i ->
    forall k y k', delete_nth_loop_o sub i index frames all k = (Ok y, k') -> k' = k.
  Proof.
    induction sub as [|p sub IH]; intros i index H k y k' E; cbn [delete_nth_loop_o] in E.
    - now apply all_ret in E.
    - replace (i =? index) with false in E by lia. apply IH in E; [exact E|lia].
  Qed.

  Lemma p_delete_nth t ps arg id i : owns t ps -> all_sane ps -> points_to arg id -> length id = 4%nat ->
    forall k y k', (let# head := ID3v2_Tag_get_frames_o (Some t) arg in
           let# frames := delete_nth_loop_o head 0 i (t_frames t) in
           ret (mkTag (t_header t) frames (t_padding t) (t_fresh t))) all k = (Ok y, k') ->
    total k' = total k + edit_bytes sizeof (RemoveNth id i) (map fp_frame ps) /\ (proper k -> proper k').
  Proof.
    intros (Hl & D & _) S P L k y k' E.
    eapply all_bind_needs in E; [|auto with steady|apply a_listing|cbn [ID3v2_Tag_get_frames]; rewrite Hl; apply (get_frames_list_of arg id); auto].
    destruct E as (k1 & E1 & E). apply all_bind in E. destruct E as (fr & k2 & E2 & E). apply all_ret in E. destruct E as [_ ->].
    cbn [ID3v2_Tag_get_frames_o] in E1. rewrite Hl in *. unfold FrameList_get_frames_by_id_o, FrameList_new_o in E1.
    apply all_bind in E1. destruct E1 as (s0 & l1 & E3 & E1). apply all_bind in E3. destruct E3 as (b & l2 & E3 & E4).
    apply all_ask in E3. destruct E3 as [-> ->]. apply all_ret in E4. destruct E4 as [-> ->].
    cbn [edit_bytes victim_pos]. rewrite last_p_map, (map_nth_pos fp_frame). change (fun a => named id (fp_frame a)) with (pnamed id).
    assert (Zf : zlen (filter (named id) (map fp_frame ps)) = zlen (filter (pnamed id) ps)).
    { rewrite <- (map_filter_g fp_frame). unfold zlen. now rewrite map_length. }
    rewrite Zf. replace (zlen (map fp_frame ps)) with (zlen ps) by (unfold zlen; now rewrite map_length).
    destruct ps as [|p ps].
    - (* no frame at all *)
      cbn in E1. apply all_ret in E1. destruct E1 as [_ ->]. cbn [filter list_of] in *. change (FrameList_new) with [empty_node] in E2.
      cbn [delete_nth_loop_o empty_node n_frame] in E2. change (zlen (@nil fptr)) with 0. cbn [Z.eqb andb nth_pos last_p].
      rewrite Z.max_l by lia. rewrite (Z.eqb_sym i 0). destruct (0 =? i).
      + cbn [FrameList_remove_frame_o same_ptr addr_of option_map] in E2. apply all_bind in E2. destruct E2 as ([r l2] & l & E5 & E2).
        apply all_ret in E2. destruct E2 as [_ ->].
        change (same_ptr (n_frame (mkNode None false)) None) with true in E5. cbn iota in E5. apply all_bind in E5. destruct E5 as (r2 & l3 & E5 & E6). apply all_ret in E6. destruct E6 as [_ ->].
        apply (p_unlink []) in E5. destruct E5 as [T Q]. rewrite total_cons in T. cbn [SpecNeed.bytes] in T. split; [lia|].
        intro. apply Q. constructor; auto. cbn. apply SN.
      + apply all_ret in E2. destruct E2 as [_ ->]. rewrite total_cons. cbn [SpecNeed.bytes]. split; [lia|]. intro. constructor; auto. cbn. apply SN.
    - rewrite (list_of_nodes (p :: ps)) in E1, E2 by discriminate. cbn iota in E1. change FrameList_new with (list_of []) in E1.
      apply (p_get_nodes arg id) in E1; auto. destruct E1 as [T1 P1]. rewrite total_cons in T1. cbn [SpecNeed.bytes app] in T1.
      change (zlen (@nil fptr)) with 0 in T1.
      assert (Q1 : proper k -> proper k1) by (intro; apply P1; constructor; auto; cbn; apply SN).
      replace (zlen (p :: ps) =? 0) with false by (unfold zlen; cbn [length]; lia). cbn [andb].
      set (cnt := Z.max 1 (zlen (filter (pnamed id) (p :: ps)))) in *. change (Z.max 1 0) with 1 in T1.
      assert (Z2 : total k2 = total k1 + last_p (nth_pos (pnamed id) i (p :: ps)) (p :: ps) /\ (proper k1 -> proper k2)).
      { destruct (Z.ltb_spec i 0) as [I|I].
        - apply delete_nth_neg in E2; [|lia]. subst k2. rewrite nth_pos_neg by lia. cbn [last_p]. split; [lia|auto].
        - destruct (filter (pnamed id) (p :: ps)) as [|q sub] eqn:Fl.
          + assert (NP : nth_pos (pnamed id) i (p :: ps) = None).
            { destruct (nth_pos (pnamed id) i (p :: ps)) as [n|] eqn:Np; [|reflexivity]. exfalso. apply nth_pos_lt in Np. destruct Np as (a & Na & Pa).
              apply nth_error_In in Na. assert (In a (filter (pnamed id) (p :: ps))) by now apply filter_In. rewrite Fl in *. contradiction. }
            rewrite NP. cbn [last_p]. cbn [list_of] in E2. change FrameList_new with [empty_node] in E2. cbn [delete_nth_loop_o empty_node n_frame] in E2. destruct (0 =? i).
            * apply all_bind in E2. destruct E2 as ([r l2] & l & E5 & E2). apply all_ret in E2. destruct E2 as [_ ->]. apply p_remove_null in E5. subst. split; [lia|auto].
            * apply all_ret in E2. destruct E2 as [_ ->]. split; [lia|auto].
          + rewrite (list_of_nodes (q :: sub)) in E2 by discriminate. rewrite <- Fl in E2. apply delete_nth_nodes in E2; [|lia]. rewrite Z.sub_0_r, nth_filter in E2 by lia.
            destruct (nth_pos (pnamed id) i (p :: ps)) as [n|] eqn:Np.
            * destruct (nth_error (p :: ps) n) as [a|] eqn:Na; [|apply nth_pos_lt in Np; destruct Np as (? & C & _); congruence].
              destruct E2 as (y' & E2). now apply (p_remove_ptr n a) in E2.
            * subst k2. cbn [last_p]. split; [lia|auto]. }
      destruct Z2 as [T2 P2]. split; [|auto]. replace (sizeof RNode * cnt) with (sizeof RNode + sizeof RNode * (cnt - 1)) by lia. lia.
  Qed.

  Lemma need_edit t fs c e t' : tag_has t fs -> Forall sane fs -> means c e -> edit_ok e = true -> run_call t c = Ok t' ->
    takes sizeof (run_call_o t c) (Ok t') (edit_bytes sizeof e fs).
  Proof.
    intros H S M K R. apply tag_has_owns in H. destruct H as (ps & O & <-). apply all_sane_map in S.
    assert (W : exists Q, answers (run_call_o t c) (Ok t') Q).
    { rewrite <- R. destruct (by_index c) eqn:B; eexists; [now apply a_by_index|now apply n_run_call]. }
    destruct W as (Q & W). apply (takes_one sizeof SN (run_call_o t c) t' Q (edit_bytes sizeof e (map fp_frame ps)) (y_run_call t c) W). intros new E.
    assert (G : total new = total [] + edit_bytes sizeof e (map fp_frame ps) /\ (proper [] -> proper new)).
    { destruct e as [f|f|id|id i]; cbn [edit_ok] in K.
      - eapply p_put; eauto.
      - eapply p_append; eauto.
      - assert (exists arg, points_to arg id /\ length id = 4%nat /\ run_call t c = ID3v2_Tag_delete_frame t arg /\ run_call_o t c = ID3v2_Tag_delete_frame_o t arg) as (arg & P & L & R1 & R2).
        { inversion M; subst; cbn [run_call run_call_o]; eauto;
            (eexists; split; [|split; [|split]]; [| |reflexivity|reflexivity]; [apply points_to_lit|reflexivity]). }
        rewrite R2 in E. unfold ID3v2_Tag_delete_frame_o in E. destruct O as (Hl & O'). rewrite Hl in E.
        apply all_bind in E. destruct E as ([r l2] & l & E1 & E). apply all_bind in E. destruct E as (p & l3 & E2 & E). apply all_lift in E2. destruct E2 as [E2 ->].
        apply all_bind in E. destruct E as (n & l3 & E3 & E). apply all_lift in E3. destruct E3 as [E3 ->]. apply all_ret in E. destruct E as [_ ->].
        cbn [edit_bytes victim_pos]. rewrite last_p_map, (map_first_pos fp_frame).
        destruct ps as [|q ps]; [cbn in E1; discriminate E1|].
        rewrite list_of_nodes in E1 by discriminate. now apply (p_remove_by_id arg id) in E1.
      - assert (length id = 4%nat /\ exists arg, points_to arg id /\ run_call_o t c = let# head := ID3v2_Tag_get_frames_o (Some t) arg in
           let# frames := delete_nth_loop_o head 0 i (t_frames t) in
           ret (mkTag (t_header t) frames (t_padding t) (t_fresh t))) as (L & arg & P & R2).
        { inversion M; subst; (split; [reflexivity|]); (eexists; split; [|cbn [run_call_o]; reflexivity]); apply points_to_lit. }
        rewrite R2 in E. eapply p_delete_nth; eauto. }
    destruct G as [T P]. split; [exact T|apply P; constructor].
  Qed.
End Edits.

Section New.
  Context (sizeof : request -> Z) (SN : forall r, 0 <= sizeof r).

  Lemma need_new : takes sizeof ID3v2_Tag_new_empty_o (Ok (Whole ID3v2_Tag_new_empty)) (sizeof RTag + sizeof RTagHeader + sizeof RNode).
  Proof.
    pose proof (SN RTag). pose proof (SN RTagHeader). pose proof (SN RNode).
    unfold ID3v2_Tag_new_empty_o, ID3v2_Tag_new_o, TagHeader_new_empty_o, TagHeader_new_o, FrameList_new_o, bindo, ask, used, ret, lift. split.
    - intros M S. cbn [no_bytes orb]. cbv zeta. 
      assert (A : M [] RTag = true) by (apply S; cbn [SpecNeed.bytes total fold_right fst snd]; lia).
      assert (B : M [(RTag, true)] RTagHeader = true) by (apply S; cbn [SpecNeed.bytes total fold_right fst snd]; lia).
      assert (C : M [(RTagHeader, true); (RTag, true)] RNode = true) by (apply S; cbn [SpecNeed.bytes total fold_right fst snd]; lia).
      rewrite A, B. cbn [fst snd]. rewrite ?B, C. cbn [fst snd granted forallb andb SpecNeed.bytes total fold_right]. repeat split. lia.
    - intros n L. cbn [no_bytes orb]. cbv zeta.
      destruct (limited sizeof n [] RTag) eqn:A; [|destruct (limited sizeof n [(RTag, false)] RTagHeader); reflexivity].
      destruct (limited sizeof n [(RTag, true)] RTagHeader) eqn:B; cbn [fst snd]; [|destruct (limited _ _ _ RNode); reflexivity].
      destruct (limited sizeof n [(RTagHeader, true); (RTag, true)] RNode) eqn:C; cbn [fst snd]; [|reflexivity].
      unfold limited in C. cbn [SpecNeed.bytes total fold_right fst snd] in C. exfalso. lia.
  Qed.

  Lemma need_unicode p r : ID3v2_to_unicode p = Ok r ->
    takes sizeof (ID3v2_to_unicode_o p) (Ok r) (match r with SamePointer => 0 | Fresh m => zlen m end).
  Proof.
    intros E. unfold ID3v2_to_unicode_o. rewrite E. unfold bindo, lift, must, bindo, ask, used, ret. destruct r as [|m]; split.
    - now repeat split.
    - intros n L. lia.
    - intros M S. cbv zeta. rewrite S by (cbn; lia). rewrite orb_true_r. repeat split. cbn [fst snd SpecNeed.bytes total fold_right]. lia.
    - intros n L. cbv zeta. unfold limited. cbn [SpecNeed.bytes total fold_right no_bytes].
      replace (zlen m =? 0) with false by lia. replace (0 + zlen m <=? n) with false by lia. reflexivity.
  Qed.
End New.
