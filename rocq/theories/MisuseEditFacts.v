(** A text frame set under any id, as a value; writing it. *)
From Verif Require Import File Calls Spec SpecEdit SpecHeap SpecMisuse EditFacts FrameFacts WriteFacts.
From Verif Require Import Heap HeapFrameFacts.
From Coq Require Import Lia.

Lemma text_frame_any id fl t ti tf tt :
  length id = 4%nat -> length fl = 2%nat -> text_ok t = true -> zlen (text_image t) + 11 < 2 ^ 31 ->
  TextFrame_new (Some (cells id ++ ti)) (Some (cells fl ++ tf)) (Some (cells (text_image t) ++ tt))
  = Ok (frame_of (FText id fl t)).
Proof.
  intros Hi Hf Ht Hs. unfold TextFrame_new. pose proof (text_image_pos t).
  rewrite TextFrameData_new_ok by (auto; lia). go. cbn [td_size].
  change ID3v2_FRAME_ENCODING_LENGTH with 1. rewrite iadd_ok by lia. go.
  rewrite FrameHeader_new_ok by auto. go. unfold frame_of. cbn [frame_id frame_flags].
  now rewrite body_size_text.
Qed.

Lemma set_text_any t fs id fl s i f x : tag_has t fs -> Forall sane fs ->
  points_to id i -> points_to fl f -> points_to s (text_image x) ->
  length i = 4%nat -> length f = 2%nat -> text_ok x = true -> zlen (text_image x) + 11 < 2 ^ 31 ->
  exists t' p, ID3v2_Tag_set_text_frame t (mkTextInput id fl s) = Ok t'
    /\ tag_has t' (put (named i) (frame_of (FText i f x)) fs)
    /\ ID3v2_Tag_get_frame (Some t') id = Ok (Some p) /\ fp_frame p = frame_of (FText i f x).
Proof.
  intros T Sa Pi Pf Ps Li Lf Ht Hs. apply tag_has_owns in T as (ps & O & <-).
  assert (Sp : all_sane ps) by (unfold all_sane; now rewrite Forall_map in Sa).
  set (fsp := FText i f x) in *.
  assert (Hb : 0 <= body_size fsp /\ body_size fsp + 10 < 2 ^ 31).
  { split; [apply body_size_nonneg|]. unfold fsp. rewrite body_size_text. lia. }
  assert (Sf : sane (frame_of fsp)).
  { split; [exists i; auto|]. cbn [frame_of f_hdr fh_size]. lia. }
  assert (G := owns_finds t ps i O Sp Li id Pi).
  unfold ID3v2_Tag_set_text_frame. cbn [ti_id ti_flags ti_text]. rewrite G.
  destruct Pf as (tf & ->), Ps as (ts & ->). pose proof Pi as Pi'. destruct Pi as (ti & ->).
  rewrite text_frame_any by auto. cbn [bind]. fold fsp.
  assert (E : install_frame t (find (pnamed i) ps) (frame_of fsp)
    = Ok (mkTag (with_tag_size (t_header t) (th_tag_size (t_header t) + size_delta (Put fsp) (map fp_frame ps)))
              (list_of (pput fsp (t_fresh t) ps)) (t_padding t) (S (t_fresh t)))).
  { pose proof O as (Hl & D & B). cbn [size_delta]. rewrite (map_find fp_frame (named (frame_id fsp))).
    change (fun a => named (frame_id fsp) (fp_frame a)) with (pnamed i). change (frame_id fsp) with i.
    unfold install_frame, pput. rewrite Hl. change (frame_id fsp) with i.
    destruct (find (pnamed i) ps) as [e|] eqn:E; cbn [option_map size_of_opt].
    - destruct ps as [|p ps]; [discriminate E|]. rewrite list_of_nodes by discriminate.
      rewrite (replace_first (pnamed i)) by auto.
      assert (He : sane (fp_frame e)) by (unfold all_sane in Sp; rewrite Forall_forall in Sp; apply Sp; apply find_some in E; tauto).
      destruct He as (_ & He). cbn [frame_of f_hdr fh_size]. rewrite isub_ok by lia. go.
      unfold with_frames. now rewrite list_of_nodes by apply put_not_nil.
    - rewrite add_frame_list. go. cbn [frame_of f_hdr fh_size]. unfold with_frames.
      rewrite put_none by auto. now rewrite Z.sub_0_r. }
  rewrite E.
  set (t' := mkTag _ _ _ _).
  assert (O' : owns t' (pput fsp (t_fresh t) ps)) by (apply put_owns; exact O).
  assert (M : map fp_frame (pput fsp (t_fresh t) ps) = put (named i) (frame_of fsp) (map fp_frame ps)).
  { unfold pput. change (frame_id fsp) with i. generalize (t_fresh t). intros n. clear -fsp. induction ps as [|p ps IH]; [reflexivity|].
    cbn [put map]. unfold pnamed at 1. destruct (named i (fp_frame p)); cbn [map]; [reflexivity|]. now rewrite IH. }
  assert (S' : all_sane (pput fsp (t_fresh t) ps)).
  { unfold pput. clear -Sp Sf. induction Sp as [|p ps Hp H IH]; cbn [put].
    - constructor; [exact Sf|constructor].
    - destruct (pnamed (frame_id fsp) p); constructor; auto. }
  assert (Fp := owns_finds t' _ i O' S' Li _ Pi'). unfold pput in Fp.
  rewrite find_put in Fp by apply named_frame_of.
  exists t', (t_fresh t, frame_of fsp). split; [reflexivity|]. split; [|split; [exact Fp|reflexivity]].
  apply tag_has_owns. eauto.
Qed.

(** ** Writing *)

Lemma misfiled_stream f : misfiled f -> Frame_to_char_stream (Some f) = Ub TypeConfusion.
Proof.
  intros (c & r & Ei & St). unfold Frame_to_char_stream.
  unfold FrameHeader_isTextFrame, FrameHeader_isCommentFrame, FrameHeader_isApicFrame.
  rewrite !(id0 _ _ _ _ Ei). cbn [bind]. unfold stands_for, known in St.
  destruct (beq c "T") eqn:Bt, (beq c "C") eqn:Bc, (beq c "A") eqn:Ba, (f_data f); cbn [orb negb] in *; congruence.
Qed.

Lemma misfiled_frames f : misfiled f -> forall l s s', In f (visible l) -> write_frames s l = Ok s' -> False.
Proof.
  intros M. induction l as [|n l IH]; intros s s' I E; [destruct I|]. cbn [visible write_frames] in *.
  destruct (n_frame n) as [p|]; [|destruct I]. cbn [option_map] in E. binv E. destruct I as [<-|I].
  - rewrite misfiled_stream in E0 by exact M. discriminate.
  - destruct v; [|discriminate]. binv E. eapply IH; eassumption.
Qed.

Lemma misfiled_write t f : misfiled f -> In f (visible (t_frames t)) -> forall cs, Tag_to_char_stream t <> Ok cs.
Proof.
  intros M I cs E. rewrite tag_write_start in E. binv E. destruct (t_frames t) as [|n l] eqn:El; [destruct I|].
  destruct (n_frame n) as [p|] eqn:En; [|cbn [visible] in I; rewrite En in I; destruct I].
  exact (misfiled_frames f M (n :: l) _ _ I E).
Qed.

Lemma misfiled_file t f fi : misfiled f -> In f (visible (t_frames t)) -> forall r, ID3v2_write_tag_states fi (Some t) <> Ok r.
Proof.
  intros M I r E. unfold ID3v2_write_tag_states in E. do 4 binv E.
  eapply (misfiled_write (mkTag (t_header t) (t_frames t) v1 (t_fresh t))); [exact M|exact I|exact E3].
Qed.
