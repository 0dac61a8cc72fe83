(** What the examples of README.md do. *)
From Verif Require Import BaseFacts UtilsFacts StreamFacts FrameFacts HeaderFacts TagFacts WriteFacts.
From Verif Require Import Readme Spec SpecEdit SpecFile SpecRead SpecSession SpecForeign SpecTests SpecPrint SpecReadme.
From Verif Require Import ListFacts EditFacts HistFacts ClaimFacts FileFacts ReadFacts SessionFacts RewriteFacts CutFacts ForeignFacts.
From Verif Require Import CompatFacts TestFacts TestRunFacts TestLargeFacts TestEditFacts TestDeleteFacts PrintFacts.
From Coq Require Import Lia ZifyBool ZifyNat.

(** ** Showing texts *)

Lemma string_seen l tail : c_string (cells (l ++ [x00]) ++ tail) = Ok (to_zero l).
Proof.
  induction l as [|b l IH]; [reflexivity|]. cbn [app cells map c_string to_zero]. fold (cells (l ++ [x00])).
  change (is_zero b) with (beq b x00). destruct (beq b x00); [reflexivity|]. now rewrite IH.
Qed.

Lemma to_zero_end l z : to_zero (l ++ [x00]) = to_zero l /\ (to_zero (l ++ [x00; z]) = to_zero l).
Proof. induction l as [|b l IH]; [split; reflexivity|]. cbn [app to_zero]. destruct (is_zero b); [auto|]. now rewrite (proj1 IH), (proj2 IH). Qed.

Lemma text_seen t : c_string (cells (text_image t)) = Ok (seen_of t).
Proof.
  unfold seen_of, text_image. destruct t as [cs|be us]; cbn [text_bytes text_end].
  - rewrite <- (app_nil_r (cells _)), string_seen. now rewrite (proj1 (to_zero_end cs x00)).
  - set (l := bom_bytes be ++ _). rewrite (proj2 (to_zero_end l x00)).
    replace (cells (l ++ [x00; x00])) with (cells (l ++ [x00]) ++ cells [x00]) by (unfold cells; now rewrite <- map_app, <- app_assoc).
    apply string_seen.
Qed.

Lemma printf_none label : printf_text label None = Ub NullDeref.
Proof. reflexivity. Qed.

Lemma printf_first label id t ps : t_frames t = list_of ps -> Forall part (map fp_frame ps) -> id_starts id "T" = true ->
  match find (named id) (map fp_frame ps) with
  | None => printf_text label (find (fun p => named id (fp_frame p)) ps) = Ub NullDeref
  | Some _ => exists out, printf_text label (find (fun p => named id (fp_frame p)) ps) = Ok out /\ shows label id (map fp_frame ps) out
  end.
Proof.
  intros Hl P T. unfold printf_text. rewrite find_frame. destruct (find (named id) (map fp_frame ps)) as [g|] eqn:F; [|reflexivity].
  cbn [deref bind]. pose proof F as F0. apply find_some in F. destruct F as (I & N).
  destruct (part_text id g) as (tx & K & i & fl & S & ->); auto.
  { now apply (proj1 (Forall_forall _ _) P). }
  cbn [frame_of f_data td_text]. rewrite text_seen. cbn [bind].
  eexists. split; [reflexivity|]. exists (frame_of (FText i fl tx)), tx. split; [exact F0|]. split; [|reflexivity].
  split; [exact K|]. exists i, fl. auto.
Qed.

Lemma read_tag_known content h gs pad : file_read content (Some (h, gs, pad)) ->
  exists t ps, ID3v2_read_tag (Some content) = Ok (Some t) /\ t_frames t = list_of ps /\ map fp_frame ps = gs
    /\ t_header t = h /\ t_padding t = pad /\ tag_has t gs.
Proof.
  intros R. destruct (read_file_exactly content) as [(r & ot & R' & Et & Sh)|(Nr & _)]; [|now apply Nr in R].
  pose proof (file_read_once _ _ _ R R') as <-. destruct ot as [t|]; [|destruct Sh]. destruct Sh as (Ht & T & Pt).
  pose proof T as (ps & Hl & Hg & _). exists t, ps. auto 10.
Qed.

Lemma load_is content h gs pad : file_read content (Some (h, gs, pad)) -> Forall sane gs ->
  if existsb (named (lit "TPE1")) gs && existsb (named (lit "TALB")) gs
  then exists a b, load_example (Some content) = Ok (a ++ b) /\ shows "artist: " (lit "TPE1") gs a /\ shows "album: " (lit "TALB") gs b
  else load_example (Some content) = Ub NullDeref.
Proof.
  intros R Sa. pose proof (read_parts _ _ _ _ R) as Pa. destruct (read_tag_known _ _ _ _ R) as (t & ps & Et & Hl & <- & _).
  destruct (lookup_named t ps Hl Sa) as (G1 & G2 & _). cbv zeta in *.
  unfold load_example, read_or_new. rewrite Et. cbn [bind or_new]. rewrite G1. cbn [bind].
  pose proof (printf_first "artist: " (lit "TPE1") t ps Hl Pa eq_refl) as A.
  pose proof (printf_first "album: " (lit "TALB") t ps Hl Pa eq_refl) as B.
  assert (X : forall id, existsb (named id) (map fp_frame ps) = match find (named id) (map fp_frame ps) with Some _ => true | None => false end).
  { intros id. clear. induction ps as [|p ps IH]; [reflexivity|]. cbn [map existsb find]. destruct (named id (fp_frame p)); auto. }
  rewrite !X. destruct (find (named (lit "TPE1")) (map fp_frame ps)); cbn [andb]; [|now rewrite A].
  destruct A as (a & -> & A). cbn [bind]. rewrite G2. cbn [bind].
  destruct (find (named (lit "TALB")) (map fp_frame ps)); [|now rewrite B].
  destruct B as (b & -> & B). cbn [bind]. exists a, b. auto.
Qed.

Lemma present_find {A} (p : A -> bool) l : existsb p l = match find p l with Some _ => true | None => false end.
Proof. induction l as [|x l IH]; [reflexivity|]. cbn [existsb find]. destruct (p x); auto. Qed.

Lemma copyright_is content h gs pad : file_read content (Some (h, gs, pad)) -> Forall sane gs ->
  if existsb (named (lit "TCOP")) gs
  then exists out, read_new_example (Some content) = Ok out /\ shows "copyright: " (lit "TCOP") gs out
  else read_new_example (Some content) = Ub NullDeref.
Proof.
  intros R Sa. pose proof (read_parts _ _ _ _ R) as Pa. destruct (read_tag_known _ _ _ _ R) as (t & ps & Et & Hl & <- & _).
  unfold read_new_example, read_or_new. rewrite Et. cbn [bind or_new].
  rewrite (proj1 (lookup t ps (clit "TCOP") (lit "TCOP") Hl Sa (points_to_lit _) eq_refl)). cbn [bind].
  pose proof (printf_first "copyright: " (lit "TCOP") t ps Hl Pa eq_refl) as A.
  rewrite present_find. destruct (find (named (lit "TCOP")) (map fp_frame ps)); exact A.
Qed.

Lemma compat_is content h gs pad : file_read content (Some (h, gs, pad)) -> Forall sane gs ->
  if existsb (named (lit "TALB")) gs
  then exists out, compat_example (Some content) = Ok out /\ shows "Album: " (lit "TALB") gs out
  else compat_example (Some content) = Ub NullDeref.
Proof.
  intros R Sa. pose proof (read_parts _ _ _ _ R) as Pa. pose proof (load_foreign _ _ R) as L. cbv iota in L.
  unfold compat_example. destruct gs as [|g0 gs0]; [cbn [existsb]; now rewrite L|].
  set (gs := g0 :: gs0) in *. clearbody gs.
  destruct L as [(_ & c & raw & -> & (ps & M & <-) & _)|(E & _)].
  2:{ exfalso. apply Exists_exists in E. destruct E as (g & I & N). apply N. now apply (proj1 (Forall_forall _ _) Sa). }
  cbn [bind]. destruct (getters_any c ps M Sa) as (_ & _ & G & _). cbv zeta in G. rewrite G. cbn [bind].
  pose proof (find_frame (lit "TALB") ps) as F. unfold the_frame in F. rewrite present_find, <- F.
  destruct (find (fun p => named (lit "TALB") (fp_frame p)) ps) as [p|] eqn:Fp; cbn [option_map]; [|reflexivity].
  apply find_some in Fp. destruct Fp as (I & N). cbn [option_map] in F.
  destruct (part_text (lit "TALB") (fp_frame p)) as (tx & K & i & fl & S & E); auto.
  { apply (proj1 (Forall_forall _ _) Pa). now apply in_map. }
  destruct (contents_any c ps (fp_addr p) (fp_frame p) M) as (C & _); [now destruct p|]. cbv zeta in C. unfold show_any. rewrite (C i fl tx E).
  cbn [bind tc_data]. rewrite text_seen. cbn [bind]. eexists. split; [reflexivity|].
  exists (fp_frame p), tx. split; [now symmetry|]. split; [|reflexivity]. split; [exact K|]. exists i, fl. auto.
Qed.

(** ** Setting *)

Lemma readme_calls_mean : Forall2 means
  [SetTitle (Some (cells (text_image (wide "Title")))); SetArtist (Some (cells (text_image (wide "Artist"))))]
  [Put readme_title; Put readme_artist].
Proof. repeat (constructor; [constructor; pts|]). constructor. Qed.

Lemma put_size id x fs : frames_size (put (titled id) x fs) =
  frames_size fs + (10 + body_size x) - match find (titled id) fs with Some f => 10 + body_size f | None => 0 end.
Proof.
  induction fs as [|f fs IH]; cbn [put find]; [rewrite !frames_size_cons; lia|].
  destruct (titled id f); rewrite !frames_size_cons; [lia|]. rewrite IH. lia.
Qed.

Lemma put_titled id id' x fs : titled id' x = false -> (forall f, titled id f = true -> titled id' f = false) ->
  existsb (titled id') (put (titled id) x fs) = existsb (titled id') fs.
Proof.
  intros N D. induction fs as [|f fs IH]; cbn [put existsb]; [now rewrite N|].
  destruct (titled id f) eqn:T; cbn [existsb]; [|now rewrite IH]. now rewrite N, (D f T).
Qed.

Lemma titled_apart f : titled (lit "TIT2") f = true -> titled (lit "TPE1") f = false.
Proof.
  unfold titled, same_id. intros E. apply bytes_eqb_eq in E. rewrite E. reflexivity.
Qed.

Lemma edit_is content major minor flags n pad fs :
  file_read content (Some (mkTH (lit "ID3") major minor flags n 0, map frame_of fs, pad)) ->
  oks fs -> n + 32 < 2 ^ 28 ->
  let room := n - frames_size fs - 10 * lacking fs in
  if 0 <=? room
  then edit_example (Some content)
       = Ok (Some (tag_bytes major minor flags (frames_size (with_both fs) + room) (with_both fs) ++ audio content))
  else exists u, edit_example (Some content) = Ub u.
Proof.
  intros R K B room. change (2 ^ 28) with 268435456 in B.
  assert (Ef : edited [Put readme_title; Put readme_artist] fs = with_both fs) by reflexivity.
  assert (Er : room_left [Put readme_title; Put readme_artist] fs (n - frames_size fs) = room).
  { cbn [room_left room_change]. cbn [edited_once]. change (frame_id readme_title) with (lit "TIT2"). change (frame_id readme_artist) with (lit "TPE1").
    rewrite put_titled by (try reflexivity; exact titled_apart). unfold room, lacking.
    destruct (existsb (titled (lit "TIT2")) fs), (existsb (titled (lit "TPE1")) fs); lia. }
  destruct (any_session content major minor flags n pad fs _ _ R K ltac:(change (2 ^ 28) with 268435456; lia) readme_calls_mean) as (t & t' & Et & Rn & W).
  { reflexivity. }
  { rewrite Ef, Er. unfold with_both. rewrite !put_size.
    change (body_size readme_title) with 15. change (body_size readme_artist) with 17.
    pose proof (frames_size_nonneg (with_both fs)) as Nn. unfold with_both in Nn. rewrite !put_size in Nn.
    change (body_size readme_title) with 15 in Nn. change (body_size readme_artist) with 17 in Nn.
    assert (L : forall id l, match find (titled id) l with Some f => 10 <= 10 + body_size f | None => True end).
    { intros id l. destruct (find (titled id) l) as [f|]; [|exact I]. pose proof (body_size_nonneg f). lia. }
    pose proof (L (lit "TIT2") fs) as L1. pose proof (L (lit "TPE1") (put (titled (lit "TIT2")) readme_title fs)) as L2.
    unfold room, lacking in *. rewrite <- (put_titled (lit "TIT2") (lit "TPE1") readme_title fs eq_refl titled_apart).
    rewrite !present_find. destruct (file_seen _ _ _ _ R) as (? & ? & ? & n2 & Eh & _ & _ & _ & _ & Rg & _ & S).
    injection Eh as _ _ _ <-.
    assert (Lf : frames_size fs <= n).
    { destruct S as [(ss & E & _ & _ & Ls & _)|(ss & g & E & _ & C)].
      - rewrite <- (bytes_needed_frames fs), E, bytes_needed_frames. exact Ls.
      - exfalso. apply (whole_not_cut fs). rewrite E. apply cut_frames. apply Exists_app. right. now constructor. }
    change (2 ^ 31) with 2147483648. change (2 ^ 28) with 268435456. change (2 ^ 29) with 536870912 in Rg.
    set (f1 := find (titled (lit "TIT2")) fs) in *. set (f2 := find _ (put _ _ fs)) in *.
    clearbody f1 f2. destruct f1, f2; lia. }
  rewrite Ef, Er in W. unfold edit_example, read_or_new. rewrite Et. cbn [bind or_new]. unicode. rewrite Rn. cbn [bind].
  destruct (0 <=? room).
  - rewrite W. reflexivity.
  - destruct W as (u & ->). now exists u.
Qed.

Lemma copyright_means :
  means (SetTextFrame (mkTextInput (clit "TCOP") NO_FLAGS (clit "A copyright message"))) (Put readme_copyright).
Proof. unfold readme_copyright, plain_text. apply MText; [pts|exists [Some x00]; reflexivity|]. exists []. reflexivity. Qed.

Lemma edit_new_known content h gs pad : file_read content (Some (h, gs, pad)) -> Forall sane gs ->
  exists t, edit_new_example (Some content) = Ok t
    /\ tag_has t (put (named (lit "TCOP")) (frame_of readme_copyright) gs).
Proof.
  intros R Sa. destruct (read_tag_known _ _ _ _ R) as (t & ps & Et & _ & _ & Ht & _ & T).
  unfold edit_new_example, read_or_new. rewrite Et. cbn [bind or_new].
  destruct (file_seen _ _ _ _ R) as (? & ? & ? & n & Eh & _ & _ & _ & _ & Rg & _).
  destruct (history t gs [SetTextFrame (mkTextInput (clit "TCOP") NO_FLAGS (clit "A copyright message"))] [Put readme_copyright] T Sa)
    as (t' & E & T' & _).
  - rewrite Ht, Eh. cbn [th_tag_size]. change (2 ^ 29) with 536870912 in Rg. change (2 ^ 32) with 4294967296. lia.
  - constructor; [|constructor]. apply copyright_means.
  - reflexivity.
  - cbn [run_calls] in E. destruct (run_call _ _) as [t1| | |]; try discriminate E. cbn [bind] in E. injection E as ->.
    exists t'. split; [reflexivity|]. exact T'.
Qed.

Lemma edit_new_scratch f : untagged f ->
  exists t, edit_new_example f = Ok t /\ tag_has t [frame_of readme_copyright].
Proof.
  intros U. apply untagged_read in U. unfold edit_new_example, read_or_new. rewrite U. cbn [bind or_new].
  destruct (history ID3v2_Tag_new_empty [] [SetTextFrame (mkTextInput (clit "TCOP") NO_FLAGS (clit "A copyright message"))]
    [Put readme_copyright] new_empty_has (Forall_nil _)) as (t' & E & T' & _).
  - cbn. lia.
  - constructor; [|constructor]. apply copyright_means.
  - reflexivity.
  - cbn [run_calls] in E. destruct (run_call _ _) as [t1| | |]; try discriminate E. cbn [bind] in E. injection E as ->.
    exists t'. split; [reflexivity|]. exact T'.
Qed.

(** ** Deleting *)

Section Deleting.
  Variables (maj mi fl : byte).

  Definition holds (t : Tag) (rs : list fspec) (hole : bool) (n : Z) : Prop :=
    exists ps, t_frames t = listing hole ps /\ map fp_frame ps = map frame_of rs
      /\ t_header t = mkTH (lit "ID3") maj mi fl n 0
      /\ NoDup (map fp_addr ps) /\ Forall (fun a => (a < t_fresh t)%nat) (map fp_addr ps).

  Lemma last_pos id rs n : first_pos (titled id) rs = Some n -> (S n =? length rs)%nat = is_last id rs.
  Proof.
    revert n. induction rs as [|f rs IH]; intros n E; [discriminate E|]. cbn [first_pos] in E.
    destruct (titled id f) eqn:T.
    - injection E as <-. cbn [is_last length]. destruct rs; rewrite T; reflexivity.
    - destruct (first_pos (titled id) rs) as [m|] eqn:Em; [|discriminate E]. injection E as <-.
      cbn [length]. change (S (S m) =? S (length rs))%nat with (S m =? length rs)%nat. rewrite (IH m eq_refl).
      cbn [is_last]. destruct rs; [discriminate Em|]. now rewrite T.
  Qed.

  Lemma take_out t rs hole n c id : holds t rs hole n -> oks rs -> frames_size rs <= n < 2 ^ 28 -> means c (Remove id) ->
    if existsb (titled id) rs
    then exists t', run_call t c = Ok t' /\ t_padding t' = t_padding t
      /\ holds t' (without id rs) (hole || is_last id rs) (n - (frames_size rs - frames_size (without id rs)))
      /\ frames_size (without id rs) <= n - (frames_size rs - frames_size (without id rs)) <= n
    else run_call t c = Ub NullDeref.
  Proof.
    intros (ps & Hl & M & Hh & D & Fr) K B Mc. destruct (run_remove t c id Mc) as (arg & Pa & L & ->).
    assert (S : all_sane ps) by (apply all_sane_map; rewrite M; now apply oks_sane).
    unfold ID3v2_Tag_delete_frame. rewrite Hl, (remove_listing arg id) by auto. rewrite (kept_pos id ps rs M).
    unfold without. rewrite remove_first_pos.
    assert (X : existsb (titled id) rs = match first_pos (titled id) rs with Some _ => true | None => false end).
    { clear. induction rs as [|f rs IH]; [reflexivity|]. cbn [existsb first_pos]. destruct (titled id f); [reflexivity|].
      rewrite IH. now destruct (first_pos (titled id) rs). }
    rewrite X. destruct (first_pos (titled id) rs) as [k|] eqn:E; [|destruct hole; reflexivity]. go.
    pose proof (last_pos id rs k E) as La. apply first_pos_lt in E. destruct E as (f & E & _).
    assert (Len : length ps = length rs) by (apply (f_equal (@length _)) in M; now rewrite !map_length in M).
    pose proof (map_nth_error frame_of _ _ E) as E'. rewrite <- M, nth_error_map in E'.
    destruct (nth_error ps k) as [p|]; [|discriminate E']. cbn [option_map] in E'. injection E' as E'. go. rewrite E'.
    assert (Kf : frame_ok f = true) by (unfold oks in K; rewrite Forall_forall in K; apply K; now apply nth_error_In in E).
    apply frame_ok_common in Kf. destruct Kf as (_ & _ & Hs). pose proof (body_size_nonneg f).
    change (fh_size (f_hdr (frame_of f))) with (body_size f). change ID3v2_FRAME_HEADER_LENGTH with 10.
    pose proof (frames_size_delete k rs f E) as Z. pose proof (frames_size_nonneg (delete_at k rs)) as Nn.
    change (2 ^ 28) with 268435456 in B. rewrite iadd_ok by (change (2 ^ 31) with 2147483648; lia). go.
    eexists. split; [reflexivity|]. split; [reflexivity|]. split; [|lia].
    exists (delete_at k ps). rewrite Len, La. split; [reflexivity|]. split; [now rewrite !map_delete_at, M|].
    split; [|split].
    - rewrite Hh. unfold with_tag_size. cbn [t_header th_identifier th_major th_minor th_flags th_ext_size th_tag_size].
      rewrite to_u32_id by lia. f_equal. lia.
    - rewrite map_delete_at. now apply NoDup_delete_at.
    - rewrite map_delete_at. cbn [t_fresh]. rewrite Forall_forall in *. intros a I. apply Fr. now apply delete_at_incl in I.
  Qed.
End Deleting.

Lemma without_other fs : existsb (titled (lit "TPE1")) (without (lit "TIT2") fs) = existsb (titled (lit "TPE1")) fs.
Proof.
  unfold without. induction fs as [|f fs IH]; [reflexivity|]. cbn [remove_first existsb].
  destruct (titled (lit "TIT2") f) eqn:T; [now rewrite (titled_apart f T)|]. cbn [existsb]. now rewrite IH.
Qed.

Lemma last_other fs : is_last (lit "TIT2") fs = false ->
  is_last (lit "TPE1") (without (lit "TIT2") fs) = is_last (lit "TPE1") fs.
Proof.
  unfold without. induction fs as [|f fs IH]; [reflexivity|]. cbn [remove_first]. destruct fs as [|g fs].
  - cbn [is_last remove_first]. intros ->. reflexivity.
  - set (l := g :: fs) in *. intros E. assert (E' : (if titled (lit "TIT2") f then false else is_last (lit "TIT2") l) = false) by exact E. clear E.
    assert (R : is_last (lit "TPE1") (f :: l) = if titled (lit "TPE1") f then false else is_last (lit "TPE1") l) by reflexivity.
    rewrite R. destruct (titled (lit "TIT2") f) eqn:T; [now rewrite (titled_apart f T)|].
    rewrite <- (IH E'). destruct (remove_first (titled (lit "TIT2")) l) as [|x m] eqn:Q; [|reflexivity].
    exfalso. unfold l in *. cbn [remove_first] in Q. destruct (titled (lit "TIT2") g) eqn:Tg; [|discriminate Q]. subst fs.
    cbn [is_last] in E'. congruence.
Qed.

Lemma without_oks id fs : oks fs -> oks (without id fs).
Proof. intros K. unfold without. rewrite remove_first_pos. destruct (first_pos _ fs); [|exact K]. now apply oks_delete. Qed.

Lemma whole_fits content major minor flags n pad fs :
  file_read content (Some (mkTH (lit "ID3") major minor flags n 0, map frame_of fs, pad)) -> frames_size fs <= n.
Proof.
  intros R. destruct (file_seen _ _ _ _ R) as (? & ? & ? & n2 & Eh & _ & _ & _ & _ & Rg & _ & S).
  injection Eh as _ _ _ <-. destruct S as [(ss & E & _ & _ & Ls & _)|(ss & g & E & _ & C)].
  - rewrite <- (bytes_needed_frames fs), E, bytes_needed_frames. exact Ls.
  - exfalso. apply (whole_not_cut fs). rewrite E. apply cut_frames. apply Exists_app. right. now constructor.
Qed.

Lemma delete_is content major minor flags n pad fs :
  file_read content (Some (mkTH (lit "ID3") major minor flags n 0, map frame_of fs, pad)) ->
  oks fs -> n < 2 ^ 28 ->
  delete_example (Some content) = deletions major minor flags n fs (audio content).
Proof.
  intros R K B. pose proof (whole_fits _ _ _ _ _ _ _ R) as Lf.
  destruct (file_seen _ _ _ _ R) as (major' & minor' & flags' & n2 & Eh & V & X & Xc & _ & Rg & Rp & _).
  injection Eh as <- <- <- <-.
  destruct (read_tag_known _ _ _ _ R) as (t & ps0 & Et & _ & _ & Ht & Pt & (ps & Hl & M & D & Fr)).
  unfold delete_example, read_or_new. rewrite Et. cbn [bind or_new run_calls]. unfold deletions.
  destruct fs as [|f0 fs0].
  { destruct ps; [|discriminate M]. destruct t as [h fr pd fresh]. cbn [t_frames] in Hl. subst fr. reflexivity. }
  set (fs := f0 :: fs0) in *.
  assert (H0 : holds major minor flags t fs false n).
  { exists ps. destruct ps as [|p ps]; [discriminate M|]. unfold listing. rewrite app_nil_r. repeat split; auto. }
  pose proof (take_out major minor flags t fs false n DeleteTitle (lit "TIT2") H0 K ltac:(lia) MDelTitle) as T1.
  destruct (existsb (titled (lit "TIT2")) fs) eqn:X1; cbn [andb negb]; [|now rewrite T1].
  destruct T1 as (t1 & -> & P1 & H1 & L1). cbn [bind orb] in *.
  set (one := without (lit "TIT2") fs) in *. set (n1 := n - (frames_size fs - frames_size one)) in *.
  pose proof (take_out major minor flags t1 one _ n1 DeleteArtist (lit "TPE1") H1 (without_oks _ _ K) ltac:(lia) MDelArtist) as T2.
  unfold one in T2 at 1. rewrite without_other in T2. fold one in T2.
  destruct (existsb (titled (lit "TPE1")) fs) eqn:X2; cbn [negb]; [|now rewrite T2].
  destruct T2 as (t2 & -> & P2 & (qs & Hq & Mq & Hh & Dq & Fq) & L2). cbn [bind].
  set (both := without (lit "TPE1") one) in *.
  assert (Eh : is_last (lit "TIT2") fs || is_last (lit "TPE1") one = is_last (lit "TIT2") fs || is_last (lit "TPE1") fs).
  { destruct (is_last (lit "TIT2") fs) eqn:E; [reflexivity|]. cbn [orb]. now apply last_other. }
  rewrite Eh in Hq. replace (n1 - (frames_size one - frames_size both)) with (n - (frames_size fs - frames_size both)) in * by lia.
  set (n2 := n - (frames_size fs - frames_size both)) in *. change (2 ^ 29) with 536870912 in Rg. pose proof (frames_size_nonneg both) as Nb.
  assert (Kb : oks both) by (now apply without_oks, without_oks).
  assert (Pp : 0 <= t_padding t2 < 2 ^ 31) by (rewrite P2, P1, Pt; change (2 ^ 31) with 2147483648; lia).
  destruct ((is_last (lit "TIT2") fs || is_last (lit "TPE1") fs) && negb (length both =? 0)%nat) eqn:Ex.
  - apply andb_prop in Ex. destruct Ex as (Eo & Nn). rewrite Eo in Hq. unfold listing in Hq.
    assert (W : Tag_to_char_stream t2 = Exit 1).
    { apply (tag_write_hole t2 qs both major minor flags n2 0); auto; try lia;
        try (change (2 ^ 31) with 2147483648; change (2 ^ 28) with 268435456 in B; lia).
      intros ->. destruct both; [discriminate Nn|discriminate Mq]. }
    destruct (file_header _ Xc) as (h & Ehd & _).
    unfold ID3v2_write_tag. rewrite (write_tag_starts _ t2 h Ehd Pp). cbv zeta. rewrite W. reflexivity.
  - assert (T : tag_has t2 (map frame_of both)).
    { exists qs. split; [|auto]. rewrite Hq. unfold listing. destruct qs as [|q qs].
      - destruct both as [|b both'] eqn:Eb; [|discriminate Mq]. cbn [length Nat.eqb negb] in Ex.
        assert (Hn : is_last (lit "TIT2") fs || is_last (lit "TPE1") fs = true).
        { rewrite <- Eh. assert (is_last (lit "TPE1") one = true) as ->; [|now destruct (is_last (lit "TIT2") fs)].
          unfold both, without in Eb. assert (X3 : existsb (titled (lit "TPE1")) one = true) by (unfold one; now rewrite without_other).
          clear -Eb X3. destruct one as [|o l]; [discriminate X3|]. cbn [remove_first] in Eb.
          destruct (titled (lit "TPE1") o) eqn:To; [|discriminate Eb]. subst l. cbn [is_last]. exact To. }
        rewrite Hn. reflexivity.
      - rewrite list_of_nodes by discriminate.
        destruct both as [|b both']; [discriminate Mq|]. cbn [length Nat.eqb negb] in Ex. rewrite andb_true_r in Ex. rewrite Ex. now rewrite app_nil_r. }
    rewrite (write_file content t2 both major minor flags n2 0 Xc T Kb Hh); try lia.
    cbn [bind]. destruct (written_file major minor flags n2 both (audio content) V X Kb) as (Xw & _ & Aw); [lia|lia|].
    cbv zeta in *. rewrite (delete_file _ Xw), Aw. reflexivity.
Qed.

(** ** Files without tags, and files that cannot be read *)

Lemma header_untagged f : untagged f -> exists h, ID3v2_read_tag_header f = Ok h.
Proof.
  destruct f as [content|]; [|exists None; reflexivity]. intros (Xc & _). destruct (file_header _ Xc) as (h & E & _). eauto.
Qed.

Lemma without_tag f : untagged f ->
  load_example f = Ub NullDeref /\ edit_example f = Ub OobWrite /\ delete_example f = Ub NullDeref
  /\ read_new_example f = Ub NullDeref /\ compat_example f = Ub NullDeref.
Proof.
  intros U. pose proof (proj1 (untagged_read _) U) as E.
  unfold load_example, edit_example, delete_example, read_new_example, read_or_new. rewrite E. cbn [bind or_new].
  split; [reflexivity|]. split; [|split; [reflexivity|split; [reflexivity|]]].
  - unicode. assert (Et : exists t, run_calls ID3v2_Tag_new_empty
        [SetTitle (Some (cells (text_image (wide "Title")))); SetArtist (Some (cells (text_image (wide "Artist"))))] = Ok t
        /\ t_padding t = 0 /\ forall p, Tag_to_char_stream (mkTag (t_header t) (t_frames t) p (t_fresh t)) = Ub OobWrite).
    { eexists. split; [vm_compute; reflexivity|]. split; [reflexivity|]. intros p. vm_compute. reflexivity. }
    destruct Et as (t & -> & Pt & W). cbn [bind]. destruct (header_untagged f U) as (h & Eh).
    unfold ID3v2_write_tag, ID3v2_write_tag_states. rewrite Eh. cbn [bind]. rewrite Pt.
    change (isub ID3v2_TAG_DEFAULT_PADDING_LENGTH 0) with (Ok 2048). cbn [bind].
    change (iadd 0 (clamp_int 2048 0 ID3v2_TAG_DEFAULT_PADDING_LENGTH)) with (Ok 2048). cbn [bind]. now rewrite W.
  - unfold compat_example. destruct f as [content|]; [|reflexivity]. now rewrite (load_foreign content None U).
Qed.

Lemma not_read content : (forall r, ~ file_read content r) ->
  exists u, load_example (Some content) = Ub u /\ edit_example (Some content) = Ub u /\ delete_example (Some content) = Ub u
  /\ read_new_example (Some content) = Ub u /\ edit_new_example (Some content) = Ub u
  /\ exists v, compat_example (Some content) = Ub v.
Proof.
  intros N. destruct (read_file_exactly content) as [(r & _ & R & _)|(_ & u & U)]; [now apply N in R|].
  exists u. unfold load_example, edit_example, delete_example, read_new_example, edit_new_example, read_or_new. rewrite U.
  repeat (split; [reflexivity|]). destruct (load_unread content N) as (v & L). exists v. unfold compat_example. now rewrite L.
Qed.
