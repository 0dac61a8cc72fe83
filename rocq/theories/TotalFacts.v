(** Every session with a tagged file. *)
From Coq Require Import Permutation.
From Verif Require Import File Calls Spec SpecEdit SpecFile SpecSession SpecHole SpecTotal EditFacts HistFacts ClaimFacts WriteFacts FileFacts SessionFacts HoleFacts.

(** The frames held are well formed, after any edits. *)
Definition good (f : frame) : Prop := exists g, frame_ok g = true /\ f = frame_of g.

Lemma good_list l : Forall good l -> exists fs, l = map frame_of fs /\ oks fs.
Proof.
  induction 1 as [|f l (g & G & ->) _ (fs & -> & K)].
  - exists []. split; [reflexivity|constructor].
  - exists (g :: fs). split; [reflexivity|now constructor].
Qed.

Lemma list_good fs : oks fs -> Forall good (map frame_of fs).
Proof. intros K. apply Forall_map. eapply Forall_impl; [|exact K]. intros f F. now exists f. Qed.

Lemma edit_shelf_good e s s' :
  edit_ok e = true -> Forall good (held s) -> edit_shelf e s = Some s' -> Forall good (held s').
Proof.
  intros K G E. apply shelf_perm in E. apply Permutation_sym in E.
  assert (H : Forall good (put_in e ++ held s)).
  { apply Forall_app. split; [|exact G]. destruct e; cbn [put_in edit_ok] in *; repeat constructor; eexists; split; eauto. }
  apply (Permutation_Forall E) in H. now apply Forall_app in H.
Qed.

Lemma edit_shelves_good es : forall s s' d,
  forallb edit_ok es = true -> Forall good (held s) -> edit_shelves es s = Some (s', d) -> Forall good (held s').
Proof.
  induction es as [|e es IH]; intros s s' d K G E; cbn [edit_shelves forallb] in *.
  - injection E as <- _. exact G.
  - apply andb_prop in K. destruct K as (K & K'). destruct (edit_shelf e s) as [s1|] eqn:E1; [|discriminate E].
    destruct (edit_shelves es s1) as [[s2 d2]|] eqn:E2; [|discriminate E]. injection E as <- _.
    apply (IH s1 s2 d2 K'); [now apply (edit_shelf_good e s)|exact E2].
Qed.

(** ** Saving *)

Lemma tag_write_holed_over t ps qs fs maj mi fl n ext :
  t_frames t = nodes ps ++ empty_node :: qs -> ps <> [] -> map fp_frame ps = map frame_of fs -> oks fs ->
  t_header t = mkTH (lit "ID3") maj mi fl n ext ->
  0 <= n -> n + 10 < 2 ^ 31 -> n < frames_size fs ->
  Tag_to_char_stream t = Ub OobWrite.
Proof.
  intros Hl P M H Hh N L R. rewrite tag_write_start, Hh, start_tag_ok by auto. go. rewrite Hl.
  destruct ps as [|p ps]; [congruence|]. change (nodes (p :: ps)) with (fnode p :: nodes ps) at 1. cbn [app fnode n_frame].
  apply (write_frames_over fs); auto.
  rewrite zlen_cells. change (zlen (lit "ID3" ++ maj :: mi :: fl :: four_bytes n)) with 10. lia.
Qed.

(** What [Tag_to_char_stream] does to any tag of well formed frames. *)
Lemma stream_total t s fs maj mi fl n ext :
  tag_holds t s -> seen s = map frame_of fs -> oks fs ->
  t_header t = mkTH (lit "ID3") maj mi fl n ext -> 0 <= n < 2 ^ 32 ->
  match save_ending fs (has_hole s) n with
  | Saved gs => exists cs, Tag_to_char_stream t = Ok cs /\ cs_size cs = n + 10
                  /\ cs_stream cs = cells (tag_image maj mi fl n gs)
  | Exits => Tag_to_char_stream t = Exit 1
  | Undefined => exists u, Tag_to_char_stream t = Ub u
  end.
Proof.
  intros T Q K Hh N. unfold save_ending. pose proof (frames_size_nonneg fs).
  destruct (n + 10 <? 2 ^ 31) eqn:B; [|rewrite andb_false_r; apply (tag_write_big t maj mi fl n ext); auto; lia].
  rewrite andb_true_r. unfold has_hole. destruct (behind s) as [hidden|] eqn:Bs.
  - destruct fs as [|f fs].
    + change (frames_size []) with 0. replace (0 <=? n) with true by lia.
      destruct T as (ps & qs & M & _ & _ & T). rewrite Bs in T. destruct T as (_ & E). rewrite Q in M.
      destruct ps; [|discriminate M]. cbn [map app] in E.
      set (t0 := mkTag (t_header t) [empty_node] (t_padding t) (t_fresh t)).
      assert (X : Tag_to_char_stream t = Tag_to_char_stream t0).
      { unfold Tag_to_char_stream. cbn [t0 t_header t_frames]. rewrite E. reflexivity. }
      assert (H0 : tag_has t0 (map frame_of [])) by (exists []; repeat split; constructor).
      rewrite X. apply (tag_write t0 [] maj mi fl n ext); auto; try lia; change (frames_size []) with 0; lia.
    + destruct T as (ps & qs & M & _ & _ & T). rewrite Bs in T. destruct T as (_ & E). rewrite Q in M.
      assert (P : ps <> []) by (intros ->; discriminate M).
      destruct (frames_size (f :: fs) <=? n) eqn:A.
      * apply (tag_write_holed t ps (map filled qs) (f :: fs) maj mi fl n ext); auto; lia.
      * exists OobWrite. apply (tag_write_holed_over t ps (map filled qs) (f :: fs) maj mi fl n ext); auto; lia.
  - assert (H0 : tag_has t (map frame_of fs)).
    { apply whole_has. unfold whole. destruct s as [l b]. cbn [seen behind] in *. subst l b.
      destruct fs as [|f fs]; [|exact T]. exfalso. destruct T as (ps & qs & M & _ & _ & P & _). cbn [seen] in M.
      destruct ps; [congruence|discriminate M]. }
    destruct (frames_size fs <=? n) eqn:A.
    + destruct fs; apply (tag_write t _ maj mi fl n ext); auto; lia.
    + exists OobWrite. apply (tag_write_over t fs maj mi fl n ext); auto; lia.
Qed.

Lemma write_exits content t n :
  announces_extended content = false -> 2048 - 2 ^ 31 < t_padding t < 2 ^ 31 ->
  Tag_to_char_stream t = Exit n -> ID3v2_write_tag (Some content) (Some t) = Exit n.
Proof.
  intros X P W. destruct (file_header content X) as (h & E & H).
  unfold ID3v2_write_tag. cbn [ID3v2_write_tag_states]. rewrite E. go.
  pose proof (padding_any (t_padding t) P) as Q. unfold bind in Q at 1.
  destruct (isub ID3v2_TAG_DEFAULT_PADDING_LENGTH (t_padding t)) eqn:I; try discriminate Q. go. rewrite Q. go.
  change (Tag_to_char_stream (mkTag (t_header t) (t_frames t) _ (t_fresh t))) with (Tag_to_char_stream t).
  now rewrite W.
Qed.

Lemma tag_image_zlen maj mi fl n fs : oks fs -> frames_size fs <= n -> zlen (tag_image maj mi fl n fs) = n + 10.
Proof.
  intros K L. unfold tag_image, zeros. rewrite !zlen_app, images_zlen, zlen_repeat by (auto; reflexivity).
  change (zlen (lit "ID3")) with 3. change (zlen [maj; mi; fl]) with 3. change (zlen (four_bytes n)) with 4. lia.
Qed.

(** Saving such a tag. *)
Lemma save_total content t s fs maj mi fl n ext :
  tag_holds t s -> seen s = map frame_of fs -> oks fs ->
  t_header t = mkTH (lit "ID3") maj mi fl n ext -> 0 <= n < 2 ^ 32 ->
  announces_extended content = false -> 2048 - 2 ^ 31 < t_padding t < 2 ^ 31 ->
  match save_ending fs (has_hole s) n with
  | Saved gs => exists f, ID3v2_write_tag (Some content) (Some t) = Ok (f, Some (padded t))
                  /\ written maj mi fl n gs (audio content) f
  | Exits => ID3v2_write_tag (Some content) (Some t) = Exit 1
  | Undefined => exists u, ID3v2_write_tag (Some content) (Some t) = Ub u
  end.
Proof.
  intros T Q K Hh N X P. pose proof (stream_total t s fs maj mi fl n ext T Q K Hh N) as W.
  destruct (save_ending fs (has_hole s) n) as [gs| |] eqn:E.
  - destruct W as (cs & W & Z & S).
    assert (G : gs = fs /\ frames_size fs <= n).
    { unfold save_ending in E. destruct ((frames_size fs <=? n) && (n + 10 <? 2 ^ 31)) eqn:C; [|discriminate E].
      split; [|lia]. destruct fs; [|destruct (has_hole s); [discriminate E|]]; now injection E as <-. }
    destruct G as (-> & L).
    eexists. split.
    + apply (write_gen content t cs (tag_image maj mi fl n fs)); auto. now rewrite tag_image_zlen.
    + exists (four_bytes n). split; [reflexivity|]. split; [intros; apply four_bytes_small; lia|].
      unfold tag_image. now rewrite <- !app_assoc.
  - now apply write_exits.
  - destruct W as (u & W). exists u. now apply write_fails.
Qed.

(** ** Sessions *)

Lemma total_gen content major minor flags fs pad sound cs es :
  holds content major minor flags fs pad sound -> oks fs ->
  0 <= pad -> frames_size fs + pad < 2 ^ 28 ->
  Forall2 means cs es -> forallb edit_ok es = true ->
  match edit_shelves es (whole (map frame_of fs)) with
  | None => run_session cs (Some content) = Ub NullDeref
  | Some (s, d) =>
      let n := (frames_size fs + pad + d) mod 2 ^ 32 in
      exists fs', seen s = map frame_of fs' /\ Forall (fun f => frame_ok f = true) fs'
        /\ match save_ending fs' (has_hole s) n with
           | Saved gs => exists f, run_session cs (Some content) = Ok f /\ written major minor flags n gs sound f
           | Exits => run_session cs (Some content) = Exit 1
           | Undefined => exists u, run_session cs (Some content) = Ub u
           end
  end.
Proof.
  intros (Xc & Au & t & Et & Ht & Tt & Pt) Ko P B M A. pose proof (frames_size_nonneg fs).
  assert (Hw : held (whole (map frame_of fs)) = map frame_of fs).
  { unfold held, whole. cbn [seen behind]. destruct (map frame_of fs); [reflexivity|apply app_nil_r]. }
  assert (G : Forall good (held (whole (map frame_of fs)))) by (rewrite Hw; now apply list_good).
  assert (Sa : Forall sane (held (whole (map frame_of fs)))) by (rewrite Hw; apply well_formed_sane, fspecs_well_formed; auto).
  assert (Rt : 0 <= th_tag_size (t_header t) < 2 ^ 32) by (rewrite Ht; cbn [th_tag_size]; change (2 ^ 32) with 4294967296; change (2 ^ 28) with 268435456 in B; lia).
  apply whole_has in Tt.
  pose proof (any_history cs t _ es Tt Sa Rt M A) as R.
  destruct (edit_shelves es (whole (map frame_of fs))) as [[s d]|] eqn:E.
  2:{ unfold run_session. rewrite Et. go. now rewrite R. }
  destruct R as (t' & Er & T' & H' & P'). intros n.
  assert (G' : Forall good (held s)) by (eapply edit_shelves_good; eauto).
  apply Forall_app in G'. destruct G' as (G' & _). destruct (good_list _ G') as (fs' & Q & K').
  exists fs'. split; [exact Q|]. split; [exact K'|].
  assert (Hn : t_header t' = mkTH (lit "ID3") major minor flags n 0).
  { rewrite H', Ht. reflexivity. }
  assert (Rn : 0 <= n < 2 ^ 32) by (apply Z.mod_pos_bound; reflexivity).
  assert (Pp : 2048 - 2 ^ 31 < t_padding t' < 2 ^ 31) by (rewrite P', Pt; change (2 ^ 31) with 2147483648; change (2 ^ 28) with 268435456 in B; lia).
  pose proof (save_total content t' s fs' major minor flags n 0 T' Q K' Hn Rn Xc Pp) as W. rewrite Au in W.
  unfold run_session. rewrite Et. go. rewrite Er. go.
  destruct (save_ending fs' (has_hole s) n) as [gs| |].
  - destruct W as (f & -> & W). exists f. split; [reflexivity|exact W].
  - now rewrite W.
  - destruct W as (u & ->). now exists u.
Qed.

Lemma total_session major minor flags fs pad sound cs es :
  known_version major = true -> has_extended_header flags = false ->
  Forall (fun f => frame_ok f = true /\ readable f = true) fs ->
  0 <= pad -> frames_size fs + pad < 2 ^ 28 ->
  Forall2 means cs es -> forallb edit_ok es = true ->
  let content := tagged_file major minor flags fs pad sound in
  match edit_shelves es (whole (map frame_of fs)) with
  | None => run_session cs (Some content) = Ub NullDeref
  | Some (s, d) =>
      let n := (frames_size fs + pad + d) mod 2 ^ 32 in
      exists fs', seen s = map frame_of fs' /\ Forall (fun f => frame_ok f = true) fs'
        /\ match save_ending fs' (has_hole s) n with
           | Saved gs => exists f, run_session cs (Some content) = Ok f /\ written major minor flags n gs sound f
           | Exits => run_session cs (Some content) = Exit 1
           | Undefined => exists u, run_session cs (Some content) = Ub u
           end
  end.
Proof.
  intros V X K P B M A content.
  assert (Ko : oks fs) by (eapply Forall_impl; [|exact K]; cbn beta; intros ? (? & _); assumption).
  apply total_gen; auto. now apply tagged_holds.
Qed.

(** Exactly the sessions that come back. *)
Lemma total_returns major minor flags fs pad sound cs es :
  known_version major = true -> has_extended_header flags = false ->
  Forall (fun f => frame_ok f = true /\ readable f = true) fs ->
  0 <= pad -> frames_size fs + pad < 2 ^ 28 ->
  Forall2 means cs es -> forallb edit_ok es = true ->
  let content := tagged_file major minor flags fs pad sound in
  (exists f, run_session cs (Some content) = Ok f)
  <-> exists s d, edit_shelves es (whole (map frame_of fs)) = Some (s, d)
        /\ (seen s = [] \/ behind s = None)
        /\ bytes_needed (seen s) <= (frames_size fs + pad + d) mod 2 ^ 32 < 2 ^ 31 - 10.
Proof.
  intros V X K P B M A content. pose proof (total_session major minor flags fs pad sound cs es V X K P B M A) as T.
  cbv zeta in T. fold content in T. destruct (edit_shelves es (whole (map frame_of fs))) as [[s d]|].
  2:{ split; [intros (f & F); congruence|intros (s & d & F & _); discriminate F]. }
  destruct T as (fs' & Q & _ & T). set (n := (frames_size fs + pad + d) mod 2 ^ 32) in *.
  unfold save_ending in T. split.
  - intros (f & F). exists s, d. split; [reflexivity|]. rewrite Q, bytes_needed_frames.
    destruct ((frames_size fs' <=? n) && (n + 10 <? 2 ^ 31)) eqn:C; [|destruct T as (u & T); congruence].
    split; [|lia]. unfold has_hole in T. destruct fs'; [now left|]. destruct (behind s); [congruence|now right].
  - intros (s' & d' & Z & H & C). injection Z as <- <-. fold n in C. rewrite Q, bytes_needed_frames in C.
    replace ((frames_size fs' <=? n) && (n + 10 <? 2 ^ 31)) with true in T by lia. unfold has_hole in T.
    destruct fs' as [|g fs']; [destruct T as (f & T & _); eauto|].
    destruct (behind s); [destruct H as [H|H]; [rewrite H in Q|]; discriminate|]. destruct T as (f & T & _); eauto.
Qed.
