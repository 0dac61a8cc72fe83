(** Tags with frames that were cut off, edited and written. *)
From Verif Require Import BaseFacts UtilsFacts StreamFacts FrameFacts HeaderFacts TagFacts.
From Verif Require Import File Calls Spec SpecEdit SpecFile SpecRead SpecSession SpecRewrite.
From Verif Require Import ListFacts EditFacts WriteFacts HistFacts ClaimFacts RoundFacts FileFacts ReadFacts SessionFacts RewriteFacts.
From Coq Require Import Lia ZifyBool ZifyNat.

Definition part (g : frame) : Prop := well_formed g \/ cut_shape g.

Lemma Forall_edits (P : frame -> Prop) es : forall fs, (forall f, frame_ok f = true -> P (frame_of f)) ->
  Forall P fs -> all_allowed es fs = true -> Forall P (apply_edits es fs).
Proof.
  induction es as [|e es IH]; intros fs F H A; [exact H|]. cbn [all_allowed apply_edits] in *.
  apply andb_true_iff in A. destruct A as (A & A'). apply andb_true_iff in A. destruct A as (K & _).
  apply IH; auto. destruct e as [f|f|id|id i]; cbn [apply_edit edit_ok] in *.
  - apply Forall_put; auto.
  - apply Forall_app. auto.
  - rewrite remove_first_pos. destruct (first_pos _ fs); auto. now apply Forall_delete_at.
  - rewrite remove_nth_pos. destruct (nth_pos _ _ fs); auto. now apply Forall_delete_at.
Qed.

(** Among such frames one was cut off, or all are whole. *)
Lemma parts_split gs : Forall part gs -> Forall well_formed gs \/ Exists cut_shape gs.
Proof.
  induction 1 as [|g gs [W|C] _ IH]; [left; constructor| |right; now left].
  destruct IH as [IH|IH]; [left; now constructor|right; now right].
Qed.

Lemma write_parts gs : forall ps pre k,
  Forall part gs -> map fp_frame ps = gs -> 0 <= k -> zlen pre + k < 2 ^ 31 ->
  (exists u, write_frames (at_pos pre (zmem k)) (nodes ps) = Ub u)
  \/ (exists m k', write_frames (at_pos pre (zmem k)) (nodes ps) = Ok (at_pos (pre ++ m) (zmem k'))
        /\ 0 <= k' /\ (Exists cut_shape gs -> In None m)).
Proof.
  induction gs as [|g gs IH]; intros ps pre k H M K B; destruct ps as [|p ps]; try discriminate M.
  - right. exists [], k. rewrite app_nil_r. split; [reflexivity|]. split; [exact K|]. intros E. inversion E.
  - injection M as Mp M. inversion H as [|? ? Hg H']; subst gs g. change (nodes (p :: ps)) with (fnode p :: nodes ps).
    assert (W : (exists u, Frame_to_char_stream (Some (fp_frame p)) = Ub u)
      \/ exists m, Frame_to_char_stream (Some (fp_frame p)) = Ok (Some (mkCS (zlen m) (zlen m) m))
                   /\ (cut_shape (fp_frame p) -> In None m)).
    { destruct Hg as [(f & Kf & E)|C].
      - right. exists (cells (frame_image be32 f)). rewrite E, frame_write by exact Kf. split.
        + rewrite zlen_cells, frame_image_length by exact Kf. reflexivity.
        + intros C. exfalso. apply cut_unknown in C. destruct C as (C & _). destruct f; unfold cut_frame in C;
            cbn [frame_of f_hdr f_data fh_flags ad_data] in C;
            destruct C as [C|C]; try contradiction; unfold cells in C; apply in_map_iff in C; destruct C as (? & C & _); discriminate C.
      - destruct (cut_spoils _ C) as [S|(m & S & I)]; [now left|right]. exists m. auto. }
    cbn [write_frames fnode n_frame option_map].
    destruct W as [(u & ->)|(m & -> & I)]; [left; now exists u|]. cbn [bind cs_stream cs_size].
    pose proof (zlen_nonneg m).
    destruct (Z.le_gt_cases (zlen m) k) as [L|L].
    2:{ left. exists OobWrite. rewrite write_overflow; [reflexivity|reflexivity|]. rewrite zlen_zmem; lia. }
    rewrite write_z' by lia. cbn [bind].
    destruct (IH ps (pre ++ m) (k - zlen m) H' eq_refl) as [(u & ->)|(m' & k' & -> & Kk & I')]; [lia|rewrite zlen_app; lia|left; now exists u|].
    right. exists (m ++ m'), k'. rewrite app_assoc. split; [reflexivity|]. split; [exact Kk|].
    intros E. rewrite in_app_iff. inversion E as [? ? C|? ? C]; subst; auto.
Qed.

(** A frame that was cut off, wherever it is now, spoils the tag. *)
Lemma cut_anywhere content t gs major minor flags n :
  announces_extended content = false -> 2048 - 2 ^ 31 < t_padding t < 2 ^ 31 ->
  t_header t = mkTH (lit "ID3") major minor flags n 0 -> 0 <= n < 2 ^ 32 ->
  tag_has t gs -> Forall part gs -> Exists cut_shape gs ->
  exists u, ID3v2_write_tag (Some content) (Some t) = Ub u.
Proof.
  intros X P H N (ps & Hl & M & _) K S.
  assert (Ne : ps <> []) by (intros ->; subst gs; inversion S).
  rewrite list_of_nodes in Hl by exact Ne.
  destruct (Z.lt_ge_cases (n + 10) (2 ^ 31)) as [L|L].
  2:{ enough (W : exists u, Tag_to_char_stream t = Ub u) by (destruct W as (u & W); exists u; now apply write_fails).
      destruct (start_tag_big major minor flags n 0 L (proj2 N)) as (u & U). exists u. now rewrite tag_write_start, H, U. }
  set (pre := cells (lit "ID3" ++ [major; minor; flags] ++ four_bytes n)).
  assert (W : Tag_to_char_stream t = write_frames (at_pos pre (zmem n)) (nodes ps)).
  { rewrite tag_write_start, H, start_tag_ok by lia. go. rewrite Hl.
    destruct ps; [congruence|reflexivity]. }
  assert (Zp : zlen pre = 10) by reflexivity. clearbody pre.
  destruct (write_parts gs ps pre n K M) as [(u & U)|(m & k' & U & Kk & I)]; [lia|lia| |].
  - exists u. apply write_fails; auto. now rewrite W.
  - exists UninitRead. rewrite U in W. eapply write_unknown; [exact X|exact P|exact W| |].
    + cbn [at_pos cs_stream]. rewrite !in_app_iff. auto.
    + cbn [at_pos cs_stream cs_size]. now rewrite !zlen_app.
Qed.

Lemma file_parts content h gs pad : file_read content (Some (h, gs, pad)) -> Forall part gs.
Proof.
  intros R. destruct (file_seen _ _ _ _ R) as (major & minor & flags & n & _ & _ & _ & _ & _ & _ & _ & C).
  destruct C as [(ss & -> & K & _)|(ss & g & -> & K & Cu)].
  - apply fspecs_well_formed in K. eapply Forall_impl; [|exact K]. now left.
  - apply Forall_app. split; [|constructor; [now right|constructor]].
    apply fspecs_well_formed in K. eapply Forall_impl; [|exact K]. now left.
Qed.

Lemma cut_frames gs : Exists cut_shape gs -> Exists cut_frame gs.
Proof. intros H. eapply Exists_impl; [|exact H]. intros g C. now apply cut_unknown. Qed.

Lemma whole_not_cut fs : ~ Exists cut_frame (map frame_of fs).
Proof.
  intros H. apply Exists_exists in H. destruct H as (g & I & C). apply in_map_iff in I. destruct I as (f & <- & _).
  destruct f; unfold cut_frame in C; cbn [frame_of f_hdr f_data fh_flags ad_data] in C;
    destruct C as [C|C]; try contradiction; unfold cells in C; apply in_map_iff in C; destruct C as (? & C & _); discriminate C.
Qed.

(** Writing the frames of any file after any edits. *)
Lemma write_parts_file content t gs major minor flags n' :
  announces_extended content = false -> 2048 - 2 ^ 31 < t_padding t < 2 ^ 31 ->
  t_header t = mkTH (lit "ID3") major minor flags (n' mod 2 ^ 32) 0 -> - 2 ^ 31 <= n' < 2 ^ 28 ->
  tag_has t gs -> Forall part gs ->
  (exists fs, gs = map frame_of fs /\ oks fs
     /\ if frames_size fs <=? n'
        then ID3v2_write_tag (Some content) (Some t)
             = Ok (Some (tag_bytes major minor flags n' fs ++ audio content), Some (padded t))
        else exists u, ID3v2_write_tag (Some content) (Some t) = Ub u)
  \/ (Exists cut_frame gs /\ exists u, ID3v2_write_tag (Some content) (Some t) = Ub u).
Proof.
  intros X P Hn N T H. change (2 ^ 31) with 2147483648 in N. change (2 ^ 28) with 268435456 in N.
  assert (Q : 0 <= n' mod 2 ^ 32 < 2 ^ 32) by (apply Z.mod_pos_bound; reflexivity).
  destruct (parts_split gs H) as [W|C].
  2:{ right. split; [now apply cut_frames|]. eapply cut_anywhere; eauto. }
  left. destruct (well_formed_fspecs _ W) as (fs & Ko & ->). exists fs. split; [reflexivity|]. split; [exact Ko|].
  pose proof (frames_size_nonneg fs).
  destruct (Z.leb_spec (frames_size fs) n') as [L|L].
  - rewrite Z.mod_small in Hn by (change (2 ^ 32) with 4294967296; lia).
    apply (write_file content t fs major minor flags n' 0); auto; try lia.
  - enough (W' : exists u, Tag_to_char_stream t = Ub u) by (destruct W' as (u & U); exists u; now apply write_fails).
    pose proof (tag_write_iff t fs major minor flags (n' mod 2 ^ 32) 0 T Ko Hn Q) as U.
    replace ((frames_size fs <=? n' mod 2 ^ 32) && (n' mod 2 ^ 32 + 10 <? 2 ^ 31)) with false in U; [exact U|].
    symmetry. change (2 ^ 32) with 4294967296. change (2 ^ 31) with 2147483648.
    destruct (Z.leb_spec 0 n').
    + rewrite Z.mod_small by lia. lia.
    + replace (n' mod 4294967296) with (n' + 4294967296); [lia|].
      apply Z.mod_unique with (-1); lia.
Qed.

Lemma any_edit content h gs pad cs es :
  file_read content (Some (h, gs, pad)) -> Forall sane gs ->
  Forall2 means cs es -> all_allowed es gs = true ->
  let gs' := apply_edits es gs in
  let n' := bytes_needed gs' + (th_tag_size h - bytes_needed gs) + room_deltas es gs in
  - 2 ^ 31 <= n' < 2 ^ 28 ->
  exists t t', ID3v2_read_tag (Some content) = Ok (Some t) /\ run_calls t cs = Ok t' /\ tag_has t' gs'
    /\ ((exists fs, gs' = map frame_of fs /\ oks fs
            /\ if frames_size fs <=? n'
               then ID3v2_write_tag (Some content) (Some t')
                    = Ok (Some (tag_bytes (th_major h) (th_minor h) (th_flags h) n' fs ++ audio content), Some (padded t'))
               else exists u, ID3v2_write_tag (Some content) (Some t') = Ub u)
        \/ (Exists cut_frame gs' /\ exists u, ID3v2_write_tag (Some content) (Some t') = Ub u)).
Proof.
  intros R Sa M A gs' n' N.
  pose proof (file_parts _ _ _ _ R) as Pg.
  destruct (file_seen _ _ _ _ R) as (major & minor & flags & n & Eh & _ & _ & Xc & _ & Rn & Rp & _).
  subst h. cbn [th_major th_minor th_flags th_tag_size] in *.
  change (2 ^ 29) with 536870912 in *.
  destruct (read_file_exactly content) as [(r & ot & R' & Et & Sh)|(Nr & _)]; [|now apply Nr in R].
  pose proof (file_read_once _ _ _ R R') as <-. destruct ot as [t|]; [|destruct Sh]. destruct Sh as (Ht & Tt & Pt).
  assert (Rt : 0 <= th_tag_size (t_header t) < 2 ^ 32) by (rewrite Ht; cbn [th_tag_size]; change (2 ^ 32) with 4294967296; lia).
  destruct (edit_steps cs t gs es Tt Sa Rt M A) as (t' & Er & T' & _ & H' & P').
  exists t, t'. split; [exact Et|]. split; [exact Er|]. split; [exact T'|].
  apply write_parts_file; auto.
  - rewrite P', Pt. change (2 ^ 31) with 2147483648. lia.
  - now rewrite H', Ht.
  - apply Forall_edits; auto. intros f K. left. now exists f.
Qed.
