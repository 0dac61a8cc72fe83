(** Every session with any file. *)
From Coq Require Import Permutation.
From Verif Require Import BaseFacts UtilsFacts StreamFacts FrameFacts HeaderFacts TagFacts.
From Verif Require Import File Calls Spec SpecEdit SpecFile SpecRead SpecSession SpecRewrite SpecHole SpecTotal.
From Verif Require Import ListFacts EditFacts WriteFacts HistFacts ClaimFacts RoundFacts FileFacts ReadFacts SessionFacts RewriteFacts CutFacts HoleFacts TotalFacts.
From Coq Require Import Lia ZifyBool ZifyNat.

Lemma edit_shelf_parts e s s' :
  edit_ok e = true -> Forall part (held s) -> edit_shelf e s = Some s' -> Forall part (held s').
Proof.
  intros K G E. apply shelf_perm in E. apply Permutation_sym in E.
  assert (H : Forall part (put_in e ++ held s)).
  { apply Forall_app. split; [|exact G]. destruct e; cbn [put_in edit_ok] in *; try apply Forall_nil;
      (apply Forall_cons; [|apply Forall_nil]); left; eexists; split; eauto. }
  apply (Permutation_Forall E) in H. now apply Forall_app in H.
Qed.

Lemma edit_shelves_parts es : forall s s' d,
  forallb edit_ok es = true -> Forall part (held s) -> edit_shelves es s = Some (s', d) -> Forall part (held s').
Proof.
  induction es as [|e es IH]; intros s s' d K G E; cbn [edit_shelves forallb] in *.
  - injection E as <- _. exact G.
  - apply andb_prop in K. destruct K as (K & K'). destruct (edit_shelf e s) as [s1|] eqn:E1; [|discriminate E].
    destruct (edit_shelves es s1) as [[s2 d2]|] eqn:E2; [|discriminate E]. injection E as <- _.
    apply (IH s1 s2 d2 K'); [now apply (edit_shelf_parts e s)|exact E2].
Qed.

(** With frames before a hole, whole or not, nothing is written. *)
Lemma write_parts_holed gs : forall ps qs pre k,
  Forall part gs -> map fp_frame ps = gs -> 0 <= k -> zlen pre + k < 2 ^ 31 ->
  (exists u, write_frames (at_pos pre (zmem k)) (nodes ps ++ empty_node :: qs) = Ub u)
  \/ write_frames (at_pos pre (zmem k)) (nodes ps ++ empty_node :: qs) = Exit 1.
Proof.
  induction gs as [|g gs IH]; intros ps qs pre k H M K B; destruct ps as [|p ps]; try discriminate M.
  - right. reflexivity.
  - injection M as Mp M. inversion H as [|? ? Hg H']; subst gs g. change (nodes (p :: ps)) with (fnode p :: nodes ps).
    assert (W : (exists u, Frame_to_char_stream (Some (fp_frame p)) = Ub u)
      \/ exists m, Frame_to_char_stream (Some (fp_frame p)) = Ok (Some (mkCS (zlen m) (zlen m) m))).
    { destruct Hg as [(f & Kf & E)|C].
      - right. exists (cells (frame_image be32 f)). rewrite E, frame_write by exact Kf.
        rewrite zlen_cells, frame_image_length by exact Kf. reflexivity.
      - destruct (cut_spoils _ C) as [S|(m & S & I)]; [now left|right]. exists m. auto. }
    cbn [app write_frames fnode n_frame option_map].
    destruct W as [(u & ->)|(m & ->)]; [left; now exists u|]. cbn [bind cs_stream cs_size].
    pose proof (zlen_nonneg m).
    destruct (Z.le_gt_cases (zlen m) k) as [L|L].
    2:{ left. exists OobWrite. rewrite write_overflow; [reflexivity|reflexivity|]. rewrite zlen_zmem; lia. }
    rewrite write_z' by lia. cbn [bind].
    apply (IH ps qs (pre ++ m) (k - zlen m) H' eq_refl); [lia|rewrite zlen_app; lia].
Qed.

(** A frame that was cut off and is seen: the tag is not saved. *)
Lemma cut_lost content t s major minor flags n :
  announces_extended content = false -> 2048 - 2 ^ 31 < t_padding t < 2 ^ 31 ->
  t_header t = mkTH (lit "ID3") major minor flags n 0 -> 0 <= n < 2 ^ 32 ->
  tag_holds t s -> Forall part (seen s) -> Exists cut_shape (seen s) ->
  (exists u, ID3v2_write_tag (Some content) (Some t) = Ub u)
  \/ (has_hole s = true /\ ID3v2_write_tag (Some content) (Some t) = Exit 1).
Proof.
  intros X P H N T K S. unfold has_hole. destruct (behind s) as [hidden|] eqn:Bs.
  2:{ left. apply (cut_anywhere content t (seen s) major minor flags n); auto. apply whole_has. unfold whole.
      destruct s as [l b]. cbn [seen behind] in *. subst b. destruct l; [inversion S|exact T]. }
  destruct T as (ps & qs & M & _ & _ & T). rewrite Bs in T. destruct T as (_ & Hl).
  assert (Ne : ps <> []) by (intros ->; rewrite <- M in S; inversion S).
  destruct (Z.lt_ge_cases (n + 10) (2 ^ 31)) as [L|L].
  2:{ left. destruct (start_tag_big major minor flags n 0 L (proj2 N)) as (u & U). exists u. apply write_fails; auto.
      now rewrite tag_write_start, H, U. }
  set (pre := cells (lit "ID3" ++ [major; minor; flags] ++ four_bytes n)).
  assert (W : Tag_to_char_stream t = write_frames (at_pos pre (zmem n)) (nodes ps ++ empty_node :: nodes qs)).
  { rewrite tag_write_start, H, start_tag_ok by lia. go. rewrite Hl.
    destruct ps; [congruence|reflexivity]. }
  assert (Zp : zlen pre = 10) by reflexivity. clearbody pre.
  destruct (write_parts_holed (seen s) ps (nodes qs) pre n K M) as [(u & U)|U]; [lia|lia| |].
  - left. exists u. apply write_fails; auto. now rewrite W.
  - right. split; [reflexivity|]. apply write_exits; auto. now rewrite W.
Qed.

Lemma total_file content h gs pad cs es :
  file_read content (Some (h, gs, pad)) -> Forall sane gs ->
  Forall2 means cs es -> forallb edit_ok es = true ->
  match edit_shelves es (whole gs) with
  | None => run_session cs (Some content) = Ub NullDeref
  | Some (s, d) =>
      let n := (th_tag_size h + d) mod 2 ^ 32 in
      (exists fs, seen s = map frame_of fs /\ Forall (fun f => frame_ok f = true) fs
        /\ match save_ending fs (has_hole s) n with
           | Saved fs => exists f, run_session cs (Some content) = Ok f
                           /\ written (th_major h) (th_minor h) (th_flags h) n fs (audio content) f
           | Exits => run_session cs (Some content) = Exit 1
           | Undefined => exists u, run_session cs (Some content) = Ub u
           end)
      \/ (Exists cut_frame (seen s)
          /\ ((exists u, run_session cs (Some content) = Ub u)
              \/ (has_hole s = true /\ run_session cs (Some content) = Exit 1)))
  end.
Proof.
  intros R Sa M A. pose proof (file_parts _ _ _ _ R) as Pg.
  destruct (file_seen _ _ _ _ R) as (major & minor & flags & n & Eh & _ & _ & Xc & _ & Rn & Rp & _).
  subst h. cbn [th_major th_minor th_flags th_tag_size] in *. change (2 ^ 29) with 536870912 in *.
  destruct (read_file_exactly content) as [(r & ot & R' & Et & Sh)|(Nr & _)]; [|now apply Nr in R].
  pose proof (file_read_once _ _ _ R R') as <-. destruct ot as [t|]; [|destruct Sh]. destruct Sh as (Ht & Tt & Pt).
  assert (Rt : 0 <= th_tag_size (t_header t) < 2 ^ 32) by (rewrite Ht; cbn [th_tag_size]; change (2 ^ 32) with 4294967296; lia).
  assert (Hw : held (whole gs) = gs).
  { unfold held, whole. cbn [seen behind]. destruct gs; [reflexivity|apply app_nil_r]. }
  rewrite <- Hw in Sa, Pg. apply whole_has in Tt.
  pose proof (any_history cs t _ es Tt Sa Rt M A) as Hs.
  destruct (edit_shelves es (whole gs)) as [[s d]|] eqn:E.
  2:{ unfold run_session. rewrite Et. go. now rewrite Hs. }
  destruct Hs as (t' & Er & T' & H' & P'). set (n' := (n + d) mod 2 ^ 32) in *.
  assert (Ps : Forall part (seen s)).
  { assert (Q : Forall part (held s)) by (eapply edit_shelves_parts; eauto). now apply Forall_app in Q. }
  assert (Hn : t_header t' = mkTH (lit "ID3") major minor flags n' 0) by (rewrite H', Ht; reflexivity).
  assert (Rn' : 0 <= n' < 2 ^ 32) by (apply Z.mod_pos_bound; reflexivity).
  assert (Pp : 2048 - 2 ^ 31 < t_padding t' < 2 ^ 31) by (rewrite P', Pt; change (2 ^ 31) with 2147483648; lia).
  assert (Rs : forall o, ID3v2_write_tag (Some content) (Some t') = o ->
    run_session cs (Some content) = let* (f, _) := o in Ok f).
  { intros o <-. unfold run_session. rewrite Et. go. now rewrite Er. }
  destruct (parts_split _ Ps) as [W|C].
  - left. destruct (well_formed_fspecs _ W) as (fs & Ko & Q). exists fs. split; [exact Q|]. split; [exact Ko|].
    pose proof (save_total content t' s fs major minor flags n' 0 T' Q Ko Hn Rn' Xc Pp) as Z.
    destruct (save_ending fs (has_hole s) n') as [ws| |].
    + destruct Z as (f & Z & Wf). exists f. split; [exact (Rs _ Z)|exact Wf].
    + exact (Rs _ Z).
    + destruct Z as (u & Z). exists u. exact (Rs _ Z).
  - right. split; [now apply cut_frames|].
    destruct (cut_lost content t' s major minor flags n' Xc Pp Hn Rn' T' Ps C) as [(u & Z)|(Hh & Z)].
    + left. exists u. exact (Rs _ Z).
    + right. split; [exact Hh|]. exact (Rs _ Z).
Qed.

(** Files without a tag, and files whose tag cannot be read. *)
Lemma total_no_tag content cs : file_read content None -> run_session cs (Some content) = Ok (Some content).
Proof.
  intros R. destruct (read_file_exactly content) as [(r & ot & R' & Et & Sh)|(Nr & _)]; [|now apply Nr in R].
  pose proof (file_read_once _ _ _ R R') as <-. destruct ot as [t|]; [destruct Sh|].
  unfold run_session. now rewrite Et.
Qed.

Lemma total_unreadable content cs : (forall r, ~ file_read content r) -> exists u, run_session cs (Some content) = Ub u.
Proof.
  intros N. destruct (read_file_exactly content) as [(r & ot & R & _)|(_ & u & E)]; [now apply N in R|].
  exists u. unfold run_session. now rewrite E.
Qed.
