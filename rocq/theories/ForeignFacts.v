(** The version 1 interface on the files of other programs. *)
From Verif Require Import BaseFacts UtilsFacts StreamFacts FrameFacts HeaderFacts TagFacts.
From Verif Require Import File Calls Spec SpecEdit SpecFile SpecRead SpecSession SpecRewrite.
From Verif Require Import ListFacts EditFacts WriteFacts HistFacts ClaimFacts RoundFacts FileFacts ReadFacts SessionFacts RewriteFacts CutFacts.
From Verif Require Import Compat SpecCompat CompatFacts SpecForeign.
From Coq Require Import Lia ZifyBool ZifyNat.

Definition show_any (p : fptr) : cframe := compat_any (fp_addr p) (fp_frame p).

Lemma body_cells_of f : body_cells (frame_of f) = cells (frame_body f).
Proof.
  destruct f; unfold body_cells, frame_body, body_with;
    cbn [frame_of f_data frame_encoding td_encoding td_text cd_encoding cd_language cd_short cd_comment ad_encoding ad_mime ad_type ad_desc ad_data];
    rewrite ?cells_app; reflexivity.
Qed.

Lemma compat_whole a f : frame_ok f = true -> compat_any a (frame_of f) = compat_of a f.
Proof.
  intros K. pose proof (frame_ok_common f K) as (_ & Lf & _). unfold compat_any, compat_of. rewrite body_cells_of.
  cbn [frame_of f_hdr fh_id fh_size fh_flags]. destruct (frame_flags f); [discriminate Lf|reflexivity].
Qed.

Lemma to_compat_cut a g : cut_shape g ->
  frame_to_compat_frame (Some (a, g)) = if fh_size (f_hdr g) + 10 <? 2 ^ 31 then Ok (compat_any a g) else Ub IntOverflow.
Proof.
  intros C. pose proof (cut_sizes g C) as (Zi & Zf & Zb & Zl & Zs).
  unfold frame_to_compat_frame. cbn [deref bind fp_frame fp_addr fst snd].
  rewrite (cut_writes g C).
  destruct (fh_id (f_hdr g)) as [|i1 [|i2 [|i3 [|i4 [|? ?]]]]] eqn:Ei;
    try (exfalso; unfold zlen in Zi; cbn [length] in Zi; lia).
  destruct (fh_flags (f_hdr g)) as [|g1 [|g2 [|? ?]]] eqn:Ef; try (exfalso; unfold zlen in Zf; cbn [length] in Zf; lia).
  change (memcpy_from (Some [i1; i2; i3; i4]) ID3v2_FRAME_HEADER_ID_LENGTH) with (Ok [i1; i2; i3; i4]).
  change (memcpy_from (Some [g1; g2]) ID3v2_TAG_HEADER_FLAGS_LENGTH) with (Ok [g1]).
  cbn [bind]. destruct (Z.ltb_spec (fh_size (f_hdr g) + 10) (2 ^ 31)) as [B|B]; [|reflexivity].
  cbn [bind deref CharStream_seek]. ifF.
  set (hd := [i1; i2; i3; i4] ++ cells (be32 (fh_size (f_hdr g))) ++ [g1; g2]).
  assert (S : layout g = hd ++ body_cells g) by (unfold layout, hd; now rewrite Ei, Ef, <- !app_assoc).
  assert (Z10 : zlen hd = 10) by reflexivity.
  assert (P : with_cursor (mkCS (zlen (layout g)) (zlen (layout g)) (layout g)) ID3v2_FRAME_HEADER_LENGTH
    = at_pos hd (body_cells g ++ [])).
  { unfold with_cursor, at_pos. cbn [cs_size cs_stream]. rewrite app_nil_r, Z10, <- S. f_equal. lia. }
  rewrite P, read_into_at.
  - cbn [bind]. unfold compat_any. rewrite Ei, Ef. reflexivity.
  - unfold fits. rewrite app_nil_r, Z10. lia.
  - now symmetry.
Qed.

Lemma to_compat_any a g : part g -> sane g -> frame_to_compat_frame (Some (a, g)) = Ok (compat_any a g).
Proof.
  intros [(f & K & ->)|C] (_ & B).
  - rewrite to_compat by exact K. now rewrite compat_whole.
  - rewrite to_compat_cut by exact C. replace (_ <? _) with true by lia. reflexivity.
Qed.

Lemma cut_sane g : cut_shape g -> (fh_size (f_hdr g) + 10 < 2 ^ 31 <-> sane g).
Proof.
  intros C. pose proof (cut_sizes g C) as (_ & _ & _ & _ & Zs). split; [|intros (_ & B); lia].
  intros B. split; [|lia]. destruct C as [(id & fl & body & Li & _ & _ & _ & _ & _ & ->)|(fl & m & ty & d & data & _ & _ & _ & _ & ->)];
    [exists id; auto|exists (lit "APIC"); auto].
Qed.

Lemma load_any ps : forall acc, Forall part (map fp_frame ps) -> Forall sane (map fp_frame ps) ->
  load_frames (nodes ps) (clist_of acc) = Ok (clist_of (acc ++ map show_any ps)).
Proof.
  induction ps as [|[a g] ps IH]; intros acc K S; [cbn; now rewrite app_nil_r|].
  cbn [map fp_frame snd] in K, S. inversion K; inversion S; subst.
  cbn [nodes map load_frames fnode n_frame]. rewrite to_compat_any by auto. cbn [bind]. rewrite add_clist. cbn [bind]. fold (nodes ps).
  rewrite IH by auto. now rewrite <- app_assoc.
Qed.

Lemma load_frames_app l1 : forall l2 acc,
  load_frames (l1 ++ l2) acc = let* acc := load_frames l1 acc in load_frames l2 acc.
Proof.
  induction l1 as [|n l1 IH]; intros l2 acc; [reflexivity|]. cbn [app load_frames].
  destruct (frame_to_compat_frame _); try reflexivity. cbn [bind]. destruct (add_to_list acc a); try reflexivity. apply IH.
Qed.

(** The header that is shown. *)
Lemma shown_header major minor flags n : 0 <= n < 2 ^ 29 ->
  mkCH (cells (lit "ID3")) (Some major) (Some minor) (Some flags) (Some (to_i32 n)) (Some (to_i32 0))
  = compat_header major minor flags n.
Proof.
  intros N. change (2 ^ 29) with 536870912 in N. unfold compat_header.
  rewrite to_i32_id by (change (2 ^ 31) with 2147483648; lia). reflexivity.
Qed.

Lemma load_buffer_is p n t : ID3v2_read_tag_from_buffer p n = Ok (Some t) ->
  exists raw, load_tag_with_buffer p n
    = let* frames := load_frames (t_frames t) new_frame_list in
      let h := t_header t in
      Ok (mkCTag (Some raw) (mkCH (cells (th_identifier h)) (Some (th_major h)) (Some (th_minor h)) (Some (th_flags h))
                                  (Some (to_i32 (th_tag_size h))) (Some (to_i32 (th_ext_size h)))) frames t).
Proof.
  intros R. unfold load_tag_with_buffer. rewrite R. cbn [bind deref].
  assert (M : exists raw, memcpy_from p n = Ok raw).
  { unfold ID3v2_read_tag_from_buffer, CharStream_from_buffer in R. destruct (memcpy_from p n); try discriminate R. eauto. }
  destruct M as (raw & M). rewrite M. cbn [bind]. eauto.
Qed.

Lemma load_file_is f t : ID3v2_read_tag f = Ok (Some t) ->
  exists raw, load_tag f
    = let* frames := load_frames (t_frames t) new_frame_list in
      let h := t_header t in
      Ok (mkCTag (Some raw) (mkCH (cells (th_identifier h)) (Some (th_major h)) (Some (th_minor h)) (Some (th_flags h))
                                  (Some (to_i32 (th_tag_size h))) (Some (to_i32 (th_ext_size h)))) frames t).
Proof.
  intros R. rewrite load_file. unfold ID3v2_read_tag in R.
  destruct (ID3v2_read_tag_header f) as [[h|]|u|n|]; cbn [bind] in R; try discriminate R.
  destruct f as [content|]; [|discriminate R]. now apply load_buffer_is.
Qed.

Lemma load_file_ub f u : ID3v2_read_tag f = Ub u -> load_tag f = Ub u.
Proof.
  intros R. rewrite load_file. unfold ID3v2_read_tag in R.
  destruct (ID3v2_read_tag_header f) as [[h|]|?|n|]; cbn [bind] in R; try discriminate R; [|congruence].
  destruct f as [content|]; [|congruence]. now apply load_ub.
Qed.

Lemma load_foreign content r : file_read content r ->
  match r with
  | None => load_tag (Some content) = Ub NullDeref
  | Some (h, gs, pad) =>
      match gs with
      | [] => load_tag (Some content) = Ub NullDeref
      | _ =>
        (Forall sane gs /\ exists c raw, load_tag (Some content) = Ok c /\ mirrors_any c gs
           /\ t_header (ct_tag c) = h /\ t_padding (ct_tag c) = pad /\ ct_raw c = Some raw
           /\ ct_header c = compat_header (th_major h) (th_minor h) (th_flags h) (th_tag_size h))
        \/ (Exists (fun g => ~ sane g) gs /\ load_tag (Some content) = Ub IntOverflow)
      end
  end.
Proof.
  intros R. destruct (read_file_exactly content) as [(r' & ot & R' & Et & Sh)|(Nr & _)]; [|now apply Nr in R].
  pose proof (file_read_once _ _ _ R R') as <-. clear R'.
  destruct r as [((h & gs) & pad)|].
  2:{ destruct ot; [destruct Sh|]. now apply load_file_none. }
  destruct ot as [t|]; [|destruct Sh]. destruct Sh as (Ht & (ps & Hl & Hf & D & B) & Pt).
  pose proof (file_parts _ _ _ _ R) as Pg.
  destruct (file_seen _ _ _ _ R) as (major & minor & flags & n & Eh & _ & _ & _ & _ & Rn & _ & C).
  destruct (load_file_is _ _ Et) as (raw & L). rewrite L, Hl. cbv zeta.
  destruct gs as [|g0 gs0].
  { destruct ps; [|discriminate Hf]. reflexivity. }
  set (gs := g0 :: gs0) in *.
  assert (Np : ps <> []) by (intros ->; discriminate Hf).
  rewrite list_of_nodes by exact Np. change new_frame_list with (clist_of []).
  assert (Dec : Forall sane gs \/ exists ss g, gs = map frame_of ss ++ [g] /\ oks ss /\ cut_shape g /\ ~ sane g).
  { destruct C as [(ss & -> & K & _)|(ss & g & -> & K & Cu)].
    - left. now apply well_formed_sane, fspecs_well_formed.
    - destruct (Z.lt_ge_cases (fh_size (f_hdr g) + 10) (2 ^ 31)) as [Q|Q].
      + left. apply Forall_app. split; [now apply well_formed_sane, fspecs_well_formed|].
        constructor; [now apply cut_sane|constructor].
      + right. exists ss, g. repeat split; auto. intros S. apply cut_sane in S; auto. lia. }
  destruct Dec as [Sa|(ss & g & E & K & Cu & Ns)].
  - left. split; [exact Sa|]. rewrite load_any by now rewrite Hf. cbn [bind app].
    eexists _, raw. split; [reflexivity|]. cbn [ct_tag ct_raw ct_header]. split; [|split; [exact Ht|split; [exact Pt|split; [reflexivity|]]]].
    + exists ps. split; [|exact Hf]. split; [exact Hl|]. split; [reflexivity|]. split; [exact D|exact B].
    + rewrite Ht, Eh. cbn [th_identifier th_major th_minor th_flags th_tag_size th_ext_size]. now apply shown_header.
  - right. rewrite E in Hf |- *. split; [apply Exists_exists; exists g; split; [apply in_or_app; right; now left|exact Ns]|].
    destruct (map_eq_app _ _ _ _ Hf) as (ps1 & ps2 & -> & M1 & M2).
    destruct ps2 as [|[a g'] [|? ?]]; try discriminate M2. cbn [map fp_frame snd] in M2. injection M2 as ->.
    unfold nodes. rewrite map_app, load_frames_app. fold (nodes ps1). rewrite load_any.
    + cbn [bind map load_frames fnode n_frame]. rewrite to_compat_cut by exact Cu.
      replace (fh_size (f_hdr g) + 10 <? 2 ^ 31) with false; [reflexivity|]. symmetry. apply Z.ltb_ge.
      destruct (Z.lt_ge_cases (fh_size (f_hdr g) + 10) (2 ^ 31)) as [Q|Q]; [|exact Q]. destruct Ns. now apply cut_sane.
    + rewrite M1. apply fspecs_well_formed in K. eapply Forall_impl; [|exact K]. now left.
    + rewrite M1. now apply well_formed_sane, fspecs_well_formed.
Qed.

Lemma load_unread content : (forall r, ~ file_read content r) -> exists u, load_tag (Some content) = Ub u.
Proof.
  intros N. destruct (read_file_exactly content) as [(r & ot & R & _)|(_ & u & U)]; [now apply N in R|].
  exists u. now apply load_file_ub.
Qed.

(** ** Getters *)

Lemma sane_id g : sane g -> exists i, fh_id (f_hdr g) = cells i /\ length i = 4%nat /\ forall id, named id g = same_id i id.
Proof. intros ((i & Hi & Li) & _). exists i. repeat split; auto. intros id. unfold named. now rewrite (id_bytes_cells _ i). Qed.

Lemma get_any arg id ps :
  Forall sane (map fp_frame ps) -> points_to arg id -> length id = 4%nat ->
  get_from_list (cnodes (map show_any ps)) arg = Ok (option_map show_any (find (fun p => named id (fp_frame p)) ps)).
Proof.
  intros K (tail & ->) L. induction ps as [|[a g] ps IH]; [reflexivity|].
  cbn [map fp_frame snd] in K. inversion K as [|? ? Kg K']; subst. destruct (sane_id g Kg) as (i & Hi & Li & Nm).
  cbn [map cnodes get_from_list cn_frame show_any fp_addr fp_frame fst snd deref bind cf_id compat_any find].
  rewrite Hi, strncmp_key by auto. cbn [bind]. rewrite Nm.
  destruct (same_id i id); [reflexivity|]. apply IH. exact K'.
Qed.

Lemma get_mirrored_any c ps arg id :
  mirrored_any c ps -> Forall sane (map fp_frame ps) -> points_to arg id -> length id = 4%nat ->
  get_compat (Some c) arg = Ok (option_map show_any (find (fun p => named id (fp_frame p)) ps)).
Proof.
  intros (_ & Hc & _) K P L. unfold get_compat. cbn [deref bind]. rewrite Hc.
  destruct ps as [|p ps]; [reflexivity|]. rewrite clist_of_nodes by discriminate. now apply get_any.
Qed.

Lemma getters_any c ps : mirrored_any c ps -> Forall sane (map fp_frame ps) ->
  let first id := Ok (option_map show_any (find (fun p => named (lit id) (fp_frame p)) ps)) in
  tag_get_title (Some c) = first "TIT2"%string
  /\ tag_get_artist (Some c) = first "TPE1"%string
  /\ tag_get_album (Some c) = first "TALB"%string
  /\ tag_get_album_artist (Some c) = first "TPE2"%string
  /\ tag_get_genre (Some c) = first "TCON"%string
  /\ tag_get_track (Some c) = first "TRCK"%string
  /\ tag_get_year (Some c) = first "TYER"%string
  /\ tag_get_comment (Some c) = first "COMM"%string
  /\ tag_get_disc_number (Some c) = first "TPOS"%string
  /\ tag_get_composer (Some c) = first "TCOM"%string
  /\ tag_get_album_cover (Some c) = first "APIC"%string.
Proof.
  intros M S first.
  repeat split; (apply get_mirrored_any; [exact M|exact S|apply points_to_lit|reflexivity]).
Qed.

(** ** Contents *)

Lemma frame_at_any ps : forall a g, NoDup (map fp_addr ps) -> In (a, g) ps -> frame_at (nodes ps) a = Ok g.
Proof.
  induction ps as [|[b h] ps IH]; intros a g D I; [destruct I|].
  cbn [map fp_addr fst] in D. inversion D as [|? ? N D']; subst.
  cbn [nodes map frame_at fnode n_frame fp_addr fp_frame fst snd]. fold (nodes ps).
  destruct I as [E|I].
  - injection E as -> ->. now rewrite Nat.eqb_refl.
  - destruct (Nat.eqb_spec b a) as [->|]; [|auto]. destruct N. change a with (fp_addr (a, g)). now apply in_map.
Qed.

Lemma frame_at_mirrored_any c ps a g : mirrored_any c ps -> In (a, g) ps -> frame_at (t_frames (ct_tag c)) a = Ok g.
Proof.
  intros (Hl & _ & D & _) I. rewrite Hl. destruct ps as [|q ps]; [destruct I|].
  rewrite list_of_nodes by discriminate. now apply frame_at_any.
Qed.

Lemma contents_any c ps a g : mirrored_any c ps -> In (a, g) ps ->
  let live := t_frames (ct_tag c) in
  let p := Some (compat_any a g) in
  (forall id fl t, g = frame_of (FText id fl t) ->
     parse_text_frame_content live p = Ok (mkTC (zlen (text_image t)) (text_encoding t) (cells (text_image t))))
  /\ (forall fl lang d co, g = frame_of (FComment fl lang d co) ->
     parse_comment_frame_content live p
     = Ok (mkCC (cells lang) (cells (text_image d)) (mkTC (zlen (text_image co)) (text_encoding co) (cells (text_image co)))))
  /\ (forall d, f_data g = DApic d ->
     parse_apic_frame_content live p
     = Ok (mkAC (ad_encoding d) (ad_mime d) (ad_type d) (ad_desc d) (ad_picture_size d) (ad_data d))).
Proof.
  intros M I live p. pose proof (frame_at_mirrored_any c ps a g M I) as A. fold live in A.
  unfold parse_text_frame_content, parse_comment_frame_content, parse_apic_frame_content, p.
  cbn [deref bind compat_any cf_frame]. rewrite A. cbn [bind]. split; [|split].
  - intros id fl t ->. cbn [frame_of f_data td_text td_size td_encoding]. now rewrite memcpy_from_all by now rewrite zlen_cells.
  - intros fl lang d co ->. reflexivity.
  - intros d ->. reflexivity.
Qed.

(** ** Setters *)

Lemma add_uniq_any ps n f :
  Forall sane (map fp_frame ps) -> frame_ok f = true ->
  forallb (fun b => negb (is_zero b)) (frame_id f) = true ->
  add_uniq_to_list (cnodes (map show_any ps)) (compat_of n f)
  = if existsb (pnamed (frame_id f)) ps
    then Ok (cnodes (map show_any (pput f n ps))) else Ub NullDeref.
Proof.
  intros K Kf N. pose proof (frame_ok_common f Kf) as (Li & _). unfold pput. induction ps as [|[a g] ps IH]; [reflexivity|].
  cbn [map fp_frame snd] in K. inversion K as [|? ? Kg K']; subst. destruct (sane_id g Kg) as (i & Hi & Lg & Nm).
  cbn [map cnodes add_uniq_to_list cn_frame cn_start show_any fp_addr fp_frame fst snd deref bind cf_id compat_any existsb put].
  change (cf_id (compat_of n f)) with (cells (frame_id f)).
  rewrite Hi, memcmp_ids by auto. cbn [bind]. rewrite same_id_full by (auto; congruence).
  unfold pnamed at 1 3. cbn [fp_frame snd]. rewrite !Nm. destruct (same_id i (frame_id f)).
  - assert (E : show_any (n, frame_of f) = compat_of n f) by now apply compat_whole.
    cbn [orb map cnodes]. now rewrite E.
  - cbn [orb]. fold (cnodes (map show_any ps)). rewrite IH by exact K'. destruct (existsb (pnamed (frame_id f)) ps); [|reflexivity].
    cbn [bind map cnodes]. unfold show_any, compat_any. cbn [fp_addr fp_frame fst snd]. rewrite Hi. reflexivity.
Qed.

Lemma set_any c ps cc f :
  mirrored_any c ps -> Forall sane (map fp_frame ps) -> cmeans cc f -> frame_ok f = true ->
  if existsb (pnamed (frame_id f)) ps
  then exists c', run_ccall cc (Some c) = Ok c'
         /\ mirrored_any c' (pput f (t_fresh (ct_tag c)) ps)
         /\ ct_raw c' = ct_raw c /\ ct_header c' = ct_header c
         /\ run_call (ct_tag c) (call_of cc f) = Ok (ct_tag c')
  else run_ccall cc (Some c) = Ub NullDeref.
Proof.
  intros (Hl & Hc & D & B) S C K. pose proof (cmeans_means _ _ C) as C'. pose proof (cmeans_nonzero _ _ C) as N.
  assert (O : owns (ct_tag c) ps) by (split; auto).
  assert (Sn : all_sane ps) by now apply all_sane_map.
  destruct (setter_has_getter _ _ C') as (g & G). destruct (getter_by_id _ _ _ C' G) as (arg & P & Hg).
  rewrite (run_ccall_set cc f) by auto. unfold set_of. rewrite G. unfold set_compat. cbn [deref bind].
  set (n := t_fresh (ct_tag c)) in *.
  pose proof (run_put (ct_tag c) _ _ f O Sn C' K) as R. rewrite install_put in R by auto. fold n in R. rewrite R. cbn [bind].
  rewrite Hg. cbn [ID3v2_Tag_get_frame t_frames].
  rewrite (get_list_of arg (frame_id f)); [|now apply sane_put|exact P|now apply frame_ok_common in K].
  assert (Fp : find (pnamed (frame_id f)) (pput f n ps) = Some (n, frame_of f))
    by (unfold pput; apply find_put; apply named_frame_of).
  rewrite Fp. cbn [bind]. rewrite to_compat by exact K. cbn [bind].
  rewrite Hc. change (clist_of _) with (clist_of (map show_any ps)).
  pose proof (add_uniq_any ps n f S K N) as A.
  destruct ps as [|p ps]; [reflexivity|]. rewrite clist_of_nodes by discriminate. rewrite A.
  destruct (existsb (pnamed (frame_id f)) (p :: ps)); [|reflexivity]. cbn [bind].
  eexists. split; [reflexivity|]. cbn [ct_raw ct_header ct_tag]. split; [|auto].
  pose proof (put_owns (ct_tag c) f _ (t_header (ct_tag c)) 0 O) as (_ & D' & B'). fold n in D', B'.
  split; cbn [ct_tag t_frames ct_frames t_fresh]; [reflexivity|].
  split; [|split; [exact D'|exact B']].
  rewrite clist_of_nodes; [reflexivity|]. intros E. apply map_eq_nil in E. revert E. apply put_not_nil.
Qed.

Lemma frames_pput f n ps : map fp_frame (pput f n ps) = put (named (frame_id f)) (frame_of f) (map fp_frame ps).
Proof. exact (map_put fp_frame (named (frame_id f)) (n, frame_of f) ps). Qed.

Lemma named_pnamed id ps : existsb (named id) (map fp_frame ps) = existsb (pnamed id) ps.
Proof. induction ps as [|p ps IH]; [reflexivity|]. cbn [map existsb]. now rewrite IH. Qed.

Lemma put_sane f gs : frame_ok f = true -> Forall sane gs -> Forall sane (put (named (frame_id f)) (frame_of f) gs).
Proof. intros K H. apply Forall_put; auto. now apply frame_of_sane. Qed.

Lemma set_all ccs : forall c gs fs,
  mirrors_any c gs -> Forall sane gs -> Forall2 cmeans ccs fs -> forallb frame_ok fs = true ->
  match put_over fs gs with
  | None => run_ccalls ccs c = Ub NullDeref
  | Some gs' => exists c' cs, run_ccalls ccs c = Ok c' /\ mirrors_any c' gs'
      /\ ct_raw c' = ct_raw c /\ ct_header c' = ct_header c
      /\ Forall2 means cs (map Put fs) /\ run_calls (ct_tag c) cs = Ok (ct_tag c')
  end.
Proof.
  induction ccs as [|cc ccs IH]; intros c gs fs M S F K; inversion F as [|? f ? fs' C F']; subst; cbn [put_over].
  - exists c, []. cbn. auto 10.
  - cbn [forallb] in K. apply andb_true_iff in K. destruct K as (K & Ks).
    destruct M as (ps & M & <-). rewrite named_pnamed.
    pose proof (set_any c ps cc f M S C K) as H. cbn [run_ccalls].
    destruct (existsb (pnamed (frame_id f)) ps); [|now rewrite H].
    destruct H as (c1 & R & M1 & Hr & Hh & Rc). rewrite R. cbn [bind].
    assert (Ms : mirrors_any c1 (put (named (frame_id f)) (frame_of f) (map fp_frame ps))).
    { eexists. split; [exact M1|]. apply frames_pput. }
    specialize (IH c1 _ _ Ms (put_sane f _ K S) F' Ks).
    destruct (put_over fs' _) as [gs'|]; [|exact IH].
    destruct IH as (c2 & cs & R2 & M2 & Hr2 & Hh2 & Fm & Rc2).
    exists c2, (call_of cc f :: cs). cbn [run_calls map]. rewrite Rc. cbn [bind].
    split; [exact R2|]. split; [exact M2|]. split; [congruence|]. split; [congruence|]. split; [|exact Rc2].
    constructor; [now apply cmeans_means|exact Fm].
Qed.

Lemma puts_over fs : forall gs gs', forallb frame_ok fs = true -> put_over fs gs = Some gs' ->
  all_allowed (map Put fs) gs = true /\ apply_edits (map Put fs) gs = gs' /\ room_deltas (map Put fs) gs = 0.
Proof.
  induction fs as [|f fs IH]; intros gs gs' K P; cbn [put_over map all_allowed apply_edits room_deltas] in *.
  - injection P as ->. auto.
  - cbn [forallb] in K. apply andb_true_iff in K. destruct K as (K & Ks).
    destruct (existsb (named (frame_id f)) gs) eqn:E; [|discriminate P].
    destruct (IH _ _ Ks P) as (A & B & R). cbn [apply_edit edit_ok allowed]. rewrite K, A, B, R.
    split; [reflexivity|]. split; [reflexivity|]. unfold room_delta.
    destruct (find (named (frame_id f)) gs) eqn:Q; [reflexivity|].
    apply existsb_exists in E. destruct E as (g & I & Ng). eapply find_none in Q; [|exact I]. congruence.
Qed.

Lemma mirrored_kept c ps t : mirrored_any c ps -> t_frames t = t_frames (ct_tag c) -> t_fresh t = t_fresh (ct_tag c) ->
  mirrored_any (mkCTag (ct_raw c) (ct_header c) (ct_frames c) t) ps.
Proof. intros (Hl & Hc & D & B) Ef En. split; cbn [ct_tag ct_frames]; [congruence|]. rewrite En. auto. Qed.

Lemma mirrors_whole c fs : Forall (fun f => frame_ok f = true) fs -> (mirrors_any c (map frame_of fs) <-> mirrors c fs).
Proof.
  intros K. split.
  - intros (ps & (Hl & Hc & D & B) & Hf).
    assert (T : tag_has (ct_tag c) (map frame_of fs)) by (exists ps; auto).
    assert (Q : exists afs, map ptr_of afs = ps /\ map snd afs = fs).
    { clear - Hf. revert ps Hf. induction fs as [|f fs IH]; intros [|[a g] ps] Hf; try discriminate Hf; [exists []; auto|].
      cbn [map fp_frame snd] in Hf. injection Hf as -> Hf. destruct (IH _ Hf) as (afs & <- & <-). exists ((a, f) :: afs). auto. }
    destruct Q as (afs & <- & <-). exists afs. split; [|reflexivity]. rewrite ptr_addrs in D, B.
    split; [exact Hl|]. split; [|auto]. rewrite Hc, map_map. f_equal. apply map_ext_in. intros [a f] I.
    rewrite Forall_forall in K. apply compat_whole. apply K. change f with (snd (a, f)). now apply in_map.
  - intros (afs & (Hl & Hc & D & B & Kf) & <-). exists (map ptr_of afs). split; [|rewrite !map_map; reflexivity].
    split; [exact Hl|]. rewrite ptr_addrs. split; [|auto]. rewrite Hc, map_map. f_equal. apply map_ext_in. intros [a f] I.
    rewrite Forall_forall in Kf. symmetry. apply compat_whole. apply Kf. change f with (snd (a, f)). now apply in_map.
Qed.

(** ** From loading to saving *)

Lemma save_foreign content h gs pad ccs fs :
  file_read content (Some (h, gs, pad)) -> gs <> [] -> Forall sane gs ->
  Forall2 cmeans ccs fs -> forallb frame_ok fs = true ->
  exists c, load_tag (Some content) = Ok c /\ mirrors_any c gs
    /\ match put_over fs gs with
       | None => run_ccalls ccs c = Ub NullDeref
       | Some gs' =>
           let n := bytes_needed gs' + (th_tag_size h - bytes_needed gs) in
           exists c', run_ccalls ccs c = Ok c' /\ mirrors_any c' gs' /\ ct_header c' = ct_header c
           /\ (- 2 ^ 31 <= n < 2 ^ 28 ->
               (exists fs', gs' = map frame_of fs' /\ Forall (fun f => frame_ok f = true) fs'
                  /\ if frames_size fs' <=? n
                     then exists c'', set_tag (Some content) (Some c')
                            = Ok (Some (tag_bytes (th_major h) (th_minor h) (th_flags h) n fs' ++ audio content), c'')
                          /\ mirrors c'' fs'
                     else exists u, set_tag (Some content) (Some c') = Ub u)
               \/ (Exists cut_frame gs' /\ exists u, set_tag (Some content) (Some c') = Ub u))
       end.
Proof.
  intros R Ne Sa F K. pose proof (load_foreign _ _ R) as L. cbv beta iota in L.
  assert (L' : exists c, load_tag (Some content) = Ok c /\ mirrors_any c gs /\ t_header (ct_tag c) = h /\ t_padding (ct_tag c) = pad).
  { destruct gs as [|g0 gs0]; [congruence|]. destruct L as [(_ & c & raw & Ec & M & Hh & Hp & _)|(E & _)]; [eauto 6|].
    exfalso. apply Exists_exists in E. destruct E as (g & I & N). rewrite Forall_forall in Sa. auto. }
  destruct L' as (c & Ec & M & Hh & Hp). exists c. split; [exact Ec|]. split; [exact M|].
  pose proof (set_all ccs c gs fs M Sa F K) as S. destruct (put_over fs gs) as [gs'|] eqn:P; [|exact S].
  destruct S as (c' & cs & Rc & M' & _ & Hh' & Fm & Ri). cbv zeta. exists c'. split; [exact Rc|]. split; [exact M'|]. split; [exact Hh'|].
  intros N. destruct (puts_over fs gs gs' K P) as (A & Ed & Rd).
  destruct (any_edit content h gs pad cs (map Put fs) R Sa Fm A) as (t & t' & Et & Er & T' & W).
  { rewrite Ed, Rd, Z.add_0_r. exact N. }
  rewrite Ed, Rd, Z.add_0_r in W.
  assert (Eq : t = ct_tag c).
  { destruct (load_file_is _ _ Et) as (raw & Lf). rewrite Ec in Lf. destruct (load_frames (t_frames t) new_frame_list); try discriminate Lf.
    injection Lf as ->. reflexivity. }
  subst t. rewrite Ri in Er. assert (t' = ct_tag c') by congruence. subst t'. clear Er.
  destruct W as [(fs' & Eg & Kf & W)|(Cu & u & W)].
  - left. exists fs'. split; [exact Eg|]. split; [exact Kf|]. destruct (frames_size fs' <=? _).
    + unfold set_tag. cbn [deref bind]. rewrite W. cbn [bind deref]. eexists. split; [reflexivity|].
      apply (mirrors_whole _ fs' Kf). rewrite <- Eg. destruct M' as (ps & M' & Hf). exists ps. split; [|exact Hf].
      apply mirrored_kept; auto.
    + destruct W as (u & W). exists u. unfold set_tag. cbn [deref bind]. now rewrite W.
  - right. split; [exact Cu|]. exists u. unfold set_tag. cbn [deref bind]. now rewrite W.
Qed.

Lemma free_any c gs raw : mirrors_any c gs -> gs <> [] -> ct_raw c = Some raw -> free_tag (Some c) = Ok tt.
Proof.
  intros (ps & (_ & Hc & _) & Hs) N R. unfold free_tag. cbn [deref bind]. rewrite R, Hc.
  destruct ps as [|p ps]; [now destruct N|]. rewrite clist_of_nodes by discriminate.
  clear. generalize (map (fun p => compat_any (fp_addr p) (fp_frame p)) (p :: ps)). induction l as [|x l IH]; [reflexivity|].
  exact IH.
Qed.
