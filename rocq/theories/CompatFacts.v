(** Facts about the version 1 interface. *)
From Verif Require Import Compat Calls Spec SpecEdit SpecFile SpecCompat.
From Verif Require Export FileFacts.

Definition ptr_of (af : placed) : fptr := (fst af, frame_of (snd af)).
Definition show (af : placed) : cframe := compat_of (fst af) (snd af).
Definition cnodes (l : list cframe) : clist := map (fun f => mkCNode (Some f) true) l.

Lemma clist_of_nodes l : l <> [] -> clist_of l = cnodes l.
Proof. destruct l; [congruence|reflexivity]. Qed.

Lemma to_compat a f : frame_ok f = true ->
  frame_to_compat_frame (Some (a, frame_of f)) = Ok (compat_of a f).
Proof.
  intros K. pose proof (frame_ok_common f K) as (Li & Lf & B). pose proof (body_size_nonneg f).
  unfold frame_to_compat_frame. cbn [deref bind fp_frame fp_addr fst snd].
  rewrite (frame_write f K). cbn [deref bind CharStream_seek].
  cbn [frame_of f_hdr fh_id fh_flags fh_size].
  destruct (frame_id f) as [|i1 [|i2 [|i3 [|i4 [|? ?]]]]] eqn:Ei; try discriminate Li.
  destruct (frame_flags f) as [|g1 [|g2 [|? ?]]] eqn:Ef; try discriminate Lf.
  cbn [cells map]. change (memcpy_from (Some [Some i1; Some i2; Some i3; Some i4]) ID3v2_FRAME_HEADER_ID_LENGTH)
    with (Ok [Some i1; Some i2; Some i3; Some i4]).
  change (memcpy_from (Some [Some g1; Some g2]) ID3v2_TAG_HEADER_FLAGS_LENGTH) with (Ok [Some g1]).
  cbn [bind]. ifF.
  assert (S : cells (frame_image be32 f) = cells (frame_id f ++ be32 (body_size f) ++ frame_flags f) ++ cells (frame_body f)).
  { unfold frame_image. now rewrite <- cells_app, <- !app_assoc. }
  assert (Z10 : zlen (cells (frame_id f ++ be32 (body_size f) ++ frame_flags f)) = 10) by (rewrite Ei, Ef; reflexivity).
  assert (P : with_cursor (mkCS (body_size f + 10) (body_size f + 10) (cells (frame_image be32 f))) ID3v2_FRAME_HEADER_LENGTH
    = at_pos (cells (frame_id f ++ be32 (body_size f) ++ frame_flags f)) (cells (frame_body f) ++ [])).
  { unfold with_cursor, at_pos. cbn [cs_size cs_stream]. rewrite app_nil_r, Z10, <- S. f_equal.
    rewrite zlen_cells. unfold body_size. lia. }
  rewrite P, read_into_at.
  - cbn [bind]. unfold compat_of. rewrite Ei, Ef. reflexivity.
  - unfold fits. rewrite app_nil_r, Z10, zlen_cells. unfold body_size in B. lia.
  - now rewrite zlen_cells.
Qed.

Lemma add_clist l f : add_to_list (clist_of l) f = Ok (clist_of (l ++ [f])).
Proof.
  destruct l as [|g l]; [reflexivity|]. cbn [clist_of map add_to_list cn_start negb app].
  now rewrite map_app.
Qed.

Lemma load_nodes afs : forall acc, Forall (fun f => frame_ok f = true) (map snd afs) ->
  load_frames (nodes (map ptr_of afs)) (clist_of acc) = Ok (clist_of (acc ++ map show afs)).
Proof.
  induction afs as [|[a f] afs IH]; intros acc K; [cbn; now rewrite app_nil_r|].
  cbn [map snd] in K. inversion K as [|? ? Kf K']; subst.
  cbn [map nodes load_frames fnode n_frame]. unfold ptr_of at 1. cbn [fst snd].
  rewrite to_compat by auto. cbn [bind]. rewrite add_clist. cbn [bind]. fold (nodes (map ptr_of afs)).
  rewrite IH by auto. now rewrite <- app_assoc.
Qed.

(** The addresses and specs of the frames a tag has. *)
Lemma placed_frames t fs : tag_has t (map frame_of fs) ->
  exists afs, map snd afs = fs /\ t_frames t = list_of (map ptr_of afs)
    /\ NoDup (map fst afs) /\ Forall (fun a => (a < t_fresh t)%nat) (map fst afs).
Proof.
  intros (ps & Hl & Hf & D & B). exists (combine (map fp_addr ps) fs).
  assert (L : length (map fp_addr ps) = length fs).
  { rewrite map_length, <- (map_length fp_frame), Hf. apply map_length. }
  assert (G : forall (l : list nat) (gs : list fspec), length l = length gs ->
     map fst (combine l gs) = l /\ map snd (combine l gs) = gs).
  { clear. induction l as [|x l IH]; intros [|g gs] E; try discriminate E; [auto|].
    cbn [combine map fst snd]. injection E as E. destruct (IH gs E) as (-> & ->). auto. }
  destruct (G _ _ L) as (G1 & G2). rewrite G1. split; [exact G2|]. split; [|auto]. rewrite Hl. f_equal.
  clear - Hf. revert fs Hf. induction ps as [|[a g] ps IH]; intros [|f fs] Hf; try discriminate Hf; [reflexivity|].
  cbn [map combine fp_addr fp_frame fst snd ptr_of] in *. injection Hf as -> Hf. unfold ptr_of at 1. cbn [fst snd]. f_equal. auto.
Qed.

Lemma load_gen p n t fs :
  ID3v2_read_tag_from_buffer p n = Ok (Some t) ->
  tag_has t (map frame_of fs) -> Forall (fun f => frame_ok f = true) fs ->
  match fs with
  | [] => load_tag_with_buffer p n = Ub NullDeref
  | _ => exists c raw, load_tag_with_buffer p n = Ok c /\ ct_tag c = t /\ mirrors c fs
         /\ memcpy_from p n = Ok raw /\ ct_raw c = Some raw
         /\ ct_header c = mkCH (cells (th_identifier (t_header t))) (Some (th_major (t_header t)))
                (Some (th_minor (t_header t))) (Some (th_flags (t_header t)))
                (Some (to_i32 (th_tag_size (t_header t)))) (Some (to_i32 (th_ext_size (t_header t))))
  end.
Proof.
  intros R T K. unfold load_tag_with_buffer. rewrite R. cbn [bind deref].
  assert (M : exists raw, memcpy_from p n = Ok raw).
  { unfold ID3v2_read_tag_from_buffer, CharStream_from_buffer in R. destruct (memcpy_from p n); try discriminate R. eauto. }
  destruct M as (raw & M). rewrite M. cbn [bind].
  destruct (placed_frames t fs T) as (afs & Hs & Hl & D & B). rewrite Hl.
  destruct fs as [|f fs].
  - destruct afs; [|discriminate Hs]. reflexivity.
  - destruct afs as [|af afs]; [discriminate Hs|]. rewrite list_of_nodes by discriminate.
    rewrite <- Hs in K. change new_frame_list with (clist_of []). rewrite load_nodes by exact K. cbn [bind app].
    eexists _, raw. split; [reflexivity|]. cbn [ct_tag ct_raw ct_header]. split; [reflexivity|].
    split; [|auto]. exists (af :: afs). split; [|exact Hs].
    split; [exact Hl|]. split; [reflexivity|]. split; [exact D|]. split; [exact B|exact K].
Qed.

Lemma load_none p n : ID3v2_read_tag_from_buffer p n = Ok None -> load_tag_with_buffer p n = Ub NullDeref.
Proof.
  intros R. unfold load_tag_with_buffer. rewrite R. cbn [bind deref].
  unfold ID3v2_read_tag_from_buffer, CharStream_from_buffer in R. destruct (memcpy_from p n); try discriminate R. reflexivity.
Qed.

Lemma load_ub p n u : ID3v2_read_tag_from_buffer p n = Ub u -> load_tag_with_buffer p n = Ub u.
Proof. intros R. unfold load_tag_with_buffer. now rewrite R. Qed.

(** The file function reads the same buffer as ID3v2_read_tag. *)
Lemma load_file f :
  load_tag f = match ID3v2_read_tag_header f with
               | Ok (Some h) => match f with
                                | Some content => load_tag_with_buffer (Some (fread_into content (declared_length h))) (declared_length h)
                                | None => Ub NullDeref
                                end
               | Ok None => Ub NullDeref
               | Ub u => Ub u
               | Exit n => Exit n
               | NoFuel => NoFuel
               end.
Proof.
  unfold load_tag. destruct (ID3v2_read_tag_header f) as [[h|]|u|n|]; cbn [bind deref]; try reflexivity.
  destruct f; reflexivity.
Qed.

Lemma load_file_gen f t fs :
  ID3v2_read_tag f = Ok (Some t) -> tag_has t (map frame_of fs) -> Forall (fun f => frame_ok f = true) fs ->
  match fs with
  | [] => load_tag f = Ub NullDeref
  | _ => exists c, load_tag f = Ok c /\ ct_tag c = t /\ mirrors c fs
         /\ ct_header c = mkCH (cells (th_identifier (t_header t))) (Some (th_major (t_header t)))
                (Some (th_minor (t_header t))) (Some (th_flags (t_header t)))
                (Some (to_i32 (th_tag_size (t_header t)))) (Some (to_i32 (th_ext_size (t_header t))))
  end.
Proof.
  intros R T K. rewrite load_file. unfold ID3v2_read_tag in R.
  destruct (ID3v2_read_tag_header f) as [[h|]|u|n|]; cbn [bind] in R; try discriminate R.
  destruct f as [content|]; [|discriminate R].
  pose proof (load_gen _ _ t fs R T K) as G. destruct fs as [|f fs]; [exact G|].
  destruct G as (c & raw & G). exists c. tauto.
Qed.

Lemma load_file_none f : ID3v2_read_tag f = Ok None -> load_tag f = Ub NullDeref.
Proof.
  intros R. rewrite load_file. unfold ID3v2_read_tag in R.
  destruct (ID3v2_read_tag_header f) as [[h|]|u|n|]; cbn [bind] in R; try discriminate R; [|reflexivity].
  destruct f as [content|]; [|discriminate R]. now apply load_none.
Qed.

(** ** Getters *)

Lemma get_cnodes arg id afs :
  Forall (fun f => frame_ok f = true) (map snd afs) -> points_to arg id -> length id = 4%nat ->
  get_from_list (cnodes (map show afs)) arg = Ok (option_map show (find (fun af => has_id id (snd af)) afs)).
Proof.
  intros K (tail & ->) L. induction afs as [|[a f] afs IH]; [reflexivity|].
  cbn [map snd] in K. inversion K as [|? ? Kf K']; subst. pose proof (frame_ok_common f Kf) as (Li & _).
  cbn [map cnodes get_from_list cn_frame show fst snd deref bind cf_id compat_of find].
  rewrite strncmp_key by auto. cbn [bind].
  unfold has_id at 1. destruct (same_id (frame_id f) id); [reflexivity|]. apply IH. exact K'.
Qed.

Lemma get_mirrored c afs arg id :
  mirrored c afs -> points_to arg id -> length id = 4%nat ->
  get_compat (Some c) arg = Ok (option_map show (find (fun af => has_id id (snd af)) afs)).
Proof.
  intros (_ & Hc & _ & _ & K) P L. unfold get_compat. cbn [deref bind]. rewrite Hc.
  destruct afs as [|af afs]; [reflexivity|]. rewrite clist_of_nodes by discriminate. now apply get_cnodes.
Qed.

Lemma getters c afs : mirrored c afs ->
  let first id := Ok (option_map show (find (fun af => has_id (lit id) (snd af)) afs)) in
  tag_get_title (Some c) = first "TIT2"%string
  /\ tag_get_artist (Some c) = first "TPE1"%string
  /\ tag_get_album (Some c) = first "TALB"%string
  /\ tag_get_album_artist (Some c) = first "TPE2"%string
  /\ tag_get_genre (Some c) = first "TCON"%string
  /\ tag_get_track (Some c) = first "TRCK"%string
  /\ tag_get_year (Some c) = first "TYER"%string
  /\ tag_get_comment (Some c) = first "COMM"%string
  /\ tag_get_disc_number (Some c) = first "TPOS"%string
  /\ tag_get_composer (Some c) = first "TCOM"%string
  /\ tag_get_album_cover (Some c) = first "APIC"%string.
Proof.
  intros M first.
  repeat split; (apply get_mirrored; [exact M|apply points_to_lit|reflexivity]).
Qed.

(** ** Contents *)

Lemma frame_at_nodes afs : forall a f, NoDup (map fst afs) -> In (a, f) afs ->
  frame_at (nodes (map ptr_of afs)) a = Ok (frame_of f).
Proof.
  induction afs as [|[b g] afs IH]; intros a f D I; [destruct I|].
  cbn [map fst] in D. inversion D as [|? ? N D']; subst.
  cbn [map nodes frame_at fnode n_frame ptr_of fp_addr fp_frame fst snd]. fold (nodes (map ptr_of afs)).
  destruct I as [E|I].
  - injection E as -> ->. now rewrite Nat.eqb_refl.
  - destruct (Nat.eqb_spec b a) as [->|]; [|auto]. destruct N. change a with (fst (a, f)). now apply in_map.
Qed.

Lemma frame_at_mirrored c afs a f : mirrored c afs -> In (a, f) afs ->
  frame_at (t_frames (ct_tag c)) a = Ok (frame_of f).
Proof.
  intros (Hl & _ & D & _) I. rewrite Hl. destruct afs as [|af afs]; [destruct I|].
  rewrite list_of_nodes by discriminate. now apply frame_at_nodes.
Qed.

Lemma contents c afs a f : mirrored c afs -> In (a, f) afs ->
  let live := t_frames (ct_tag c) in
  let g := Some (compat_of a f) in
  match f with
  | FText _ _ t =>
      parse_text_frame_content live g = Ok (mkTC (zlen (text_image t)) (text_encoding t) (cells (text_image t)))
  | FComment _ lang d co =>
      parse_comment_frame_content live g
      = Ok (mkCC (cells lang) (cells (text_image d)) (mkTC (zlen (text_image co)) (text_encoding co) (cells (text_image co))))
  | FPicture _ m ty d pic =>
      parse_apic_frame_content live g
      = Ok (mkAC (text_encoding d) (cells (text_image m)) ty (cells (text_image d)) (zlen pic) (cells pic))
  | FOther _ _ _ => True
  end.
Proof.
  intros M I live g. pose proof (frame_at_mirrored c afs a f M I) as A.
  unfold parse_text_frame_content, parse_comment_frame_content, parse_apic_frame_content, g, live.
  cbn [deref bind compat_of cf_frame]. rewrite A. destruct f; cbn [bind frame_of f_data]; auto.
  cbn [td_text td_size td_encoding]. now rewrite memcpy_from_all by now rewrite zlen_cells.
Qed.

(** The wrong content function, on a frame of another kind. *)
Lemma contents_confused c afs a f : mirrored c afs -> In (a, f) afs ->
  let live := t_frames (ct_tag c) in
  let g := Some (compat_of a f) in
  (match f with FText _ _ _ => True | _ => parse_text_frame_content live g = Ub TypeConfusion end)
  /\ (match f with FComment _ _ _ _ => True | _ => parse_comment_frame_content live g = Ub TypeConfusion end)
  /\ (match f with FPicture _ _ _ _ _ => True | _ => parse_apic_frame_content live g = Ub TypeConfusion end).
Proof.
  intros M I live g. pose proof (frame_at_mirrored c afs a f M I) as A.
  unfold parse_text_frame_content, parse_comment_frame_content, parse_apic_frame_content, g, live.
  cbn [deref bind compat_of cf_frame]. rewrite A. destruct f; cbn [bind frame_of f_data]; auto.
Qed.

(** ** Setters *)

Definition call_of (c : ccall) (f : fspec) : call :=
  match c with
  | CTitle s _ => SetTitle s
  | CArtist s _ => SetArtist s
  | CAlbum s _ => SetAlbum s
  | CAlbumArtist s _ => SetAlbumArtist s
  | CGenre s _ => SetGenre s
  | CTrack s _ => SetTrack s
  | CYear s _ => SetYear s
  | CComment s _ => SetComment (clit "eng") s
  | CDiscNumber s _ => SetDiscNumber s
  | CComposer s _ => SetComposer s
  | CCoverBytes b m n => SetAlbumCover m n b
  | CCoverFile _ _ =>
      match f with
      | FPicture _ m _ _ pic => SetAlbumCover (Some (cells (text_image m))) (zlen pic) (Some (cells pic))
      | _ => DeleteTitle
      end
  end.

Lemma points_exact l : points_to (Some (cells l)) l.
Proof. exists []. now rewrite app_nil_r. Qed.

Lemma cmeans_means c f : cmeans c f -> means (call_of c f) (Put f).
Proof. intros M. inversion M; subst; cbn [call_of]; constructor; auto; try apply points_to_lit; apply points_exact. Qed.

Lemma after_last_spec name rest : forall found, forallb (fun c => negb (is_zero c)) name = true ->
  after_last "."%byte (cells name ++ Some x00 :: rest) found
  = Ok (match extension name with Some e => Some (cells e ++ Some x00 :: rest) | None => found end).
Proof.
  induction name as [|c name IH]; intros found N; [reflexivity|].
  cbn [forallb] in N. apply andb_true_iff in N. destruct N as (Nc & N).
  cbn [cells map app after_last extension]. unfold is_zero in Nc. unfold beq.
  destruct (Byte.eqb c x00); [discriminate Nc|]. fold (cells name). rewrite IH by exact N.
  destruct (extension name); [reflexivity|]. now destruct (Byte.eqb c ".").
Qed.

Lemma png_spec e rest : forallb (fun c => negb (is_zero c)) e = true ->
  strncmp_eq 4 (cells e ++ Some x00 :: rest) (cells (lit "png" ++ [x00])) = Ok (bytes_eqb e (lit "png")).
Proof.
  intros N. change (lit "png") with [x70; x6e; x67]. cbn [app cells map].
  destruct e as [|a e]; [reflexivity|]. cbn [forallb] in N. apply andb_true_iff in N. destruct N as (Na & N).
  cbn [app cells map strncmp_eq bytes_eqb]. unfold is_zero in Na. unfold beq. destruct (Byte.eqb a x70) eqn:Ea; [|reflexivity].
  destruct (Byte.eqb a x00); [discriminate Na|].
  destruct e as [|b e]; [reflexivity|]. cbn [forallb] in N. apply andb_true_iff in N. destruct N as (Nb & N).
  cbn [app cells map strncmp_eq bytes_eqb]. unfold is_zero in Nb. unfold beq. destruct (Byte.eqb b x6e) eqn:Eb; [|reflexivity].
  destruct (Byte.eqb b x00); [discriminate Nb|].
  destruct e as [|c e]; [reflexivity|]. cbn [forallb] in N. apply andb_true_iff in N. destruct N as (Nc & N).
  cbn [app cells map strncmp_eq bytes_eqb]. unfold is_zero in Nc. unfold beq. destruct (Byte.eqb c x67) eqn:Ec; [|reflexivity].
  destruct (Byte.eqb c x00); [discriminate Nc|].
  destruct e as [|d e]; [reflexivity|]. cbn [forallb] in N. apply andb_true_iff in N. destruct N as (Nd & N).
  cbn [app cells map strncmp_eq bytes_eqb]. unfold is_zero in Nd. unfold beq. destruct (Byte.eqb d x00); [discriminate Nd|reflexivity].
Qed.

Lemma extension_nonzero name e : forallb (fun c => negb (is_zero c)) name = true ->
  extension name = Some e -> forallb (fun c => negb (is_zero c)) e = true.
Proof.
  revert e. induction name as [|c name IH]; intros e N X; [discriminate X|].
  cbn [forallb] in N. apply andb_true_iff in N. destruct N as (_ & N). cbn [extension] in X.
  destruct (extension name) as [e'|]; [injection X as <-; auto|].
  destruct (Byte.eqb c "."); [|discriminate X]. injection X as <-. exact N.
Qed.

Lemma fread_all content : fread_into content (zlen content) = cells content.
Proof.
  rewrite fread_exact by (pose proof (zlen_nonneg content); lia).
  unfold zlen. now rewrite Nat2Z.id, firstn_all.
Qed.

(** A setter sets in the tag below, gets the frame and stores its copy. *)
Definition set_of (c : ccall) (f : fspec) (t : option ctag) : outcome ctag :=
  match getter_of (call_of c f) with
  | Some g => set_compat t (fun t => run_call t (call_of c f)) g
  | None => Ub NullDeref
  end.

Lemma run_ccall_set c f t : cmeans c f -> frame_ok f = true -> run_ccall c t = set_of c f t.
Proof.
  intros M K. inversion M as [| | | | | | | | | | |p name pic mime (tail & ->) Em N]; subst; try reflexivity.
  cbn [run_ccall]. unfold tag_set_album_cover. cbn [deref bind].
  apply frame_ok_common in K. destruct K as (_ & _ & B). rewrite body_size_picture in B.
  pose proof (zlen_nonneg pic). pose proof (text_image_pos mime). pose proof (text_image_pos (Utf16 false [])).
  rewrite to_i32_id by lia. ifF. rewrite fread_all.
  assert (S : cells (text_image (Iso name)) ++ tail = cells name ++ Some x00 :: tail).
  { unfold text_image. cbn [text_bytes text_end]. now rewrite cells_app, <- app_assoc. }
  rewrite S, after_last_spec by exact N. cbn [bind deref].
  unfold mime_of in Em. destruct (extension name) as [e|] eqn:X; [|discriminate Em]. cbn [deref bind].
  rewrite png_spec by (eapply extension_nonzero; eauto). cbn [bind]. injection Em as <-.
  unfold set_of, tag_set_album_cover_from_bytes. cbn [call_of getter_of run_call].
  destruct (bytes_eqb e (lit "png")); reflexivity.
Qed.

Lemma cmeans_nonzero c f : cmeans c f -> forallb (fun b => negb (is_zero b)) (frame_id f) = true.
Proof. intros M. inversion M; reflexivity. Qed.

Lemma memcmp_ids n : forall a b : list byte, length a = n -> length b = n ->
  memcmp_cells n (cells a) (cells b) = Ok (bytes_eqb a b).
Proof.
  induction n as [|n IH]; intros [|x a] [|y b] La Lb; try discriminate; [reflexivity|].
  cbn [cells map memcmp_cells bytes_eqb]. unfold beq. fold (cells a) (cells b).
  destruct (Byte.eqb x y); [|reflexivity]. apply IH; [now injection La|now injection Lb].
Qed.

Lemma same_id_full a b : length a = length b -> forallb (fun c => negb (is_zero c)) b = true ->
  bytes_eqb a b = same_id a b.
Proof.
  intros L N. unfold same_id. rewrite (id_key_nonzero b) by exact N.
  destruct (bytes_eqb_spec a b) as [->|Q].
  - rewrite (id_key_nonzero b) by exact N. destruct (bytes_eqb_spec b b); congruence.
  - destruct (bytes_eqb_spec (id_key a) b) as [E|]; [|reflexivity]. destruct Q. rewrite <- E.
    symmetry. apply id_key_length_eq. now rewrite E.
Qed.

Definition phas (id : list byte) (af : placed) : bool := has_id id (snd af).

Lemma add_uniq_nodes afs n f :
  Forall (fun f => frame_ok f = true) (map snd afs) -> frame_ok f = true ->
  forallb (fun b => negb (is_zero b)) (frame_id f) = true ->
  add_uniq_to_list (cnodes (map show afs)) (compat_of n f)
  = if existsb (phas (frame_id f)) afs
    then Ok (cnodes (map show (put (phas (frame_id f)) (n, f) afs))) else Ub NullDeref.
Proof.
  intros K Kf N. pose proof (frame_ok_common f Kf) as (Li & _). induction afs as [|[a g] afs IH]; [reflexivity|].
  cbn [map snd] in K. inversion K as [|? ? Kg K']; subst. pose proof (frame_ok_common g Kg) as (Lg & _).
  cbn [map cnodes add_uniq_to_list cn_frame cn_start show fst snd deref bind cf_id compat_of existsb put].
  rewrite memcmp_ids by auto. cbn [bind]. rewrite same_id_full by (auto; congruence).
  unfold phas at 1 3. cbn [snd]. unfold has_id at 1 2. destruct (same_id (frame_id g) (frame_id f)); [reflexivity|].
  cbn [orb]. fold (cnodes (map show afs)).
  change (mkCFrame (cells (frame_id f)) (body_size f) match frame_flags f with [] => [] | x :: _ => [Some x; None] end
    (cells (frame_body f)) n) with (compat_of n f).
  rewrite IH by exact K'. destruct (existsb (phas (frame_id f)) afs); reflexivity.
Qed.

Lemma put_ext {A} (P Q : A -> bool) x l : (forall a, P a = Q a) -> put P x l = put Q x l.
Proof. intros E. induction l as [|a l IH]; [reflexivity|]. cbn [put]. rewrite E, IH. reflexivity. Qed.

Lemma pnamed_ptr id af : pnamed id (ptr_of af) = phas id af.
Proof. unfold pnamed, phas, has_id, named. cbn [fp_frame ptr_of snd]. now rewrite (id_bytes_cells _ (frame_id (snd af))). Qed.

Lemma pput_ptr f n afs : pput f n (map ptr_of afs) = map ptr_of (put (phas (frame_id f)) (n, f) afs).
Proof.
  unfold pput. change (n, frame_of f) with (ptr_of (n, f)).
  rewrite <- (map_put ptr_of (pnamed (frame_id f)) (n, f)). f_equal. apply put_ext. apply pnamed_ptr.
Qed.

Lemma map_snd_put id n f afs : map snd (put (phas id) (n, f) afs) = put (has_id id) f (map snd afs).
Proof. exact (map_put snd (has_id id) (n, f) afs). Qed.

Lemma ptr_addrs afs : map fp_addr (map ptr_of afs) = map fst afs.
Proof. rewrite map_map. now apply map_ext. Qed.

Lemma mirrored_owns c afs : mirrored c afs -> owns (ct_tag c) (map ptr_of afs) /\ all_sane (map ptr_of afs).
Proof.
  intros (Hl & _ & D & B & K). split.
  - split; [exact Hl|]. rewrite ptr_addrs. auto.
  - apply all_sane_map. rewrite map_map. apply Forall_map in K. apply Forall_map. eapply Forall_impl; [|exact K].
    intros af Ka. now apply frame_of_sane.
Qed.

Lemma set_mirrored c afs cc f :
  mirrored c afs -> cmeans cc f -> frame_ok f = true ->
  if existsb (phas (frame_id f)) afs
  then exists c', run_ccall cc (Some c) = Ok c'
         /\ mirrored c' (put (phas (frame_id f)) (t_fresh (ct_tag c), f) afs)
         /\ ct_raw c' = ct_raw c /\ ct_header c' = ct_header c
         /\ run_call (ct_tag c) (call_of cc f) = Ok (ct_tag c')
  else run_ccall cc (Some c) = Ub NullDeref.
Proof.
  intros M C K. pose proof (cmeans_means _ _ C) as C'. pose proof (cmeans_nonzero _ _ C) as N.
  destruct (mirrored_owns _ _ M) as (O & Sn). destruct M as (Hl & Hc & D & B & Kf).
  destruct (setter_has_getter _ _ C') as (g & G). destruct (getter_by_id _ _ _ C' G) as (arg & P & Hg).
  rewrite (run_ccall_set cc f) by auto. unfold set_of. rewrite G. unfold set_compat. cbn [deref bind].
  set (n := t_fresh (ct_tag c)) in *.
  pose proof (run_put (ct_tag c) _ _ f O Sn C' K) as R. rewrite install_put in R by auto. fold n in R. rewrite R. cbn [bind].
  rewrite Hg. cbn [ID3v2_Tag_get_frame t_frames].
  rewrite (get_list_of arg (frame_id f)); [|now apply sane_put|exact P|now apply frame_ok_common in K].
  assert (Fp : find (pnamed (frame_id f)) (pput f n (map ptr_of afs)) = Some (n, frame_of f))
    by (unfold pput; apply find_put; apply named_frame_of).
  rewrite Fp. cbn [bind]. rewrite to_compat by exact K. cbn [bind].
  rewrite Hc. change (clist_of _) with (clist_of (map show afs)).
  pose proof (add_uniq_nodes afs n f Kf K N) as A.
  destruct afs as [|af afs]; [reflexivity|]. rewrite clist_of_nodes by discriminate. rewrite A.
  destruct (existsb (phas (frame_id f)) (af :: afs)); [|reflexivity]. cbn [bind].
  eexists. split; [reflexivity|]. cbn [ct_raw ct_header ct_tag]. split; [|auto].
  split; cbn [ct_tag t_frames ct_frames t_fresh].
  - now rewrite pput_ptr.
  - assert (Z : forall l, put (phas (frame_id f)) (n, f) (af :: afs) = l -> l <> []).
    { intros l <-. apply put_not_nil. }
    split; [|split; [|split]].
    + rewrite clist_of_nodes; [reflexivity|]. intros E. apply map_eq_nil in E. now apply (Z _ eq_refl).
    + pose proof (put_owns (ct_tag c) f _ (t_header (ct_tag c)) 0 O) as (_ & D' & _).
      fold n in D'. now rewrite pput_ptr, ptr_addrs in D'.
    + pose proof (put_owns (ct_tag c) f _ (t_header (ct_tag c)) 0 O) as (_ & _ & B').
      fold n in B'. now rewrite pput_ptr, ptr_addrs in B'.
    + rewrite map_snd_put. now apply Forall_put.
Qed.

Lemma has_phas id afs : existsb (has_id id) (map snd afs) = existsb (phas id) afs.
Proof. induction afs as [|af afs IH]; [reflexivity|]. cbn [map existsb]. now rewrite IH. Qed.

Lemma set_ok c fs cc f :
  mirrors c fs -> cmeans cc f -> frame_ok f = true -> existsb (has_id (frame_id f)) fs = true ->
  exists c', run_ccall cc (Some c) = Ok c' /\ mirrors c' (put_frame f fs)
    /\ ct_raw c' = ct_raw c /\ ct_header c' = ct_header c.
Proof.
  intros (afs & M & <-) C K E. rewrite has_phas in E. pose proof (set_mirrored c afs cc f M C K) as H. rewrite E in H.
  destruct H as (c' & R & M' & Hr & Hh & _). exists c'. split; [exact R|]. split; [|auto].
  eexists. split; [exact M'|]. unfold put_frame. apply map_snd_put.
Qed.

Lemma set_absent c fs cc f :
  mirrors c fs -> cmeans cc f -> frame_ok f = true -> existsb (has_id (frame_id f)) fs = false ->
  run_ccall cc (Some c) = Ub NullDeref.
Proof.
  intros (afs & M & <-) C K E. rewrite has_phas in E. pose proof (set_mirrored c afs cc f M C K) as H. now rewrite E in H.
Qed.

Lemma new_tag_mirrors : mirrors new_tag [].
Proof. exists []. split; [|reflexivity]. repeat split; constructor. Qed.

Lemma set_new cc f : cmeans cc f -> frame_ok f = true -> run_ccall cc (Some new_tag) = Ub NullDeref.
Proof. intros C K. now apply (set_absent _ _ _ _ new_tag_mirrors C K). Qed.

Lemma set_history ccs : forall c fs gs fs',
  mirrors c fs -> Forall2 cmeans ccs gs -> put_frames gs fs = Some fs' ->
  exists c', run_ccalls ccs c = Ok c' /\ mirrors c' fs' /\ ct_raw c' = ct_raw c /\ ct_header c' = ct_header c.
Proof.
  induction ccs as [|cc ccs IH]; intros c fs gs fs' M F P; inversion F as [|? g ? gs' C F']; subst.
  - injection P as <-. exists c. auto.
  - cbn [put_frames] in P. destruct (frame_ok g && existsb (has_id (frame_id g)) fs) eqn:E; [|discriminate P].
    apply andb_true_iff in E. destruct E as (K & E).
    destruct (set_ok c fs cc g M C K E) as (c1 & R & M1 & Hr & Hh).
    destruct (IH c1 _ _ _ M1 F' P) as (c2 & R2 & M2 & Hr2 & Hh2).
    exists c2. cbn [run_ccalls]. rewrite R. cbn [bind]. split; [exact R2|]. split; [exact M2|]. split; congruence.
Qed.

(** The first setter for a frame that is not there ends the history. *)
Lemma set_history_ub ccs1 cc ccs2 c fs gs g fs' :
  mirrors c fs -> Forall2 cmeans ccs1 gs -> put_frames gs fs = Some fs' -> cmeans cc g -> frame_ok g = true ->
  existsb (has_id (frame_id g)) fs' = false ->
  run_ccalls (ccs1 ++ cc :: ccs2) c = Ub NullDeref.
Proof.
  intros M F P C K E. destruct (set_history ccs1 c fs gs fs' M F P) as (c' & R & M' & _).
  assert (A : forall l t, run_ccalls (l ++ cc :: ccs2) t = let* t := run_ccalls l t in run_ccalls (cc :: ccs2) t).
  { induction l as [|x l IHl]; intros t; [reflexivity|]. cbn [app run_ccalls]. destruct (run_ccall x (Some t)); [apply IHl|reflexivity..]. }
  rewrite A, R. cbn [bind run_ccalls]. now rewrite (set_absent _ _ _ _ M' C K E).
Qed.

(** ** Freeing *)

Lemma free_loaded c fs raw : mirrors c fs -> fs <> [] -> ct_raw c = Some raw -> free_tag (Some c) = Ok tt.
Proof.
  intros (afs & (_ & Hc & _) & Hs) N R. unfold free_tag. cbn [deref bind]. rewrite R, Hc.
  destruct afs as [|af afs]; [now destruct N|]. rewrite clist_of_nodes by discriminate.
  clear. generalize (map (fun af => compat_of (fst af) (snd af)) (af :: afs)). induction l as [|x l IH]; [reflexivity|].
  exact IH.
Qed.

Lemma free_new : free_tag (Some new_tag) = Ub UninitRead.
Proof. reflexivity. Qed.

(** ** Files *)

Lemma mirrors_has c fs : mirrors c fs -> tag_has (ct_tag c) (map frame_of fs) /\ Forall (fun f => frame_ok f = true) fs.
Proof.
  intros (afs & (Hl & _ & D & B & K) & <-). split; [|exact K].
  exists (map ptr_of afs). split; [exact Hl|]. rewrite ptr_addrs. split; [|auto].
  rewrite !map_map. now apply map_ext.
Qed.

Lemma set_then_load content c fs maj mi fl n :
  announces_extended content = false -> known_version maj = true -> has_extended_header fl = false ->
  mirrors c fs -> fs <> [] -> Forall (fun f => survives maj f = true) fs ->
  t_header (ct_tag c) = mkTH (lit "ID3") maj mi fl n 0 -> frames_size fs <= n -> n < 2 ^ 28 ->
  0 <= t_padding (ct_tag c) < 2 ^ 31 ->
  exists c1 written c2, set_tag (Some content) (Some c) = Ok (Some written, c1)
    /\ written = tag_bytes maj mi fl n fs ++ audio content
    /\ mirrors c1 fs
    /\ load_tag (Some written) = Ok c2 /\ mirrors c2 fs /\ t_header (ct_tag c2) = t_header (ct_tag c)
    /\ ct_header c2 = compat_header maj mi fl n.
Proof.
  intros X V F M Ne Sv H L B P. destruct (mirrors_has c fs M) as (T & K).
  destruct (write_then_read content (ct_tag c) fs maj mi fl n X V F T Sv H L B P)
    as (written & t1 & t2 & W & R & H2 & T2 & _).
  assert (W' : ID3v2_write_tag (Some content) (Some (ct_tag c))
    = Ok (Some (tag_bytes maj mi fl n fs ++ audio content), Some (padded (ct_tag c)))).
  { apply (write_file content (ct_tag c) fs maj mi fl n 0); auto. change (2 ^ 31) with 2147483648 in *. lia. }
  rewrite W in W'. injection W' as Ew Et.
  pose proof (load_file_gen (Some written) t2 fs R T2 K) as G. destruct fs as [|f fs]; [congruence|].
  destruct G as (c2 & G & Gt & Gm & Gh).
  eexists _, written, c2. unfold set_tag. cbn [deref bind]. rewrite W. cbn [bind deref].
  split; [reflexivity|]. split; [exact Ew|]. split.
  - destruct M as (afs & (Hl & Hc & D & Bf & Kf) & Hs). exists afs. split; [|exact Hs].
    rewrite Et. split; [exact Hl|]. split; [exact Hc|]. split; [exact D|]. split; [exact Bf|exact Kf].
  - split; [exact G|]. split; [exact Gm|]. split; [now rewrite Gt|]. rewrite Gh, H2, H. cbn. unfold compat_header.
    pose proof (frames_size_nonneg (f :: fs)). now rewrite to_i32_id by lia.
Qed.

(** ** Frames obtained before a set *)

Lemma frame_at_gone afs a : ~ In a (map fst afs) -> frame_at (nodes (map ptr_of afs)) a = Ub UseAfterFree.
Proof.
  induction afs as [|[b g] afs IH]; intros N; [reflexivity|]. cbn [map fst] in N.
  cbn [map nodes frame_at fnode n_frame ptr_of fp_addr fp_frame fst snd]. fold (nodes (map ptr_of afs)).
  destruct (Nat.eqb_spec b a) as [->|]; [destruct N; now left|]. apply IH. intros I. apply N. now right.
Qed.

(** The frame that was replaced is gone, the others are where they were. *)
Lemma put_addresses id n f afs a g :
  NoDup (map fst afs) -> ~ In n (map fst afs) -> In (a, g) afs ->
  if match find (phas id) afs with Some (b, _) => Nat.eqb a b | None => false end
  then ~ In a (map fst (put (phas id) (n, f) afs))
  else In (a, g) (put (phas id) (n, f) afs).
Proof.
  induction afs as [|[b h] afs IH]; intros D Nn I; [destruct I|].
  cbn [map fst] in D, Nn. inversion D as [|? ? Nb D']; subst. cbn [find put].
  destruct (phas id (b, h)) eqn:E.
  - destruct (Nat.eqb_spec a b) as [->|Ne].
    + cbn [map fst]. intros [<-|J]; [apply Nn; now left|contradiction].
    + right. destruct I as [J|J]; [congruence|exact J].
  - destruct I as [J|J].
    + injection J as -> ->. destruct (find (phas id) afs) as [[b' h']|] eqn:F; [|now left].
      destruct (Nat.eqb_spec a b') as [->|]; [|now left]. destruct Nb. apply find_some in F.
      change b' with (fst (b', h')). now apply in_map.
    + pose proof (IH D' (fun q => Nn (or_intror q)) J) as G.
      destruct (match find (phas id) afs with Some (b0, _) => Nat.eqb a b0 | None => false end) eqn:F.
      * cbn [map fst]. intros [<-|K]; [|contradiction]. destruct Nb. change b with (fst (b, g)). now apply in_map.
      * now right.
Qed.

Lemma stale c afs cc f a g c' :
  mirrored c afs -> cmeans cc f -> frame_ok f = true -> run_ccall cc (Some c) = Ok c' ->
  find (phas (frame_id f)) afs = Some (a, g) ->
  let live := t_frames (ct_tag c') in
  let old := Some (compat_of a g) in
  parse_text_frame_content live old = Ub UseAfterFree
  /\ parse_comment_frame_content live old = Ub UseAfterFree
  /\ parse_apic_frame_content live old = Ub UseAfterFree.
Proof.
  intros M C K R F live old. pose proof (set_mirrored c afs cc f M C K) as H.
  assert (E : existsb (phas (frame_id f)) afs = true).
  { apply existsb_exists. exists (a, g). now apply find_some in F. }
  rewrite E in H. destruct H as (c1 & R1 & M1 & _). rewrite R in R1. injection R1 as <-.
  destruct M as (_ & _ & D & B & _). destruct M1 as (Hl & _).
  pose proof (put_addresses (frame_id f) (t_fresh (ct_tag c)) f afs a g D) as P. rewrite F, Nat.eqb_refl in P.
  assert (G : frame_at live a = Ub UseAfterFree).
  { unfold live. rewrite Hl. rewrite list_of_nodes.
    - apply frame_at_gone. apply P; [|now apply find_some in F].
      intros I. eapply Forall_forall in B; [|exact I]. lia.
    - intros Q. apply map_eq_nil in Q. revert Q. apply put_not_nil. }
  unfold parse_text_frame_content, parse_comment_frame_content, parse_apic_frame_content, old.
  cbn [deref bind compat_of cf_frame]. now rewrite G.
Qed.

(** ** Covers from files *)

Lemma cover_missing name t : tag_set_album_cover name None t = Ub NullDeref.
Proof. reflexivity. Qed.

Lemma cover_no_extension p name pic t :
  points_to p (text_image (Iso name)) -> forallb (fun c => negb (is_zero c)) name = true ->
  extension name = None -> zlen pic < 2 ^ 31 ->
  tag_set_album_cover p (Some pic) t = Ub NullDeref.
Proof.
  intros (tail & ->) N X B. unfold tag_set_album_cover. cbn [deref bind]. pose proof (zlen_nonneg pic).
  rewrite to_i32_id by lia. ifF.
  assert (A : cells (text_image (Iso name)) ++ tail = cells name ++ Some x00 :: tail).
  { unfold text_image. rewrite cells_app, <- app_assoc. reflexivity. }
  rewrite A, after_last_spec by exact N. now rewrite X.
Qed.

(** ** remove_tag *)

Lemma remove_file : (forall content, announces_extended content = false -> remove_tag (Some content) = Ok (Some (audio content))) /\ remove_tag None = Ok None.
Proof. split; [exact delete_file|reflexivity]. Qed.
