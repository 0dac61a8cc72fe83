(** The setters of the version 1 interface on the heap. *)
From Verif Require Import Compat CompatHeap Spec SpecEdit SpecCompat TagFacts KindFacts SpecHeap SpecHeapIO SpecCompatHeap
  HeapFacts HeapFrameFacts HeapListFacts HeapTagFacts HeapLifeFacts HeapPtrFacts HeapReadFacts HeapWriteFacts CompatHeapFacts.
From Coq Require Import Lia.

(** ** Ids *)

Definition known_ids : list string :=
  ["TIT2"; "TPE1"; "TALB"; "TPE2"; "TCON"; "TRCK"; "TYER"; "COMM"; "TPOS"; "TCOM"; "APIC"]%string.

Lemma known_id s : In s known_ids ->
  length (lit s) = 4%nat /\ Forall (fun x => x <> x00) (lit s) /\ clit s = Some (cells (lit s) ++ cells [x00])
  /\ strncmp_eq 4 (cells (lit s)) (cells (lit s) ++ cells [x00]) = Ok true
  /\ exists c r, lit s = c :: r /\ (c = "T" \/ c = "C" \/ c = "A")%byte.
Proof.
  intros I. cbn [In known_ids] in I.
  repeat (destruct I as [<-|I]; [split; [reflexivity|]; split; [repeat constructor; discriminate|]; split; [reflexivity|]; split; [reflexivity|]; eexists _, _; split; [reflexivity|tauto]|]).
  destruct I.
Qed.

Lemma memcmp_begins : forall s a b, memcmp_cells (length s) a (cells s) = Ok b -> b = begins a s.
Proof.
  induction s as [|y s IH]; intros a b E; [injection E as <-; now destruct a|].
  cbn [length cells map memcmp_cells] in E. destruct a as [|[x|] a]; try discriminate. cbn [begins].
  destruct (beq x y); cbn [andb]; [now apply IH|now injection E as <-].
Qed.

Lemma begins_firstn : forall s a, begins (firstn (length s) a) s = begins a s.
Proof.
  induction s as [|y s IH]; intros a; [now destruct a|]. cbn [length]. destruct a as [|[x|] a]; try reflexivity.
  cbn [firstn begins]. now rewrite IH.
Qed.

Lemma begins_cut : forall s a, begins a s = true -> firstn (length s) a = cells s.
Proof.
  induction s as [|y s IH]; intros a E; [reflexivity|]. destruct a as [|[x|] a]; try discriminate. cbn [begins length] in *.
  apply andb_prop in E as (B & E). apply beq_true in B. subst x. cbn [firstn cells map]. f_equal. now apply IH.
Qed.

Lemma begins_self : forall s, begins (cells s) s = true.
Proof. induction s as [|y s IH]; [reflexivity|]. cbn [cells map begins]. unfold cells in IH. now rewrite IH, beq_refl. Qed.

Lemma matches_begins s f b : In s known_ids -> id_matches f (clit s) = Ok b -> b = begins (fh_id (f_hdr f)) (lit s).
Proof.
  intros I E. destruct (known_id s I) as (L & N & Ec & _). unfold id_matches in E. rewrite Ec in E. cbn [deref bind] in E.
  rewrite <- L in E. exact (strncmp_begins _ _ _ _ N E).
Qed.

(** ** What a setter does to the tag below *)

Definition setter_id (c : call) : option string :=
  match c with
  | SetTitle _ => Some "TIT2" | SetArtist _ => Some "TPE1" | SetAlbum _ => Some "TALB" | SetAlbumArtist _ => Some "TPE2"
  | SetGenre _ => Some "TCON" | SetTrack _ => Some "TRCK" | SetYear _ => Some "TYER" | SetComment _ _ => Some "COMM"
  | SetDiscNumber _ => Some "TPOS" | SetComposer _ => Some "TCOM" | SetAlbumCover _ _ _ => Some "APIC"
  | _ => None
  end%string.

Lemma setter_known c s : setter_id c = Some s -> In s known_ids.
Proof. destruct c; try discriminate; intros [= <-]; cbn; tauto. Qed.

Lemma text_new_lit s fl t f : TextFrame_new (clit s) fl t = Ok f -> zlen (lit s) = 4 -> fh_id (f_hdr f) = cells (lit s).
Proof.
  intros E L. unfold TextFrame_new in E. do 3 binv E. injection E as <-. cbn [f_hdr]. eapply header_new_lit; eauto.
Qed.

Lemma setter_steps c s t t' : setter_id c = Some s -> run_call t c = Ok t' ->
  exists ex nf, FrameList_get_frame_by_id (t_frames t) (clit s) = Ok ex /\ install_frame t ex nf = Ok t'
    /\ fh_id (f_hdr nf) = cells (lit s).
Proof.
  destruct c; try discriminate; intros [= <-] E.
  all: match type of E with run_call _ ?c = _ => change (run_call t c) with
    ltac:(let e := eval cbn [run_call] in (run_call t c) in
          let e := eval unfold ID3v2_Tag_set_artist, ID3v2_Tag_set_album, ID3v2_Tag_set_title, ID3v2_Tag_set_track, ID3v2_Tag_set_album_artist, ID3v2_Tag_set_genre,
      ID3v2_Tag_set_year, ID3v2_Tag_set_disc_number, ID3v2_Tag_set_composer, ID3v2_Tag_set_comment, ID3v2_Tag_set_album_cover,
      ID3v2_Tag_set_text_frame, ID3v2_Tag_set_comment_frame, ID3v2_Tag_set_apic_frame in e in exact e) in E end.
  all: cbn [ti_id ti_flags ti_text ci_flags ci_language ci_short_description ci_comment] in E.
  all: binv E; binv E.
  all: eexists _, _; split; [eassumption|split; [eassumption|]].
  all: first [eapply text_new_lit; [eassumption|reflexivity] | eapply comment_new_id; eassumption | eapply apic_new_id; eassumption].
Qed.

(** ** Where the frame is *)

Definition no_match (id : cptr) (n : node) : Prop := exists p, n_frame n = Some p /\ id_matches (fp_frame p) id = Ok false.

Lemma get_split id : forall l r, FrameList_get_frame_by_id l id = Ok r ->
  exists l1 l2, l = l1 ++ l2 /\ Forall (no_match id) l1 /\
    match r with
    | Some e => exists n l3, l2 = n :: l3 /\ n_frame n = Some e
    | None => l2 = [] \/ exists n l3, l2 = n :: l3 /\ n_frame n = None
    end.
Proof.
  induction l as [|n l IH]; intros r E; cbn [FrameList_get_frame_by_id] in E.
  - injection E as <-. exists [], []. auto.
  - destruct (n_frame n) as [p|] eqn:F.
    + binv E. destruct v.
      * injection E as <-. exists [], (n :: l). split; [reflexivity|]. split; [constructor|]. eauto.
      * destruct (IH _ E) as (l1 & l2 & -> & N & M). exists (n :: l1), l2. split; [reflexivity|].
        split; [|exact M]. constructor; [exists p; auto|exact N].
    + injection E as <-. exists [], (n :: l). split; [reflexivity|]. split; [constructor|]. right. eauto.
Qed.

Lemma get_skip id l2 : forall l1, Forall (no_match id) l1 -> FrameList_get_frame_by_id (l1 ++ l2) id = FrameList_get_frame_by_id l2 id.
Proof.
  induction l1 as [|n l1 IH]; intros F; [reflexivity|]. inversion F as [|? ? (p & Fp & M) F']; subst.
  cbn [app FrameList_get_frame_by_id]. rewrite Fp, M. cbn [bind]. auto.
Qed.

Lemma replace_split e p n l2 : n_frame n = Some e -> forall l1, NoDup (addresses (l1 ++ n :: l2)) ->
  FrameList_replace_frame (l1 ++ n :: l2) (Some e) p = l1 ++ mkNode (Some p) (n_start n) :: l2.
Proof.
  intros F. induction l1 as [|x l1 IH]; intros D.
  - cbn [app FrameList_replace_frame]. unfold same_ptr, addr_of. rewrite F. cbn [option_map]. now rewrite Nat.eqb_refl.
  - cbn [app FrameList_replace_frame]. change (addresses ((x :: l1) ++ n :: l2)) with (addresses ([x] ++ (l1 ++ n :: l2))) in D.
    rewrite addresses_app in D.
    assert (D' := NoDup_app_r _ _ D).
    replace (same_ptr (n_frame x) (Some e)) with false; [now rewrite (IH D')|].
    unfold same_ptr, addr_of. destruct (n_frame x) as [ex|] eqn:Fx; cbn [option_map]; [|reflexivity].
    symmetry. apply Nat.eqb_neq. intros X. unfold addresses in D at 1. cbn [flat_map] in D. rewrite Fx in D. cbn [app] in D.
    inversion D as [|? ? Ni _]; subst. apply Ni. rewrite X, addresses_app. apply in_or_app. right.
    unfold addresses. cbn [flat_map]. rewrite F. now left.
Qed.

Lemma first_unique {A} (P Q : A -> Prop) : (forall x, P x -> Q x -> False) -> forall u q w c1 d c2,
  u ++ q :: w = c1 ++ d :: c2 -> Forall P u -> Q q -> Forall P c1 -> Q d -> u = c1 /\ q = d /\ w = c2.
Proof.
  intros X. induction u as [|x u IH]; intros q w c1 d c2 E U Hq C Hd; destruct c1 as [|y c1]; cbn [app] in E; injection E as E0 E1.
  - auto.
  - subst. inversion C; subst. destruct (X y); auto.
  - subst. inversion U; subst. destruct (X d); auto.
  - inversion U; inversion C; subst. destruct (IH q w c1 d c2 E1) as (-> & -> & ->); auto.
Qed.

(** Over the ids of the version 1 frames. *)

Lemma c_matches_begins s f b q : length s = 4%nat -> cf_id f = cells s -> c_matches f b q -> c_begins s b q.
Proof.
  intros L E (g & F & M). exists g. split; [exact F|]. rewrite E, <- L in M. symmetry. now apply memcmp_begins.
Qed.

Lemma linked_begins s q p e : length s = 4%nat -> linked q p -> n_frame (p_node q) = Some e ->
  c_begins s (begins (fh_id (f_hdr (fp_frame e))) s) p.
Proof.
  intros L K F. unfold linked in K. rewrite F in K. destruct (cn_frame (c_node p)) as [g|] eqn:G; [|destruct K].
  destruct K as (_ & _ & E & _). exists g. split; [exact G|]. rewrite E, <- L. apply begins_firstn.
Qed.

Lemma linked_none q p : linked q p -> n_frame (p_node q) = None -> cn_frame (c_node p) = None.
Proof. unfold linked. intros K F. rewrite F in K. destruct (cn_frame (c_node p)); [destruct K|reflexivity]. Qed.

Lemma prefix_begins s : In s known_ids -> forall l1 c1, Forall (no_match (clit s)) (map p_node l1) -> Forall2 linked l1 c1 ->
  Forall (c_begins (lit s) false) c1.
Proof.
  intros I l1 c1 N F. destruct (known_id s I) as (L & _). induction F as [|q p l1 c1 K F IH]; [constructor|].
  inversion N as [|? ? (e & Fe & M) N']; subst. constructor; [|auto].
  rewrite (matches_begins s _ _ I M). now apply (linked_begins _ q).
Qed.

(** The version 1 list is at the place of the tag below where the frame is. *)
Lemma place_found s ex pl cl f u q w : In s known_ids -> FrameList_get_frame_by_id (map p_node pl) (clit s) = Ok ex ->
  Forall2 linked pl cl -> cf_id f = cells (lit s) -> cl = u ++ q :: w -> Forall (c_matches f false) u -> c_matches f true q ->
  exists l1 x l2 e, pl = l1 ++ x :: l2 /\ ex = Some e /\ n_frame (p_node x) = Some e /\ Forall (no_match (clit s)) (map p_node l1)
    /\ Forall2 linked l1 u /\ linked x q /\ Forall2 linked l2 w.
Proof.
  intros I G F Ef Ec U Q. destruct (known_id s I) as (L & _).
  destruct (get_split _ _ _ G) as (n1 & n2 & En & N & M).
  apply map_eq_app in En as (l1 & l2 & El & <- & <-). rewrite El in F.
  apply Forall2_app_inv_l in F as (c1 & c2 & F1 & F2 & Ec').
  assert (P1 := prefix_begins s I _ _ N F1).
  assert (U' : Forall (c_begins (lit s) false) u) by (eapply Forall_impl; [|exact U]; intros y; now apply c_matches_begins).
  assert (Q' := c_matches_begins _ _ _ _ L Ef Q). rewrite Ec in Ec'.
  assert (X : forall y, c_begins (lit s) false y -> c_begins (lit s) true y \/ cn_frame (c_node y) = None -> False).
  { intros y (g & Fg & Bg) [(g' & Fg' & Bg')|Fn]; congruence. }
  destruct ex as [e|].
  - destruct M as (n & l3 & En & Fn). apply map_eq_cons in En as (x & l3' & -> & <- & <-).
    inversion F2 as [|? d ? c3 K F3]; subst. 
    assert (B : c_begins (lit s) true d).
    { rewrite (matches_begins s _ _ I (get_match _ _ _ G)). now apply (linked_begins _ x). }
    destruct (first_unique _ _ X _ _ _ _ _ _ Ec' U' (or_introl Q') P1 (or_introl B)) as (-> & -> & ->).
    exists l1, x, l3', e. auto 8.
  - exfalso. destruct M as [M|(n & l3 & En & Fn)].
    + destruct l2; [|discriminate M]. inversion F2; subst. rewrite app_nil_r in Ec'. rewrite <- Ec' in P1.
      apply Forall_app in P1 as (_ & P1). inversion P1; subst. eapply X; eauto.
    + apply map_eq_cons in En as (x & l3' & -> & <- & <-). inversion F2 as [|? d ? c3 K F3]; subst.
      assert (B := linked_none _ _ K Fn).
      destruct (first_unique _ _ X _ _ _ _ _ _ Ec' U' (or_introl Q') P1 (or_intror B)) as (-> & -> & ->).
      destruct Q' as (g & Fg & _). congruence.
Qed.

Lemma relink h a t pl R pl' u : tag_laid h a t pl R -> kept pl pl' -> forall l l', incl l pl -> incl l' pl' ->
  map p_node l' = map p_node l -> Forall2 linked l u -> Forall2 linked l' u.
Proof.
  intros T K l l' I I' E F. revert l' I' E. induction F as [|q p l u Kq F IH]; intros l' I' E.
  - destruct l'; [constructor|discriminate].
  - destruct l' as [|q' l']; [discriminate|]. injection E as Eq E.
    constructor; [|apply IH; [intros y Iy; apply I; now right|intros y Iy; apply I'; now right|exact E]].
    unfold linked in *. rewrite Eq. destruct (n_frame (p_node q)) as [e|] eqn:Fe; [|exact Kq].
    assert (Iq : In q pl) by (apply I; now left).
    destruct (K q' e) as [(r & Ir & Fr & Lr)|N]; [apply I'; now left|now rewrite Eq| |].
    + rewrite (laid_unique _ _ _ _ _ _ _ _ _ T Ir Iq Fr Fe eq_refl) in Lr. now rewrite <- Lr.
    + destruct N. eapply in_addresses; eauto.
Qed.

Lemma set_compat_is h a c pl cl R cc s : ctag_laid h a c pl cl R -> setter_id cc = Some s ->
  agrees (fun c' h' => v1_set (lit s) a cl R c c' h')
    (set_compat (Some c) (fun t => run_call t cc) (fun t => ID3v2_Tag_get_frame t (clit s))) (set_compat_h (Some a) cc (clit s) h).
Proof.
  intros (ia & ah & ar & T & Ef & Nc & F & K) Sc. unfold set_compat, set_compat_h. cbn [deref bind].
  assert (I := setter_known _ _ Sc). destruct (known_id s I) as (L & Nz & Ec & Es & cs & rs & El & Lt).
  assert (T0 := T). destruct T0 as (th & head & H & _).
  set (B0 := match ct_raw c with Some _ => Some (Some ar) | None => None end).
  assert (It : forall x y, In (a, BCTag B0 (Some ah) (c_first cl) (Some ia)) (x ++ compat_blocks a ah ar ia c cl ++ y)).
  { intros x y. rewrite !in_app_iff. right. left. now left. }
  rewrite (load_ctag_is _ _ _ _ _ _ _ H (It _ _)). cbn [bind].
  eapply agrees_bind; [apply agrees_eq; apply (call_is h ia (ct_tag c) pl _ cc T K); now destruct cc|].
  intros t' h1 ((lost & Ll & (pl' & T' & Kp & Gn) & K' & Lk) & Er).
  assert (Z0 : (node_leak cc (t_frames (ct_tag c)) + struct_leak cc = 0)%nat /\ struct_leak cc = 0%nat) by (destruct cc; try discriminate Sc; split; reflexivity).
  destruct Z0 as (Z0 & Z1). rewrite Z0 in Ll. apply length_zero_iff_nil in Ll. subst lost. cbn [app] in T', Gn. rewrite Z1 in Lk.
  assert (T0 := T'). destruct T0 as (th' & head' & H1 & Et' & Fh' & X').
  assert (Et0 := Et').
  rewrite (load_ctag_is _ _ _ _ _ _ _ H1 (It _ _)). cbn [bind].
  eapply agrees_bind; [apply agrees_eq, (get_pointer _ _ _ _ _ _ T')|].
  intros e' p (P & Eg). destruct e' as [e'|]; cbn [points] in P.
  2:{ subst p. cbn [frame_to_compat_frame deref bind]. reflexivity. }
  destruct P as (s1 & q' & s2 & Epl' & Fq' & ->).
  assert (Iq' : In q' pl') by (rewrite Epl'; apply in_elt).
  assert (Ke : kind_ok (fp_frame e')).
  { unfold kinds_ok in K'. rewrite Forall_forall in K'. assert (In (p_node q') (t_frames t')) by (rewrite Et'; now apply in_map).
    specialize (K' _ H0). now rewrite Fq' in K'. }
  eapply agrees_bind.
  { apply agrees_eq. apply frame_to_compat_is with (l := p_lay q'); [exact H1| |exact Ke].
    intros x Ix. unfold tag_blocks. rewrite !in_app_iff. left. right. right. apply in_flat_map. exists q'. split; [exact Iq'|].
    unfold p_frame_blocks. now rewrite Fq'. }
  intros f [self h2] ((d & lost & H2 & L2) & Eto). cbn [fst snd] in *.
  destruct (to_compat_id _ _ Eto) as (Fa & Fi & Fl).
  (* nothing is lost *)
  cbn [ID3v2_Tag_get_frame] in Eg.
  assert (Mt := get_match _ _ _ Eg). assert (Bt := matches_begins _ _ _ I Mt).
  assert (Eid : cf_id f = cells (lit s)) by (rewrite Fi, <- L; now apply begins_cut).
  assert (Lz : lost = []).
  { apply length_zero_iff_nil. rewrite L2. rewrite Ec, El in Mt. destruct (match_first _ _ _ Mt) as (r' & Ei).
    rewrite (no_leak _ _ _ Ke Ei Lt). reflexivity. }
  subst lost. cbn [app] in H2.
  assert (H2c : In (a, BCTag B0 (Some ah) (c_first cl) (Some ia)) ((self, BCFrame (cf_id f) (cf_size f) (cf_flags f) (Some d) (Some (l_self (p_lay q')))) :: (d, BBytes (cf_data f)) :: tag_blocks ia th' head' t' pl' ++ compat_blocks a ah ar ia c cl ++ R)) by (do 2 right; apply It).
  rewrite (load_ctag_is _ _ _ _ _ _ _ H2 H2c). cbn [bind]. rewrite Ef. unfold add_uniq_to_list_h.
  set (raw := match ct_raw c with Some m => [(ar, BBytes m)] | None => [] end).
  set (M := (a, BCTag B0 (Some ah) (c_first cl) (Some ia)) :: (ah, BCHeader (ct_header c)) :: raw ++ tag_blocks ia th' head' t' pl' ++ R).
  assert (H3 : heap_is h2 (c_nodes cl ++ flat_map c_frame_blocks cl ++ (self, BCFrame (cf_id f) (cf_size f) (cf_flags f) (Some d) (Some (l_self (p_lay q')))) :: (d, BBytes (cf_data f)) :: M)).
  { refine (heap_perm _ _ _ H2 _). unfold compat_blocks, M. fold B0 raw. perm. }
  eapply agrees_tail_l.
  { apply agrees_eq. apply (add_uniq_is h2 cl M self d (l_self (p_lay q')) f H3 cl []); [reflexivity|]. eapply c_enough. exact H3. }
  intros v h4 ((u & q & w & Ecl & U & Q & G1 & G2 & Ev & H4) & _). cbn [app] in H4. apply agrees_ok.
  destruct (setter_steps cc s _ _ Sc Er) as (ex & nf & Ex & Ei & Eni).
  assert (Et : t_frames (ct_tag c) = map p_node pl) by (destruct T as (? & ? & _ & X & _); exact X).
  rewrite Et in Ex. destruct (place_found s ex pl cl f u q w I Ex F Eid Ecl U Q) as (l1 & x & l2 & e & Epl & -> & Fx & N1 & F1 & Kx & F2).
  assert (Ad : NoDup (addresses (t_frames (ct_tag c)))) by (destruct T as (? & ? & _ & _ & _ & _ & X & _); exact X).
  cbn [install_frame] in Ei. binv Ei. injection Ei as <-. cbn [with_frames t_frames] in *.
  set (nn := (t_fresh (ct_tag c), nf)) in *.
  assert (Er' : FrameList_replace_frame (t_frames (ct_tag c)) (Some e) nn = map p_node l1 ++ mkNode (Some nn) (n_start (p_node x)) :: map p_node l2).
  { rewrite Et, Epl, map_app. cbn [map]. apply replace_split; [exact Fx|]. rewrite Et, Epl, map_app in Ad. exact Ad. }
  rewrite Er' in *. symmetry in Et'. apply map_eq_app in Et' as (l1' & lx & El' & Em1 & Em2).
  apply map_eq_cons in Em2 as (x' & l2' & -> & Ex' & Em2).
  rewrite (get_skip _ _ _ N1) in Eg. cbn [FrameList_get_frame_by_id n_frame] in Eg.
  assert (Mn : id_matches (fp_frame nn) (clit s) = Ok true).
  { unfold id_matches, nn. cbn [fp_frame snd]. rewrite Ec, Eni. exact Es. }
  rewrite Mn in Eg. cbn [bind] in Eg. injection Eg as <-.
  assert (Fx' : n_frame (p_node x') = Some nn) by now rewrite Ex'.
  assert (q' = x').
  { eapply (laid_unique _ _ _ _ _ _ _ _ _ T'); [exact Iq'|rewrite El'; apply in_elt|exact Fq'|exact Fx'|reflexivity]. }
  subst q'.
  set (y := with_cframe q self d (l_self (p_lay x')) f) in *.
  exists pl', (u ++ y :: w), u, q, w, y.
  split; [|split; [exact Ecl|split; [reflexivity|split; [|split; [|split; [|split; [reflexivity|split; [exact G1|split; [exact G2|]]]]]]]]].
  - exists ia, ah, ar. cbn [ct_tag ct_frames].
    split; [|split; [exact Ev|split; [destruct u; discriminate|split; [|exact K']]]].
    + exists th', head'. split; [|split; [exact Et0|split; [exact Fh'|exact X']]].
      refine (heap_perm _ _ _ H4 _). unfold compat_blocks, M. cbn [ct_raw ct_header]. fold B0 raw.
      replace (c_first (u ++ y :: w)) with (c_first cl) by (rewrite Ecl; destruct u; reflexivity). perm.
    + rewrite El'. apply Forall2_app.
      * eapply (relink _ _ _ _ _ _ _ T Kp l1 l1'); [rewrite Epl; intros z Iz; apply in_or_app; now left|rewrite El'; intros z Iz; apply in_or_app; now left|exact Em1|exact F1].
      * constructor.
        -- unfold linked. rewrite Fx'. cbn [y with_cframe c_node cn_frame c_points]. auto.
        -- eapply (relink _ _ _ _ _ _ _ T Kp l2 l2'); [rewrite Epl; intros z Iz; apply in_or_app; right; now right|rewrite El'; intros z Iz; apply in_or_app; right; now right|exact Em2|exact F2].
  - now apply (c_matches_begins (lit s) f true q).
  - exists f. split; [reflexivity|]. rewrite Eid. apply begins_self.
  - eapply Forall_impl; [|exact U]. intros z. now apply c_matches_begins.
  - rewrite Nat.add_0_r in Lk. exact Lk.
Qed.

Lemma free_live a h h' x : free (Some a) h = Ok h' -> ~ In x (map fst (live h)) -> ~ In x (map fst (live h')).
Proof.
  intros E N J. unfold free in E. destruct (lookup a (live h)); [|discriminate]. injection E as <-.
  apply N. eapply discard_dom. exact J.
Qed.

Lemma run_ccall_is h a c pl cl R cc : ctag_laid h a c pl cl R ->
  agrees (fun c' h' => v1_set (ccall_id cc) a cl R c c' h') (run_ccall cc (Some c)) (run_ccall_h cc (Some a) h).
Proof.
  intros T. destruct cc; cbn [run_ccall run_ccall_h ccall_id].
  - exact (set_compat_is h a c pl cl R (SetTitle s) "TIT2" T eq_refl).
  - exact (set_compat_is h a c pl cl R (SetArtist s) "TPE1" T eq_refl).
  - exact (set_compat_is h a c pl cl R (SetAlbum s) "TALB" T eq_refl).
  - exact (set_compat_is h a c pl cl R (SetAlbumArtist s) "TPE2" T eq_refl).
  - exact (set_compat_is h a c pl cl R (SetGenre s) "TCON" T eq_refl).
  - exact (set_compat_is h a c pl cl R (SetTrack s) "TRCK" T eq_refl).
  - exact (set_compat_is h a c pl cl R (SetYear s) "TYER" T eq_refl).
  - exact (set_compat_is h a c pl cl R (SetComment (clit "eng") s) "COMM" T eq_refl).
  - exact (set_compat_is h a c pl cl R (SetDiscNumber s) "TPOS" T eq_refl).
  - exact (set_compat_is h a c pl cl R (SetComposer s) "TCOM" T eq_refl).
  - exact (set_compat_is h a c pl cl R (SetAlbumCover mime size bytes) "APIC" T eq_refl).
  - unfold tag_set_album_cover, tag_set_album_cover_h. apply agrees_same. intros content _. cbv zeta.
    destruct (_ <? 0); [reflexivity|].
    destruct (ctag_open _ _ _ _ _ _ T) as (M & H & Back). mal H.
    assert (T1 := Back h0 ((next h, BBytes (fread_into content (to_i32 (zlen content)))) :: R) H).
    apply agrees_same. intros nm _. apply agrees_same. intros ext _. apply agrees_same. intros ex _. apply agrees_same. intros png _.
    ldc H.
    eapply agrees_tail; [exact (set_compat_is h0 a c pl cl _ (SetAlbumCover (if png then ID3v2_MIME_TYPE_PNG else ID3v2_MIME_TYPE_JPG) (to_i32 (zlen content)) (Some (fread_into content (to_i32 (zlen content))))) "APIC" T1 eq_refl)|].
    intros c' h1 (pl' & cl' & u & q & w & x & T' & E1 & E2 & B & B' & U & A & G1 & G2 & Lk).
    destruct (ctag_open _ _ _ _ _ _ T') as (M' & H' & Back').
    destruct (free_is _ _ _ _ H') as (h2 & Eh2 & H2 & _). rewrite Eh2. apply agrees_ok.
    exists pl', cl', u, q, w, x. split; [now apply Back'|]. repeat (split; [assumption|]).
    split; [eapply free_live; eauto|]. split; [eapply free_live; eauto|exact Lk].
Qed.
