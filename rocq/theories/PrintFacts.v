(** What the functions of test/test_utils.c print, and why none saves a picture. *)
From Verif Require Import BaseFacts UtilsFacts StreamFacts FrameFacts HeaderFacts TagFacts.
From Verif Require Import TestUtils Spec SpecEdit SpecFile SpecRead SpecSession SpecTests SpecPrint.
From Verif Require Import ListFacts EditFacts HistFacts ClaimFacts FileFacts ReadFacts SessionFacts RewriteFacts CutFacts.
From Verif Require Import CompatFacts TestFacts TestRunFacts TestLargeFacts.
From Coq Require Import Lia ZifyBool ZifyNat.

(** ** Strings *)

Lemma c_string_cells l tail : forallb (fun c => negb (is_zero c)) l = true -> c_string (cells (l ++ [x00]) ++ tail) = Ok l.
Proof.
  induction l as [|c l IH]; [reflexivity|]. cbn [forallb]. intros K. apply andb_prop in K. destruct K as (K1 & K2).
  cbn [app cells map c_string]. unfold is_zero in K1. unfold beq. destruct (Byte.eqb c x00); [discriminate K1|].
  fold (cells (l ++ [x00])). now rewrite IH.
Qed.

Lemma unit_zero a b : bv a + 256 * bv b = 0 <-> a = x00 /\ b = x00.
Proof.
  split.
  - intros H. pose proof (bv_range a). pose proof (bv_range b).
    split; apply bv_inj; change (bv x00) with 0; lia.
  - intros (-> & ->). reflexivity.
Qed.

Lemma print_units_is units tail : forall i size,
  forallb (fun u => negb (is_zero (fst u) && is_zero (snd u))) units = true ->
  i + zlen units < size ->
  print_units (cells (flat_map (fun u : byte * byte => [fst u; snd u]) units ++ [x00; x00]) ++ tail) i size
  = Ok (map (fun u => WideChar (as_stored u)) units).
Proof.
  induction units as [|(a, b) units IH]; intros i size K L.
  - cbn [flat_map app cells map print_units]. rewrite zlen_nil in L. replace (i <? size) with true by lia.
    reflexivity.
  - rewrite zlen_cons in L. pose proof (zlen_nonneg units). cbn [forallb fst snd] in K. apply andb_prop in K. destruct K as (K1 & K2).
    cbn [flat_map app cells map print_units fst snd]. replace (i <? size) with true by lia. cbn [orb].
    destruct (Z.eqb_spec (bv a + 256 * bv b) 0) as [E|E].
    + apply unit_zero in E. destruct E as (-> & ->). discriminate K1.
    + fold (cells (flat_map (fun u : byte * byte => [fst u; snd u]) units ++ [x00; x00])).
      rewrite IH by (auto; lia). reflexivity.
Qed.

Lemma zlen_units (us : list (byte * byte)) : zlen (flat_map (fun u : byte * byte => [fst u; snd u]) us) = 2 * zlen us.
Proof. induction us as [|u us IH]; [reflexivity|]. cbn [flat_map]. rewrite zlen_app, IH. change (zlen [fst u; snd u]) with 2. rewrite zlen_cons. lia. Qed.

Lemma print_is t tail : text_ok t = true ->
  print_text_frame_text (Some (cells (text_image t) ++ tail)) (zlen (text_image t)) = Ok (line_of t).
Proof.
  intros K. unfold print_text_frame_text. rewrite has_bom_is by exact K. cbn [bind]. destruct t as [cs|be us].
  - cbn [is_unicode]. unfold text_image. cbn [text_bytes text_end].
    cbn [text_ok] in K. apply andb_prop in K. rewrite c_string_cells by apply K. reflexivity.
  - cbn [is_unicode]. unfold char_to_utf16, memcpy_from. pose proof (zlen_nonneg (text_image (Utf16 be us))) as Nn.
    replace (zlen (text_image (Utf16 be us)) <? 0) with false by lia. cbn [bind].
    replace (zlen (text_image (Utf16 be us)) <? 0) with false by lia.
    rewrite zlen_app, zlen_cells. pose proof (zlen_nonneg tail) as Nt.
    replace (zlen (text_image (Utf16 be us)) + zlen tail <? zlen (text_image (Utf16 be us))) with false by lia.
    replace (Z.to_nat (zlen (text_image (Utf16 be us)))) with (length (cells (text_image (Utf16 be us))))
      by (rewrite length_cells; unfold zlen; lia).
    rewrite firstn_app_exact by reflexivity. cbn [bind]. unfold println_utf16.
    set (more := repeat None _).
    assert (S : skipn 2 (cells (text_image (Utf16 be us)) ++ more)
                = cells (flat_map (fun u : byte * byte => [fst u; snd u]) us ++ [x00; x00]) ++ more) by (destruct be; reflexivity).
    rewrite S.
    rewrite print_units_is; [reflexivity|exact K|].
    unfold text_image. cbn [text_bytes text_end]. rewrite !zlen_app, zlen_units. change (zlen [x00; x00]) with 2.
    replace (zlen (bom_bytes be)) with 2 by (destruct be; reflexivity). pose proof (zlen_nonneg us). lia.
Qed.

Lemma print_text_is i flags t : text_ok t = true -> print_text_frame (Some (frame_of (FText i flags t))) = Ok (line_of t).
Proof.
  intros K. cbn [print_text_frame frame_of f_data td_text td_size]. rewrite <- (app_nil_r (cells (text_image t))).
  now apply print_is.
Qed.

Lemma print_comment_is flags lang d t : text_ok t = true ->
  print_comment_frame (Some (frame_of (FComment flags lang d t))) = Ok (line_of t).
Proof.
  intros K. cbn [print_comment_frame frame_of f_data cd_comment cd_size]. rewrite <- (app_nil_r (cells (text_image t))).
  now apply print_is.
Qed.

(** A frame of another kind is taken for one. *)
Lemma print_confused x : frame_ok x = true ->
  (match x with FText _ _ _ => True | _ => print_text_frame (Some (frame_of x)) = Ub TypeConfusion end)
  /\ (match x with FComment _ _ _ _ => True | _ => print_comment_frame (Some (frame_of x)) = Ub TypeConfusion end).
Proof. intros _. destruct x; split; (exact I || reflexivity). Qed.

(** ** Byte order *)

Lemma app_last_inj {A} (a b : list A) x : a ++ [x] = b ++ [x] <-> a = b.
Proof. split; [|now intros ->]. intros E. now apply app_inj_tail in E. Qed.

Lemma cons_eq {A} (x y : A) l m : x :: l = y :: m -> x = y /\ l = m.
Proof. intros E. now injection E. Qed.

Lemma line_right t : line_of t = line_meant t <-> symmetric t.
Proof.
  destruct t as [cs|be us]; cbn [line_of line_meant symmetric]; [tauto|].
  rewrite app_last_inj. destruct be.
  - induction us as [|(a, b) us IH]; cbn [map]; [split; auto|]. split.
    + intros E. apply cons_eq in E. destruct E as (E1 & E2). constructor; [|now apply IH].
      assert (E3 := f_equal (fun p => match p with WideChar z => z | Chars _ => 0 end) E1). clear E1. rename E3 into E1. cbv beta iota in E1.
      unfold as_stored, as_meant in E1. cbv iota in E1. cbn [fst snd] in *. pose proof (bv_range a). pose proof (bv_range b). apply bv_inj. lia.
    + intros E. inversion E as [|? ? E1 E2]; subst. cbn [fst snd] in E1. subst b. rewrite (proj2 IH E2).
      do 2 f_equal. unfold as_stored, as_meant. cbv iota. cbn [fst snd]. lia.
  - split; [auto|]. intros _. apply map_ext. reflexivity.
Qed.

(** ** Frames of files *)

Lemma same_starts i id c : same_id i id = true -> c <> x00 -> id_starts i c = id_starts id c.
Proof.
  unfold same_id. intros E N. apply bytes_eqb_eq in E.
  assert (Z : forall b, is_zero b = true -> Byte.eqb b c = false).
  { intros b Zb. apply byte_dec_bl in Zb. subst b. destruct (Byte.eqb x00 c) eqn:Q; [|reflexivity].
    apply byte_dec_bl in Q. now destruct N. }
  destruct i as [|a i], id as [|b id]; cbn [id_key id_starts] in *; try reflexivity.
  - destruct (is_zero b) eqn:Zb; [now rewrite Z|discriminate E].
  - destruct (is_zero a) eqn:Za; [now apply Z|discriminate E].
  - destruct (is_zero a) eqn:Za, (is_zero b) eqn:Zb; try discriminate E; [now rewrite !Z|now injection E as ->].
Qed.

Lemma named_cells g i id : fh_id (f_hdr g) = cells i -> named id g = same_id i id.
Proof. intros E. unfold named. now rewrite (id_bytes_cells g i E). Qed.

Lemma part_text id g : part g -> named id g = true -> id_starts id "T" = true -> exists t, text_in id g t.
Proof.
  intros P N T. destruct P as [(x & K & ->)|C].
  - rewrite (named_cells _ (frame_id x)) in N by reflexivity.
    pose proof (same_starts _ _ "T"%byte N ltac:(discriminate)) as S. rewrite T in S. pose proof (frame_ok_body _ K) as Kb.
    destruct x as [i fl t|fl la d c|fl m ty d pic|i fl body]; cbn [frame_id] in *.
    + exists t. split; [apply Kb|]. exists i, fl. auto.
    + discriminate S.
    + discriminate S.
    + destruct Kb as (Kb & _). congruence.
  - exfalso. destruct C as [(i & fl & body & _ & _ & NT & _ & _ & _ & ->)|(fl & m & ty & d & data & _ & _ & _ & _ & ->)].
    + rewrite (named_cells _ i) in N by reflexivity. pose proof (same_starts _ _ "T"%byte N ltac:(discriminate)). congruence.
    + rewrite (named_cells _ (lit "APIC")) in N by reflexivity. pose proof (same_starts _ _ "T"%byte N ltac:(discriminate)) as S.
      rewrite T in S. discriminate S.
Qed.

Lemma part_comment g : part g -> named (lit "COMM") g = true -> exists t, comment_in g t.
Proof.
  intros P N. destruct P as [(x & K & ->)|C].
  - rewrite (named_cells _ (frame_id x)) in N by reflexivity.
    pose proof (same_starts _ _ "C"%byte N ltac:(discriminate)) as S. change (id_starts (lit "COMM") "C") with true in S.
    pose proof (frame_ok_body _ K) as Kb.
    destruct x as [i fl t|fl la d c|fl m ty d pic|i fl body]; cbn [frame_id] in *.
    + destruct i as [|a i]; [discriminate S|]. cbn [id_starts] in *. apply byte_dec_bl in S. subst a. destruct Kb as (Kb & _). discriminate Kb.
    + exists c. split; [apply Kb|]. exists fl, la, d. split; [apply Kb|reflexivity].
    + discriminate S.
    + destruct Kb as (_ & Kb & _). congruence.
  - exfalso. destruct C as [(i & fl & body & _ & _ & _ & NT & _ & _ & ->)|(fl & m & ty & d & data & _ & _ & _ & _ & ->)].
    + rewrite (named_cells _ i) in N by reflexivity. pose proof (same_starts _ _ "C"%byte N ltac:(discriminate)) as S.
      change (id_starts (lit "COMM") "C") with true in S. congruence.
    + discriminate N.
Qed.

Lemma part_picture g : part g -> named (lit "APIC") g = true ->
  exists d m, f_data g = DApic d /\ ad_mime d = cells (text_image m) /\ text_ok m = true.
Proof.
  intros P N. destruct P as [(x & K & ->)|C].
  - rewrite (named_cells _ (frame_id x)) in N by reflexivity.
    pose proof (same_starts _ _ "A"%byte N ltac:(discriminate)) as S. change (id_starts (lit "APIC") "A") with true in S.
    pose proof (frame_ok_body _ K) as Kb.
    destruct x as [i fl t|fl la d c|fl m ty d pic|i fl body]; cbn [frame_id] in *.
    + destruct i as [|a i]; [discriminate S|]. cbn [id_starts] in *. apply byte_dec_bl in S. subst a. destruct Kb as (Kb & _). discriminate Kb.
    + discriminate S.
    + eexists _, m. split; [reflexivity|]. split; [reflexivity|apply Kb].
    + destruct Kb as (_ & _ & Kb). congruence.
  - destruct C as [(i & fl & body & _ & _ & _ & _ & NT & _ & ->)|(fl & m & ty & d & data & _ & Km & _ & _ & ->)].
    + rewrite (named_cells _ i) in N by reflexivity. pose proof (same_starts _ _ "A"%byte N ltac:(discriminate)) as S.
      change (id_starts (lit "APIC") "A") with true in S. congruence.
    + eexists _, m. split; [reflexivity|]. split; [reflexivity|exact Km].
Qed.

(** What is printed of a file. *)
Lemma find_frame (id : list byte) ps :
  the_frame (find (fun p => named id (fp_frame p)) ps) = find (named id) (map fp_frame ps).
Proof. unfold the_frame. induction ps as [|p l IH]; [reflexivity|]. cbn [find map]. destruct (named id (fp_frame p)); [reflexivity|exact IH]. Qed.

Lemma first_text id gs : Forall part gs -> id_starts id "T" = true ->
  exists out, print_text_frame (find (named id) gs) = Ok out /\ first_line (text_in id) id gs out.
Proof.
  intros P T. unfold first_line. destruct (find (named id) gs) as [g|] eqn:F; [|eexists; split; reflexivity].
  apply find_some in F. destruct F as (I & N). destruct (part_text id g) as (t & K & i & fl & S & ->); auto.
  - now apply (proj1 (Forall_forall _ _) P).
  - exists (line_of t). split; [now apply print_text_is|]. exists t. split; [|reflexivity]. split; [exact K|]. eauto.
Qed.

Lemma printed_texts content h gs pad get id : file_read content (Some (h, gs, pad)) -> Forall sane gs ->
  In (get, id) text_getters ->
  exists out, (let* tag := ID3v2_read_tag (Some content) in
               let* p := get tag in
               print_text_frame (the_frame p)) = Ok out /\ first_line (text_in id) id gs out.
Proof.
  intros R Sa G. pose proof (read_parts _ _ _ _ R) as Pa. destruct (read_shows _ _ _ _ R) as (t & ps & Et & Hl & <- & _ & _).
  destruct (lookup_named t ps Hl Sa) as (G1 & G2 & G3 & G4 & G5 & G6 & G7 & G8 & G9 & _). cbv zeta in *.
  rewrite Et. cbn [bind].
  assert (E : get (Some t) = Ok (find (fun p => named id (fp_frame p)) ps) /\ id_starts id "T" = true).
  { cbn [text_getters In] in G.
    repeat (destruct G as [G|G]; [injection G as <- <-; split; [assumption|reflexivity]|]). destruct G. }
  destruct E as (E & T). rewrite E. cbn [bind]. rewrite find_frame. now apply first_text.
Qed.

Lemma printed_comment content h gs pad : file_read content (Some (h, gs, pad)) -> Forall sane gs ->
  exists out, (let* tag := ID3v2_read_tag (Some content) in
               let* p := ID3v2_Tag_get_comment_frame tag in
               print_comment_frame (the_frame p)) = Ok out /\ first_line comment_in (lit "COMM") gs out.
Proof.
  intros R Sa. pose proof (read_parts _ _ _ _ R) as Pa. destruct (read_shows _ _ _ _ R) as (t & ps & Et & Hl & <- & _ & _).
  destruct (lookup_named t ps Hl Sa) as (_ & _ & _ & _ & _ & _ & _ & _ & _ & G & _). cbv zeta in *.
  rewrite Et. cbn [bind]. rewrite G. cbn [bind]. rewrite find_frame. unfold first_line.
  destruct (find (named (lit "COMM")) (map fp_frame ps)) as [g|] eqn:F; [|eexists; split; reflexivity].
  apply find_some in F. destruct F as (I & N). destruct (part_comment g) as (tx & K & fl & la & d & Kd & ->); auto.
  - now apply (proj1 (Forall_forall _ _) Pa).
  - exists (line_of tx). split; [now apply print_comment_is|]. exists tx. split; [|reflexivity]. split; [exact K|]. eauto.
Qed.

Lemma print_list ps : Forall (fun p => exists t, comment_in (fp_frame p) t) ps ->
  exists ts, Forall2 comment_in (map fp_frame ps) ts
    /\ print_comments (map (fun p => mkNode (Some p) true) ps) = Ok (flat_map line_of ts).
Proof.
  induction 1 as [|p ps (t & K) F (ts & F2 & E)]; [exists []; split; [constructor|reflexivity]|].
  exists (t :: ts). split; [now constructor|]. cbn [map print_comments n_frame the_frame option_map].
  destruct K as (K & fl & la & d & _ & ->). rewrite print_comment_is by exact K. cbn [bind]. rewrite E. reflexivity.
Qed.

Lemma printed_comments content h gs pad : file_read content (Some (h, gs, pad)) -> Forall sane gs ->
  exists out, (let* tag := ID3v2_read_tag (Some content) in
               let* l := ID3v2_Tag_get_comment_frames tag in
               print_comment_frames l) = Ok out
    /\ match filter (named (lit "COMM")) gs with
       | [] => out = none_line
       | cs => exists ts, Forall2 comment_in cs ts /\ out = flat_map line_of ts
       end.
Proof.
  intros R Sa. pose proof (read_parts _ _ _ _ R) as Pa. destruct (read_shows _ _ _ _ R) as (t & ps & Et & Hl & <- & _ & _).
  destruct (lookup_named t ps Hl Sa) as (_ & _ & _ & _ & _ & _ & _ & _ & _ & _ & _ & G & _). cbv zeta in *.
  rewrite Et. cbn [bind]. rewrite G. cbn [bind]. rewrite filter_nodes.
  set (l := filter (fun p => named (lit "COMM") (fp_frame p)) ps).
  assert (F : Forall (fun p => exists t, comment_in (fp_frame p) t) l).
  { apply Forall_forall. intros p I. unfold l in I. apply filter_In in I. destruct I as (I & N).
    apply part_comment; [|exact N]. apply (proj1 (Forall_forall _ _) Pa). now apply in_map. }
  destruct (print_list l F) as (ts & F2 & E). destruct l as [|p l]; [eexists; split; reflexivity|].
  cbn [list_of print_comment_frames map]. cbn [map] in E. exists (flat_map line_of ts). split; [exact E|]. exists ts. auto.
Qed.

(** ** Saving *)

Lemma strlen_string m : c_strlen m = let* l := c_string m in Ok (zlen l).
Proof.
  induction m as [|[b|] m IH]; [reflexivity| |reflexivity]. cbn [c_strlen c_string].
  destruct (beq b x00); [reflexivity|]. rewrite IH. destruct (c_string m) as [l| | |]; cbn [bind]; try reflexivity.
  now rewrite zlen_cons, Z.add_comm.
Qed.

Lemma c_string_form m l : c_string m = Ok l -> exists tail, m = cells (l ++ [x00]) ++ tail /\ forallb (fun c => negb (is_zero c)) l = true.
Proof.
  revert l. induction m as [|[b|] m IH]; intros l H; [discriminate H| |discriminate H]. cbn [c_string] in H.
  destruct (beq b x00) eqn:B.
  - injection H as <-. apply beq_true in B. subst b. exists m. auto.
  - binv H. injection H as <-. destruct (IH v E) as (tail & -> & K). exists tail. split; [reflexivity|].
    cbn [forallb]. rewrite K. unfold is_zero. unfold beq in B. now rewrite B.
Qed.

Lemma strcmp_total l l' tail tail' : forallb (fun c => negb (is_zero c)) l = true -> forallb (fun c => negb (is_zero c)) l' = true ->
  exists b, c_strcmp (cells (l ++ [x00]) ++ tail) (cells (l' ++ [x00]) ++ tail') = Ok b.
Proof.
  revert l'. induction l as [|a l IH]; intros [|c l'] K K'; cbn [app cells map c_strcmp forallb] in *.
  - exists true. reflexivity.
  - destruct (beq x00 c); [|eauto]. exists true. reflexivity.
  - apply andb_prop in K. unfold is_zero in K. unfold beq. destruct (Byte.eqb a x00); [destruct K; discriminate|]. eauto.
  - apply andb_prop in K, K'. destruct (beq a c); [|eauto]. destruct (beq a x00); [eauto|]. apply IH; tauto.
Qed.

(** The file name does not fit in its buffer. *)
Lemma strcpy_is buf dir tail : forallb (fun c => negb (is_zero c)) dir = true -> zlen dir < zlen buf ->
  exists more, c_strcpy buf (cells (dir ++ [x00]) ++ tail) = Ok (cells (dir ++ [x00]) ++ more)
    /\ zlen (cells (dir ++ [x00]) ++ more) = zlen buf.
Proof.
  intros K L. unfold c_strcpy. rewrite c_string_cells by exact K. cbn [bind]. replace (zlen buf <? zlen dir + 1) with false by lia.
  eexists. split; [reflexivity|]. rewrite zlen_app, zlen_cells, zlen_app. change (zlen [x00]) with 1.
  unfold zlen in *. rewrite skipn_length. lia.
Qed.
Lemma strcat_is b more l tail : forallb (fun c => negb (is_zero c)) b = true -> forallb (fun c => negb (is_zero c)) l = true ->
  zlen b + zlen l < zlen (cells (b ++ [x00]) ++ more) ->
  exists more', c_strcat (cells (b ++ [x00]) ++ more) (cells (l ++ [x00]) ++ tail) = Ok (cells ((b ++ l) ++ [x00]) ++ more')
    /\ zlen (cells ((b ++ l) ++ [x00]) ++ more') = zlen (cells (b ++ [x00]) ++ more).
Proof.
  intros K Kl L. unfold c_strcat. rewrite !c_string_cells by assumption. cbn [bind].
  set (n := zlen (cells (b ++ [x00]) ++ more)) in *. replace (n <? zlen b + zlen l + 1) with false by lia.
  eexists. rewrite <- (app_assoc b l). split; [reflexivity|]. rewrite zlen_app, zlen_cells, !zlen_app. change (zlen [x00]) with 1.
  assert (Hn : n = Z.of_nat (length (cells (b ++ [x00]) ++ more))) by reflexivity. clearbody n.
  unfold zlen in *. rewrite skipn_length. lia.
Qed.
Lemma strcat_overflows b more l tail : forallb (fun c => negb (is_zero c)) b = true -> forallb (fun c => negb (is_zero c)) l = true ->
  zlen (cells (b ++ [x00]) ++ more) <= zlen b + zlen l ->
  c_strcat (cells (b ++ [x00]) ++ more) (cells (l ++ [x00]) ++ tail) = Ub OobWrite.
Proof.
  intros K Kl L. unfold c_strcat. rewrite !c_string_cells by assumption. cbn [bind].
  set (n := zlen (cells (b ++ [x00]) ++ more)) in *. now replace (n <? zlen b + zlen l + 1) with true by lia.
Qed.

Lemma name_overflows {A} dir l e tail buf (k : mem -> outcome A) :
  forallb (fun c => negb (is_zero c)) dir = true -> forallb (fun c => negb (is_zero c)) l = true ->
  forallb (fun c => negb (is_zero c)) e = true -> zlen buf <= zlen dir + zlen l + zlen e ->
  (let* b := c_strcpy buf (cells (dir ++ [x00]) ++ tail) in
   let* b := c_strcat b (cells (l ++ [x00])) in
   let* b := c_strcat b (cells (e ++ [x00])) in k b) = Ub OobWrite.
Proof.
  intros Kd Kl Ke L. destruct (Z.ltb_spec (zlen dir) (zlen buf)) as [L1|L1].
  2:{ unfold c_strcpy. rewrite c_string_cells by exact Kd. cbn [bind]. now replace (zlen buf <? zlen dir + 1) with true by lia. }
  destruct (strcpy_is buf dir tail Kd L1) as (m1 & -> & E1). cbn [bind].
  rewrite <- (app_nil_r (cells (l ++ [x00]))). rewrite <- (app_nil_r (cells (e ++ [x00]))).
  destruct (Z.ltb_spec (zlen dir + zlen l) (zlen buf)) as [L2|L2].
  2:{ rewrite strcat_overflows; auto; lia. }
  destruct (strcat_is dir m1 l [] Kd Kl) as (m2 & -> & E2); [lia|]. cbn [bind].
  rewrite strcat_overflows; auto; [|rewrite E2, E1, (zlen_app dir l); lia]. now rewrite forallb_app, Kd, Kl.
Qed.

Lemma strcmp_defined a b : (exists r, c_strcmp a b = Ok r) \/ exists u, c_strcmp a b = Ub u.
Proof.
  revert b. induction a as [|[x|] a IH]; intros [|[y|] b]; cbn [c_strcmp]; eauto.
  destruct (beq x y); [|eauto]. destruct (beq x x00); eauto.
Qed.
Lemma string_defined m : (exists l, c_string m = Ok l) \/ exists u, c_string m = Ub u.
Proof.
  induction m as [|[b|] m IH]; cbn [c_string]; eauto. destruct (beq b x00); [eauto|].
  destruct IH as [(l & ->)|(u & ->)]; cbn [bind]; eauto.
Qed.

Lemma save_overflows {A} dir png tail (k : mem -> outcome A) :
  forallb (fun c => negb (is_zero c)) dir = true ->
  let e := lit (if png : bool then ".png" else ".jpeg") in
  let n := to_i32 (zlen dir + zlen (lit "/album_cover") + zlen e) in
  0 <= n ->
  (let* b := c_strcpy (repeat None (Z.to_nat n)) (cells (dir ++ [x00]) ++ tail) in
   let* b := c_strcat b (cells (lit "/album_cover" ++ [x00])) in
   let* b := c_strcat b (cells (e ++ [x00])) in k b) = Ub OobWrite.
Proof.
  intros K e n N. apply name_overflows; [exact K|reflexivity|destruct png; reflexivity|].
  rewrite zlen_repeat. pose proof (zlen_nonneg dir). assert (0 <= zlen e) by apply zlen_nonneg.
  assert (0 <= zlen (lit "/album_cover")) by apply zlen_nonneg.
  unfold n, to_i32 in *. change (2 ^ 31) with 2147483648 in *. change (2 ^ 32) with 4294967296 in *. lia.
Qed.

Lemma lit_strlen s : forallb (fun c => negb (is_zero c)) (lit s) = true -> c_strlen (cells (lit s ++ [x00])) = Ok (zlen (lit s)).
Proof. intros K. rewrite strlen_string, <- (app_nil_r (cells (lit s ++ [x00]))), c_string_cells by exact K. reflexivity. Qed.

Lemma save_is f g d png dir dp tail : f = Some g -> f_data g = DApic d ->
  c_strcmp (ad_mime d) (cells (lit "image/png" ++ [x00])) = Ok png ->
  dp = Some (cells (dir ++ [x00]) ++ tail) -> forallb (fun c => negb (is_zero c)) dir = true ->
  save_apic_frame f dp
  = Ub (if to_i32 (zlen dir + zlen (lit "/album_cover") + zlen (lit (if png then ".png" else ".jpeg"))) <? 0 then BadSize else OobWrite).
Proof.
  intros -> D C -> K. unfold save_apic_frame. rewrite D. change (deref ID3v2_MIME_TYPE_PNG) with (Ok (cells (lit "image/png" ++ [x00]))).
  cbn [bind]. rewrite C. cbn [bind deref]. rewrite strlen_string, c_string_cells by exact K. cbn [bind].
  rewrite (lit_strlen "/album_cover") by reflexivity. cbn [bind].
  rewrite (lit_strlen (if png then ".png" else ".jpeg")) by (destruct png; reflexivity). cbn [bind].
  set (n := to_i32 _). destruct (Z.ltb_spec n 0) as [N|N]; [reflexivity|].
  apply save_overflows; [exact K|exact N].
Qed.

(** No picture is ever saved. *)
Lemma save_never g dir : exists u, save_apic_frame (Some g) dir = Ub u.
Proof.
  destruct (f_data g) as [d|d|d|d] eqn:D; try (exists TypeConfusion; unfold save_apic_frame; now rewrite D).
  destruct (strcmp_defined (ad_mime d) (cells (lit "image/png" ++ [x00]))) as [(png & C)|(u & C)].
  2:{ exists u. unfold save_apic_frame. rewrite D. change (deref ID3v2_MIME_TYPE_PNG) with (Ok (cells (lit "image/png" ++ [x00]))).
      cbn [bind]. now rewrite C. }
  destruct dir as [m|].
  2:{ exists NullDeref. unfold save_apic_frame. rewrite D. change (deref ID3v2_MIME_TYPE_PNG) with (Ok (cells (lit "image/png" ++ [x00]))).
      cbn [bind]. now rewrite C. }
  destruct (string_defined m) as [(l & S)|(u & S)].
  - destruct (c_string_form m l S) as (tail & -> & K). eexists. eapply save_is; eauto.
  - exists u. unfold save_apic_frame. rewrite D. change (deref ID3v2_MIME_TYPE_PNG) with (Ok (cells (lit "image/png" ++ [x00]))).
    cbn [bind]. rewrite C. cbn [bind deref]. now rewrite strlen_string, S.
Qed.

Lemma mime_compared m : text_ok m = true -> exists b, c_strcmp (cells (text_image m)) (cells (lit "image/png" ++ [x00])) = Ok b.
Proof.
  intros K. destruct m as [cs|be us].
  - unfold text_image. cbn [text_bytes text_end text_ok] in *. apply andb_prop in K.
    rewrite <- (app_nil_r (cells (cs ++ [x00]))). rewrite <- (app_nil_r (cells (lit "image/png" ++ [x00]))).
    apply strcmp_total; [apply K|reflexivity].
  - exists false. destruct be; reflexivity.
Qed.

Lemma save_part g dp dir : part g -> named (lit "APIC") g = true -> points_to dp (dir ++ [x00]) ->
  forallb (fun c => negb (is_zero c)) dir = true -> zlen dir < 2 ^ 31 - 17 ->
  save_apic_frame (Some g) dp = Ub OobWrite.
Proof.
  intros P N (tail & ->) K L. destruct (part_picture g P N) as (d & m & D & M & Km).
  destruct (mime_compared m Km) as (png & C). rewrite <- M in C.
  rewrite (save_is _ _ _ _ _ _ _ eq_refl D C eq_refl K). pose proof (zlen_nonneg dir).
  change (zlen (lit "/album_cover")) with 12.
  assert (E : 4 <= zlen (lit (if png then ".png" else ".jpeg")) <= 5) by (destruct png; vm_compute; split; discriminate).
  unfold to_i32. change (2 ^ 31) with 2147483648 in *. change (2 ^ 32) with 4294967296.
  set (e := zlen (lit (if png then ".png" else ".jpeg"))) in *. clearbody e.
  now replace ((zlen dir + 12 + e + 2147483648) mod 4294967296 - 2147483648 <? 0) with false by lia.
Qed.

Lemma saved_cover content h gs pad dp dir : file_read content (Some (h, gs, pad)) -> Forall sane gs ->
  points_to dp (dir ++ [x00]) -> forallb (fun c => negb (is_zero c)) dir = true -> zlen dir < 2 ^ 31 - 17 ->
  (let* tag := ID3v2_read_tag (Some content) in
   let* p := ID3v2_Tag_get_album_cover_frame tag in
   save_apic_frame (the_frame p) dp)
  = if existsb (named (lit "APIC")) gs then Ub OobWrite else Ok (None, none_line).
Proof.
  intros R Sa P K L. pose proof (read_parts _ _ _ _ R) as Pa. destruct (read_shows _ _ _ _ R) as (t & ps & Et & Hl & <- & _ & _).
  destruct (lookup_named t ps Hl Sa) as (_ & _ & _ & _ & _ & _ & _ & _ & _ & _ & G & _). cbv zeta in *.
  rewrite Et. cbn [bind]. rewrite G. cbn [bind]. rewrite find_frame.
  destruct (find (named (lit "APIC")) (map fp_frame ps)) as [g|] eqn:F.
  - apply find_some in F. destruct F as (I & N).
    replace (existsb (named (lit "APIC")) (map fp_frame ps)) with true by (symmetry; apply existsb_exists; eauto).
    apply (save_part g dp dir); auto. now apply (proj1 (Forall_forall _ _) Pa).
  - destruct (existsb (named (lit "APIC")) (map fp_frame ps)) eqn:X; [|reflexivity].
    apply existsb_exists in X. destruct X as (g & I & N). now rewrite (find_none _ _ F g I) in N.
Qed.

(** ** Conversion *)

Lemma memcmp_two x y z m : memcmp_is_0 (Some (cells [x; y; z])) (Some m) 2 = memcmp_eq [x; y] m.
Proof. destruct m as [|[a|] [|[b|] m]]; reflexivity. Qed.

Lemma bom_same p : has_bom p = string_has_bom p.
Proof.
  destruct p as [m|]; [|reflexivity]. unfold has_bom, string_has_bom. rewrite !memcmp_two.
  destruct (memcmp_eq [xff; xfe] m) as [[|]| | |]; try reflexivity. cbn [bind].
  now destruct (memcmp_eq [xfe; xff] m).
Qed.

Lemma unicode_same p : test_to_unicode p = ID3v2_to_unicode p.
Proof.
  unfold test_to_unicode, ID3v2_to_unicode. rewrite bom_same. destruct (string_has_bom p) as [[|]| | |]; try reflexivity.
  cbn [bind]. destruct p as [m|]; [|reflexivity]. destruct (c_strlen m) as [n| | |]; try reflexivity. cbn [bind].
  now replace (n * 2 + 2 + 2) with (n * 2 + 4) by lia.
Qed.
