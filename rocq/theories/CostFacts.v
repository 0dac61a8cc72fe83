(** Counting rounds: C92. *)
From Verif Require Import Cost Spec SpecEdit SpecFile SpecCost BaseFacts UtilsFacts FrameFacts StreamFacts ParseFacts ListFacts TagFacts WriteFacts FileFacts EditFacts.
From Coq Require Import Lia.

(** ** Without the counts *)

Lemma erase_bind {A B} (x : timed A) (f : A -> timed B) :
  erase (tbind x f) = let* a := erase x in erase (f a).
Proof. destruct x as [[a n]| | |]; try reflexivity. cbn [tbind bind erase]. now destruct (f a) as [[b m]| | |]. Qed.
Lemma erase_obind {A B} (x : outcome A) (f : A -> timed B) :
  erase (bind x f) = let* a := x in erase (f a).
Proof. now destruct x. Qed.
Lemma erase_rounds {A} n (x : timed A) : erase (rounds n x) = erase x.
Proof. now destruct x as [[a m]| | |]. Qed.
Lemma erase_none {A} (x : outcome A) : erase (no_rounds x) = x.
Proof. now destruct x. Qed.

Lemma bind_ext {A B} (x : outcome A) (f g : A -> outcome B) : (forall a, f a = g a) -> bind x f = bind x g.
Proof. intros H. destruct x; cbn [bind]; auto. Qed.
Lemma bind_ret {A} (x : outcome A) : (let* a := x in Ok a) = x.
Proof. now destruct x. Qed.

Ltac er := repeat first [rewrite erase_bind | rewrite erase_obind | rewrite erase_rounds | rewrite erase_none].

Lemma erase_add l f : erase (FrameList_add_frame_t l f) = FrameList_add_frame l f.
Proof. unfold FrameList_add_frame_t, FrameList_add_frame. destruct l as [|n l]; [reflexivity|]. now destruct (negb (n_start n)). Qed.

Lemma erase_get l id : erase (FrameList_get_frame_by_id_t l id) = FrameList_get_frame_by_id l id.
Proof.
  induction l as [|n l IH]; [reflexivity|]. cbn [FrameList_get_frame_by_id_t FrameList_get_frame_by_id].
  destruct (n_frame n) as [p|]; [|reflexivity]. er. apply bind_ext. intros [|]; [reflexivity|exact IH].
Qed.

Lemma erase_get_loop id l : forall s, erase (get_frames_loop_t l id s) = get_frames_loop l id s.
Proof.
  induction l as [|n l IH]; intros s; [reflexivity|]. cbn [get_frames_loop_t get_frames_loop].
  destruct (n_frame n) as [p|]; [|reflexivity]. er. apply bind_ext. intros [|]; [|apply IH].
  er. rewrite erase_add. apply bind_ext. intros; apply IH.
Qed.

Lemma erase_remove_id l id : erase (FrameList_remove_frame_by_id_t l id) = FrameList_remove_frame_by_id l id.
Proof.
  induction l as [|n l IH]; [reflexivity|]. cbn [FrameList_remove_frame_by_id_t FrameList_remove_frame_by_id].
  er. apply bind_ext. intros p. er. apply bind_ext. intros [|]; [reflexivity|]. er. rewrite IH. apply bind_ext. now intros [r rest].
Qed.

Lemma erase_parse_loop ts ver : forall fuel cs l fresh,
  erase (parse_loop_t fuel ts ver cs l fresh) = parse_loop fuel ts ver cs l fresh.
Proof.
  induction fuel as [|fuel IH]; intros cs l fresh; cbn [parse_loop_t parse_loop]; destruct (_ <? ts); try reflexivity.
  er. apply bind_ext. intros [[f|] c]; [|reflexivity]. er. rewrite erase_add. apply bind_ext. intros; apply IH.
Qed.

Lemma erase_parse cs : erase (Tag_parse_t cs) = Tag_parse cs.
Proof.
  unfold Tag_parse_t, Tag_parse. er. apply bind_ext. intros [[h|] c]; [|reflexivity].
  er. apply bind_ext. intros c'. er. rewrite erase_parse_loop. apply bind_ext. intros [[l n] c'']. now er.
Qed.

Lemma erase_read p n : erase (ID3v2_read_tag_from_buffer_t p n) = ID3v2_read_tag_from_buffer p n.
Proof. unfold ID3v2_read_tag_from_buffer_t. er. apply bind_ext. intros; apply erase_parse. Qed.

Lemma erase_read_file f : erase (ID3v2_read_tag_t f) = ID3v2_read_tag f.
Proof.
  unfold ID3v2_read_tag_t, ID3v2_read_tag. er. apply bind_ext. intros [h|]; [|reflexivity].
  destruct f; [apply erase_read|reflexivity].
Qed.

Lemma erase_tag_get t id : erase (ID3v2_Tag_get_frame_t t id) = ID3v2_Tag_get_frame t id.
Proof. destruct t; [apply erase_get|reflexivity]. Qed.
Lemma erase_tag_gets t id : erase (ID3v2_Tag_get_frames_t t id) = ID3v2_Tag_get_frames t id.
Proof. destruct t; [apply erase_get_loop|reflexivity]. Qed.

Lemma erase_install t e f : erase (install_frame_t t e f) = install_frame t e f.
Proof.
  unfold install_frame_t, install_frame. destruct e as [e|]; er.
  - unfold FrameList_replace_frame_t. er. cbn [erase bind]. now er.
  - rewrite erase_add. now apply bind_ext.
Qed.

Lemma erase_set t mk id : erase (set_frame_t t mk id)
  = let* f := mk in let* e := FrameList_get_frame_by_id (t_frames t) id in install_frame t e f.
Proof.
  unfold set_frame_t. er. apply bind_ext. intros f. er. rewrite erase_get. apply bind_ext. intros; apply erase_install.
Qed.
Lemma erase_append t mk : erase (add_frame_t t mk) = let* f := mk in append_frame t f.
Proof. unfold add_frame_t. er. apply bind_ext. intros; apply erase_install. Qed.

Lemma erase_delete t id : erase (ID3v2_Tag_delete_frame_t t id) = ID3v2_Tag_delete_frame t id.
Proof.
  unfold ID3v2_Tag_delete_frame_t, ID3v2_Tag_delete_frame. er. rewrite erase_remove_id. apply bind_ext. intros [d l]. now er.
Qed.

Lemma erase_nth_loop index frames : forall head i,
  erase (delete_nth_loop_t head i index frames) = Ok (delete_nth_loop head i index frames).
Proof.
  induction head as [|n head IH]; intros i; [reflexivity|]. cbn [delete_nth_loop_t delete_nth_loop]. er.
  destruct (i =? index); [|apply IH]. unfold FrameList_remove_frame_t. er. cbn [erase bind].
  now destruct (FrameList_remove_frame frames (n_frame n)).
Qed.

Lemma erase_nth t id i : erase (delete_nth_t t id i)
  = let* head := ID3v2_Tag_get_frames (Some t) id in
    Ok (mkTag (t_header t) (delete_nth_loop head 0 i (t_frames t)) (t_padding t) (t_fresh t)).
Proof. unfold delete_nth_t. er. rewrite erase_tag_gets. apply bind_ext. intros head. er. now rewrite erase_nth_loop. Qed.

Lemma erase_call t c : erase (run_call_t t c) = run_call t c.
Proof.
  destruct c; cbn [run_call_t run_call];
    first [apply erase_set | apply erase_append | apply erase_delete | apply erase_nth].
Qed.

Lemma erase_write_frames l : forall cs, erase (write_frames_t cs l) = write_frames cs l.
Proof.
  induction l as [|n l IH]; intros cs; [reflexivity|]. cbn [write_frames_t write_frames]. er. apply bind_ext.
  intros [f|]; [|reflexivity]. er. apply bind_ext. intros; apply IH.
Qed.
Lemma erase_stream t : erase (Tag_to_char_stream_t t) = Tag_to_char_stream t.
Proof.
  unfold Tag_to_char_stream_t, Tag_to_char_stream. do 7 (er; apply bind_ext; intros ?).
  destruct (t_frames t) as [|n l] eqn:F; [reflexivity|]. destruct (n_frame n); [apply erase_write_frames|reflexivity].
Qed.

Lemma copy_timed src : forall dst, copy_loop_t src dst = Ok (copy_loop src dst, zlen src).
Proof.
  induction src as [|c src IH]; intros dst; [reflexivity|]. cbn [copy_loop_t copy_loop]. rewrite IH. cbn [rounds bind].
  rewrite zlen_cons. f_equal; f_equal; lia.
Qed.

Lemma copy_last l : forall dst d, last (map Some (copy_states l dst)) d = match l with [] => d | _ => Some (dst ++ l) end.
Proof.
  induction l as [|c l IH]; intros dst d; [reflexivity|]. cbn [copy_states map].
  destruct l as [|c' l]; [reflexivity|].
  change (last (Some (dst ++ [c]) :: map Some (copy_states (c' :: l) (dst ++ [c]))) d)
    with (last (map Some (copy_states (c' :: l) (dst ++ [c]))) d).
  rewrite IH. now rewrite <- app_assoc.
Qed.
Lemma states_last a l d : last (Some a :: Some [] :: map Some (copy_states l [])) d = Some (copy_loop l []).
Proof.
  rewrite copy_loop_app. destruct l as [|c l]; [reflexivity|].
  change (last _ d) with (last (map Some (copy_states (c :: l) [])) d). now rewrite copy_last.
Qed.

Lemma erase_write f t : erase (ID3v2_write_tag_t f t) = ID3v2_write_tag f t.
Proof.
  unfold ID3v2_write_tag_t, ID3v2_write_tag, ID3v2_write_tag_states. destruct t as [t|]; [|reflexivity].
  destruct (ID3v2_read_tag_header f) as [h| | |]; try reflexivity. go.
  destruct (isub _ _) as [d| | |]; try reflexivity. go.
  destruct (iadd _ _) as [p| | |]; try reflexivity. go. er. rewrite erase_stream.
  destruct (Tag_to_char_stream _) as [cs| | |]; try reflexivity. go. er.
  destruct (fwrite_bytes _) as [b| | |]; try reflexivity. go.
  destruct f as [content|]; [|reflexivity]. er. rewrite copy_timed. cbn [erase bind]. er. rewrite copy_timed. cbn [erase bind].
  now rewrite states_last.
Qed.

Lemma erase_delete_tag f : erase (ID3v2_delete_tag_t f) = ID3v2_delete_tag f.
Proof.
  unfold ID3v2_delete_tag_t, ID3v2_delete_tag, ID3v2_delete_tag_states.
  destruct (ID3v2_read_tag_header f) as [[h|]| | |]; try reflexivity. go.
  destruct f as [content|]; [|reflexivity]. er. rewrite copy_timed. cbn [erase bind]. er. rewrite copy_timed. cbn [erase bind].
  now rewrite states_last.
Qed.

Lemma widen_timed s k : c_strlen s = Ok k -> forall n m, (n <= length m)%nat ->
  widen_t n s m = Ok (widen n m, (k + 1) * (Z.of_nat n + 1) + Z.of_nat n).
Proof.
  intros K. assert (S : strlen_t s = Ok (k, k + 1)) by (unfold strlen_t; now rewrite K).
  induction n as [|n IH]; intros m L.
  - cbn [widen_t widen]. rewrite S. cbn [tbind bind]. destruct m; f_equal; f_equal; lia.
  - destruct m as [|c m]; [cbn in L; lia|]. cbn [widen_t widen]. rewrite S. cbn [tbind bind]. rewrite IH by (cbn in L; lia).
    cbn [tbind bind rounds]. f_equal; f_equal; lia.
Qed.

Lemma strlen_bound m : forall n, c_strlen m = Ok n -> 0 <= n < zlen m.
Proof.
  induction m as [|[b|] m IH]; intros n E; cbn [c_strlen] in E; try discriminate. rewrite zlen_cons. pose proof (zlen_nonneg m).
  destruct (beq b x00); [injection E as <-; lia|]. binv E. injection E as <-. specialize (IH _ E0). lia.
Qed.

Lemma unicode_timed p : ID3v2_to_unicode_t p
  = let* r := ID3v2_to_unicode p in
    match r, p with
    | Fresh _, Some m => let* k := c_strlen m in Ok (r, k * k + 4 * k + 2)
    | _, _ => Ok (r, 0)
    end.
Proof.
  unfold ID3v2_to_unicode_t, ID3v2_to_unicode. destruct (string_has_bom p) as [[|]| | |]; try reflexivity. go.
  destruct p as [m|]; [|reflexivity]. unfold strlen_t at 1. destruct (c_strlen m) as [k| | |] eqn:K; try reflexivity.
  cbn [tbind bind]. destruct (2 ^ 31 <=? k * 2 + 2 + 2); [reflexivity|]. pose proof (strlen_bound _ _ K).
  rewrite (widen_timed m k K) by (unfold zlen in *; lia). cbn [tbind bind]. f_equal. f_equal. rewrite Z2Nat.id by lia. lia.
Qed.
Lemma erase_unicode p : erase (ID3v2_to_unicode_t p) = ID3v2_to_unicode p.
Proof.
  rewrite unicode_timed. destruct (ID3v2_to_unicode p) as [r| | |] eqn:E; try reflexivity. go.
  destruct r as [|m]; [reflexivity|]. destruct p as [s|]; [|reflexivity].
  unfold ID3v2_to_unicode in E. binv E. destruct v; [discriminate|]. binv E. rewrite E1. reflexivity.
Qed.

(** ** The counts *)

Lemma timed_of {A} (x : timed A) a : erase x = Ok a -> exists k, x = Ok (a, k).
Proof. destruct x as [[b k]| | |]; cbn [erase]; try discriminate. intros [= ->]. now exists k. Qed.

Lemma tbind_Ok {A B} (x : timed A) (f : A -> timed B) b k :
  tbind x f = Ok (b, k) -> exists a n m, x = Ok (a, n) /\ f a = Ok (b, m) /\ k = n + m.
Proof.
  unfold tbind. intros E. binv E. destruct v as [a n]. binv E. destruct v as [b' m]. injection E as <- <-. eauto 6.
Qed.
Lemma rounds_Ok {A} n (x : timed A) a k : rounds n x = Ok (a, k) -> exists m, x = Ok (a, m) /\ k = n + m.
Proof. unfold rounds. intros E. binv E. destruct v as [b m]. injection E as <- <-. eauto. Qed.
Lemma no_rounds_Ok {A} (x : outcome A) a k : no_rounds x = Ok (a, k) -> x = Ok a /\ k = 0.
Proof. unfold no_rounds. intros E. binv E. injection E as <- <-. auto. Qed.

Ltac tinv E a n m E1 := apply tbind_Ok in E; destruct E as (a & n & m & E1 & E & ->); cbv beta in E.

Lemma to_last_nodes ps : to_last (nodes ps) = to_end ps.
Proof.
  unfold to_end. induction ps as [|p [|q ps] IH]; [reflexivity|reflexivity|].
  change (to_last (nodes (p :: q :: ps))) with (1 + to_last (nodes (q :: ps))). rewrite IH, !zlen_cons.
  pose proof (zlen_nonneg ps). lia.
Qed.

Lemma add_timed ps q : FrameList_add_frame_t (list_of ps) q = Ok (list_of (ps ++ [q]), to_end ps).
Proof.
  destruct ps as [|p ps]; [reflexivity|]. rewrite !list_of_nodes by discriminate.
  rewrite <- to_last_nodes. unfold FrameList_add_frame_t.
  change (nodes (p :: ps)) with (fnode p :: nodes ps). cbn [fnode n_start negb rounds bind]. rewrite Z.add_0_r.
  f_equal. f_equal. unfold nodes. now rewrite map_app.
Qed.

Lemma hops_next n : 0 <= n -> hops (n + 1) = hops n + Z.max 0 (n - 1).
Proof.
  intros H. unfold hops. destruct (n <? 2) eqn:A, (n + 1 <? 2) eqn:B; try lia.
  assert (n = 1) by lia. subst n. reflexivity.
Qed.
Lemma hops_zlen {A} (l : list A) x : hops (zlen (l ++ [x])) = hops (zlen l) + to_end l.
Proof. rewrite zlen_app, zlen_cons. change (zlen (@nil A)) with 0. unfold to_end. rewrite <- hops_next by apply zlen_nonneg. f_equal; lia. Qed.

(** Looking. *)

Definition psearch (P : fptr -> bool) (ps : list fptr) : Z :=
  match first_pos P ps with Some i => Z.of_nat i + 1 | None => zlen ps end.

Lemma psearch_cons P p ps : psearch P (p :: ps) = 1 + if P p then 0 else psearch P ps.
Proof.
  unfold psearch. cbn [first_pos]. rewrite zlen_cons. destruct (P p); [reflexivity|].
  destruct (first_pos P ps); cbn [option_map]; lia.
Qed.

Lemma psearch_map id ps : psearch (pnamed id) ps = search id (map fp_frame ps).
Proof.
  unfold psearch, search. rewrite (map_first_pos fp_frame (named id) ps).
  unfold zlen. now rewrite map_length.
Qed.

Lemma get_timed arg id ps : all_sane ps -> points_to arg id -> length id = 4%nat ->
  FrameList_get_frame_by_id_t (list_of ps) arg = Ok (find (pnamed id) ps, psearch (pnamed id) ps).
Proof.
  intros H P L. destruct ps as [|p0 ps0]; [reflexivity|]. rewrite list_of_nodes by discriminate.
  revert H. generalize (p0 :: ps0) as ps. clear p0 ps0. intros ps H.
  induction H as [|p ps Hp H IH]; [reflexivity|]. rewrite psearch_cons.
  cbn [nodes map FrameList_get_frame_by_id_t fnode n_frame find]. rewrite (id_matches_ok _ _ id) by auto. go.
  fold (pnamed id p). destruct (pnamed id p); [reflexivity|]. fold (nodes ps). rewrite IH. reflexivity.
Qed.

Lemma gets_timed arg id ps : all_sane ps -> points_to arg id -> length id = 4%nat -> forall acc,
  get_frames_loop_t (nodes ps) arg (list_of acc)
  = Ok (list_of (acc ++ filter (pnamed id) ps),
        zlen ps + hops (zlen (acc ++ filter (pnamed id) ps)) - hops (zlen acc)).
Proof.
  intros H P L. induction H as [|p ps Hp H IH]; intros acc.
  - cbn [nodes map get_frames_loop_t filter]. rewrite app_nil_r. f_equal. f_equal. change (zlen (@nil fptr)) with 0. lia.
  - cbn [nodes map get_frames_loop_t fnode n_frame filter]. rewrite (id_matches_ok _ _ id) by auto. go.
    fold (pnamed id p). fold (nodes ps). rewrite zlen_cons. destruct (pnamed id p).
    + rewrite add_timed. cbn [tbind bind]. rewrite IH. cbn [bind rounds]. rewrite hops_zlen, <- app_assoc. cbn [app].
      f_equal; f_equal; lia.
    + rewrite IH. cbn [rounds bind]. f_equal; f_equal; lia.
Qed.

Lemma tag_gets_timed arg id ps : all_sane ps -> points_to arg id -> length id = 4%nat ->
  FrameList_get_frames_by_id_t (list_of ps) arg
  = Ok (list_of (filter (pnamed id) ps), zlen ps + hops (zlen (filter (pnamed id) ps))).
Proof.
  intros H P L. unfold FrameList_get_frames_by_id_t. change FrameList_new with (list_of []).
  destruct ps as [|p ps]; [reflexivity|]. rewrite list_of_nodes by discriminate.
  rewrite (gets_timed arg id) by auto. cbn [app]. f_equal. f_equal. change (hops (zlen (@nil fptr))) with 0. lia.
Qed.

Lemma remove_timed arg id ps : all_sane ps -> points_to arg id -> length id = 4%nat ->
  forall r k, FrameList_remove_frame_by_id_t (nodes ps) arg = Ok (r, k) -> k = psearch (pnamed id) ps.
Proof.
  intros H P L. induction H as [|p ps Hp H IH]; intros r k E.
  - injection E as _ <-. reflexivity.
  - rewrite psearch_cons. cbn [nodes map FrameList_remove_frame_by_id_t fnode n_frame] in E.
    apply rounds_Ok in E. destruct E as (m & E & ->). cbn [deref bind] in E.
    rewrite (id_matches_ok _ _ id) in E by auto. cbn [bind] in E. fold (pnamed id p) in E.
    destruct (pnamed id p); [injection E as _ <-; reflexivity|]. fold (nodes ps) in E.
    tinv E a n m' E1. destruct a as [x l]. injection E as _ <-. rewrite (IH _ _ E1). lia.
Qed.

Lemma to_frame_at ps : forall n p, NoDup (map fp_addr ps) -> nth_error ps n = Some p ->
  to_frame (nodes ps) (Some p) = Z.of_nat n + 1.
Proof.
  induction ps as [|q ps IH]; intros n p D E; [destruct n; discriminate|]. cbn [map] in D. inversion D as [|? ? Hq D']; subst.
  cbn [nodes map to_frame fnode n_frame same_ptr addr_of option_map]. fold (nodes ps).
  destruct n as [|n]; cbn [nth_error] in E.
  - injection E as ->. rewrite Nat.eqb_refl. reflexivity.
  - replace (Nat.eqb (fp_addr q) (fp_addr p)) with false.
    + rewrite (IH _ _ D' E). lia.
    + symmetry. apply Nat.eqb_neq. intros Q. apply Hq. rewrite Q. apply in_map. now apply nth_error_In in E.
Qed.
Lemma to_frame_null ps : to_frame (list_of ps) None = Z.max 1 (zlen ps).
Proof.
  destruct ps as [|p ps]; [reflexivity|]. rewrite list_of_nodes by discriminate.
  transitivity (zlen (p :: ps)); [|rewrite zlen_cons; pose proof (zlen_nonneg ps); lia].
  generalize (p :: ps). clear. induction l as [|q l IH]; [reflexivity|].
  cbn [nodes map to_frame fnode n_frame same_ptr addr_of option_map]. fold (nodes l). rewrite IH, zlen_cons. lia.
Qed.

(** The edits. *)

Lemma put_timed t ps mk arg id t' k :
  t_frames t = list_of ps -> NoDup (map fp_addr ps) -> all_sane ps -> points_to arg id -> length id = 4%nat ->
  set_frame_t t mk arg = Ok (t', k) ->
  k = match first_pos (named id) (map fp_frame ps) with
      | Some i => 2 * (Z.of_nat i + 1)
      | None => zlen (map fp_frame ps) + to_end (map fp_frame ps)
      end.
Proof.
  intros T D S P L E. unfold set_frame_t in E. binv E. rewrite T, (get_timed arg id) in E by auto.
  tinv E e n m E1. injection E1 as <- <-.
  assert (Z : zlen (map fp_frame ps) = zlen ps) by (unfold zlen; now rewrite map_length).
  unfold to_end. rewrite Z. rewrite (map_first_pos fp_frame (named id) ps).
  change (fun a => named id (fp_frame a)) with (pnamed id). unfold psearch.
  unfold install_frame_t in E. rewrite T in E. rewrite find_first_pos in E.
  destruct (first_pos (pnamed id) ps) as [i|] eqn:F.
  - destruct (first_pos_lt _ _ _ F) as (p & Np & _). rewrite Np in E.
    tinv E a n' m' E1. unfold FrameList_replace_frame_t in E1. apply rounds_Ok in E1. destruct E1 as (z & E1 & ->).
    injection E1 as _ <-. apply no_rounds_Ok in E. destruct E as [_ ->].
    assert (Q : ps <> []) by (intros ->; discriminate F). rewrite list_of_nodes by auto.
    rewrite (to_frame_at ps i p) by auto. lia.
  - tinv E a n' m' E1. rewrite add_timed in E1. injection E1 as _ <-. injection E as _ <-. unfold to_end. lia.
Qed.

Lemma append_timed t ps mk t' k :
  t_frames t = list_of ps -> add_frame_t t mk = Ok (t', k) -> k = to_end (map fp_frame ps).
Proof.
  intros T E. unfold add_frame_t, install_frame_t in E. binv E. rewrite T, add_timed in E.
  tinv E a n m E1. injection E1 as _ <-. injection E as _ <-. unfold to_end, zlen. rewrite map_length. lia.
Qed.

Lemma delete_timed t ps arg id t' k :
  t_frames t = list_of ps -> all_sane ps -> points_to arg id -> length id = 4%nat ->
  ID3v2_Tag_delete_frame_t t arg = Ok (t', k) -> k = search id (map fp_frame ps).
Proof.
  intros T S P L E. unfold ID3v2_Tag_delete_frame_t in E. tinv E a n m E1. destruct a as [d l].
  apply no_rounds_Ok in E. destruct E as [_ ->]. rewrite T in E1. rewrite <- psearch_map.
  destruct ps as [|p ps].
  - discriminate E1.
  - rewrite list_of_nodes in E1 by discriminate. rewrite (remove_timed arg id _ S P L _ _ E1). lia.
Qed.

Lemma nth_loop_none sub frames : forall i index, index < i ->
  delete_nth_loop_t sub i index frames = Ok (frames, zlen sub).
Proof.
  induction sub as [|n sub IH]; intros i index H; [reflexivity|]. cbn [delete_nth_loop_t]. replace (i =? index) with false by lia.
  rewrite IH by lia. cbn [rounds bind]. rewrite zlen_cons. f_equal; f_equal; lia.
Qed.

Lemma zlen_nodes ps : zlen (nodes ps) = zlen ps.
Proof. unfold nodes, zlen. now rewrite map_length. Qed.

Lemma nth_loop_timed sub frames : forall i index, i <= index -> exists l,
  delete_nth_loop_t (nodes sub) i index frames
  = Ok (l, match nth_error sub (Z.to_nat (index - i)) with
           | Some p => zlen sub + 1 + to_frame frames (Some p)
           | None => zlen sub
           end).
Proof.
  induction sub as [|p sub IH]; intros i index H.
  - exists frames. cbn [nodes map delete_nth_loop_t]. now destruct (Z.to_nat (index - i)).
  - cbn [nodes map delete_nth_loop_t]. fold (nodes sub). destruct (Z.eqb_spec i index) as [->|N].
    + rewrite Z.sub_diag. cbn [Z.to_nat nth_error]. unfold FrameList_remove_frame_t. cbn [rounds bind tbind fnode n_frame].
      destruct (FrameList_remove_frame frames (Some p)) as [r l]. cbn [bind rounds]. exists l.
      rewrite !zlen_cons, zlen_nodes. cbn [bind rounds]. f_equal; f_equal; lia.
    + destruct (IH (i + 1) index) as (l & E); [lia|]. rewrite E. cbn [rounds bind]. exists l. f_equal. f_equal.
      replace (Z.to_nat (index - i)) with (S (Z.to_nat (index - (i + 1)))) by lia. cbn [nth_error]. rewrite zlen_cons.
      destruct (nth_error sub _); lia.
Qed.

(** The i-th of the frames with an id, in the sublist and in the list. *)
Lemma nth_filter (P : fptr -> bool) ps : forall i, 0 <= i ->
  nth_error (filter P ps) (Z.to_nat i) = match nth_pos P i ps with Some n => nth_error ps n | None => None end.
Proof.
  induction ps as [|p ps IH]; intros i H; [now destruct (Z.to_nat i)|]. cbn [filter nth_pos]. destruct (P p).
  - destruct (Z.eqb_spec i 0) as [->|N]; [reflexivity|].
    replace (Z.to_nat i) with (S (Z.to_nat (i - 1))) by lia. cbn [nth_error]. rewrite IH by lia.
    now destruct (nth_pos P (i - 1) ps).
  - rewrite IH by lia. now destruct (nth_pos P i ps).
Qed.
Lemma nth_pos_neg (P : fptr -> bool) ps : forall i, i < 0 -> nth_pos P i ps = None.
Proof.
  induction ps as [|p ps IH]; intros i H; [reflexivity|]. cbn [nth_pos]. replace (i =? 0) with false by lia.
  destruct (P p); rewrite IH by lia; reflexivity.
Qed.

Lemma nth_timed t ps arg id i t' k :
  t_frames t = list_of ps -> NoDup (map fp_addr ps) -> all_sane ps -> points_to arg id -> length id = 4%nat ->
  delete_nth_t t arg i = Ok (t', k) -> k = edit_rounds (RemoveNth id i) (map fp_frame ps).
Proof.
  intros T D S P L E. unfold delete_nth_t, ID3v2_Tag_get_frames_t in E. rewrite T, (tag_gets_timed arg id) in E by auto.
  tinv E h n m E1. injection E1 as <- <-. tinv E fr n' m' E1. injection E as _ <-. cbn [edit_rounds].
  assert (Z : zlen (map fp_frame ps) = zlen ps) by (unfold zlen; now rewrite map_length).
  assert (J : zlen (filter (named id) (map fp_frame ps)) = zlen (filter (pnamed id) ps)).
  { unfold pnamed. rewrite <- (map_filter_g fp_frame (named id) ps). unfold zlen. now rewrite map_length. }
  rewrite J, Z, (map_nth_pos fp_frame (named id) i ps). change (fun a => named id (fp_frame a)) with (pnamed id).
  destruct (filter (pnamed id) ps) as [|q sub] eqn:F.
  - change (zlen (@nil fptr) =? 0) with true. cbv iota. cbn [list_of delete_nth_loop_t] in E1.
    apply rounds_Ok in E1. destruct E1 as (z & E1 & ->). rewrite Z.eqb_sym in E1. destruct (i =? 0).
    + tinv E1 a n'' m'' E2. unfold FrameList_remove_frame_t in E2. cbn [n_frame] in E2. rewrite to_frame_null in E2.
      apply rounds_Ok in E2. destruct E2 as (z' & E2 & ->). injection E2 as <- <-.
      destruct (FrameList_remove_frame _ _) as [r l]. apply rounds_Ok in E1. destruct E1 as (z'' & E1 & ->). injection E1 as _ <-.
      change (zlen [mkNode None false]) with 1. lia.
    + injection E1 as _ <-. lia.
  - rewrite <- F in *. assert (N : filter (pnamed id) ps <> []) by (rewrite F; discriminate).
    replace (zlen (filter (pnamed id) ps) =? 0) with false.
    2:{ symmetry. apply Z.eqb_neq. rewrite F, zlen_cons. pose proof (zlen_nonneg sub). lia. }
    rewrite (list_of_nodes (filter _ _)) in E1 by auto. destruct (Z.lt_ge_cases i 0) as [A|A].
    + rewrite nth_loop_none in E1 by lia. injection E1 as _ <-. rewrite nth_pos_neg by lia.
      rewrite zlen_nodes. lia.
    + destruct (nth_loop_timed (filter (pnamed id) ps) (list_of ps) 0 i A) as (l & E2). rewrite E2 in E1. injection E1 as _ <-.
      rewrite Z.sub_0_r, nth_filter by lia. destruct (nth_pos (pnamed id) i ps) as [n0|] eqn:Np; [|lia].
      destruct (nth_pos_lt _ _ _ _ Np) as (p & Ep & _). rewrite Ep.
      assert (Q : ps <> []) by (intros ->; discriminate F). rewrite list_of_nodes by auto.
      rewrite (to_frame_at ps n0 p) by auto. lia.
Qed.

Lemma edit_timed t fs c e t' : tag_has t fs -> Forall sane fs -> means c e -> edit_ok e = true ->
  run_call t c = Ok t' -> run_call_t t c = Ok (t', edit_rounds e fs).
Proof.
  intros (ps & T & <- & D & _) S M K E. apply all_sane_map in S.
  rewrite <- erase_call in E. apply timed_of in E. destruct E as (k & E). rewrite E. f_equal. f_equal.
  assert (C : forall i, length i = 4%nat -> points_to (Some (cells i ++ [Some x00])) i) by (intros; eexists; reflexivity).
  destruct e as [f|f|id|id i].
  - assert (L : length (frame_id f) = 4%nat) by (apply frame_ok_common in K; tauto).
    cbn [edit_rounds]. inversion M; subst; cbn [run_call_t frame_id] in *;
      (eapply put_timed; [exact T|exact D|exact S| |exact L|exact E]);
      first [eassumption | exists [Some x00]; reflexivity].
  - cbn [edit_rounds]. inversion M; subst; cbn [run_call_t] in E; now apply (append_timed _ _ _ _ _ T) in E.
  - cbn [edit_rounds]. inversion M; subst; cbn [run_call_t] in E;
      (eapply delete_timed; [exact T|exact S| | |exact E]); first [eassumption | reflexivity | exists [Some x00]; reflexivity].
  - inversion M; subst; cbn [run_call_t] in E;
      (eapply nth_timed; [exact T|exact D|exact S| | |exact E]); first [reflexivity | exists [Some x00]; reflexivity].
Qed.

(** Reading. *)

Lemma parse_loop_timed ts ver : forall fuel p r ps fresh l fr cs k,
  fits p r -> parse_loop_t fuel ts ver (at_pos p r) (list_of ps) fresh = Ok ((l, fr, cs), k) ->
  exists more stop, l = list_of (ps ++ more) /\ 8 * zlen more <= zlen r /\ 0 <= stop <= 1
    /\ k = zlen more + hops (zlen (ps ++ more)) - hops (zlen ps) + stop.
Proof.
  assert (Z0 : zlen (@nil fptr) = 0) by reflexivity.
  induction fuel as [|fuel IH]; intros p r ps fresh l fr cs k F E; cbn [parse_loop_t] in E; destruct (_ <? ts).
  - discriminate E.
  - injection E as <- _ _ <-. exists [], 0. rewrite app_nil_r, Z0. pose proof (zlen_nonneg r). repeat split; lia.
  - apply rounds_Ok in E. destruct E as (m & E & ->). binv E. destruct v as [[f|] c].
    + apply frame_progress in E0; auto. destruct E0 as (taken & r' & -> & L & ->).
      rewrite add_timed in E. tinv E a n m' E1. injection E1 as <- <-. apply IH in E; [|now apply fits_app].
      destruct E as (more & stop & -> & A & B & ->). exists ((fresh, f) :: more), stop.
      rewrite <- app_assoc. cbn [app]. split; [reflexivity|].
      rewrite (zlen_app taken r'), (zlen_cons _ more). split; [lia|]. split; [exact B|].
      rewrite hops_zlen. change (nat * frame)%type with fptr. lia.
    + injection E as <- _ _ <-. exists [], 1. rewrite app_nil_r, Z0. pose proof (zlen_nonneg r). repeat split; lia.
  - injection E as <- _ _ <-. exists [], 0. rewrite app_nil_r, Z0. pose proof (zlen_nonneg r). repeat split; lia.
Qed.

Lemma parse_loop_from ts ver fuel (m : mem) c l fr cs k :
  zlen m < 2 ^ 31 ->
  parse_loop_t fuel ts ver (mkCS c (zlen m) m) FrameList_new 0 = Ok ((l, fr, cs), k) ->
  exists ps stop, l = list_of ps /\ 8 * zlen ps <= zlen m /\ 0 <= stop <= 1
    /\ k = zlen ps + hops (zlen ps) + stop.
Proof.
  intros Z E. pose proof (zlen_nonneg m). change FrameList_new with (list_of []) in E.
  destruct (Z.le_gt_cases 0 c) as [A|A]; [destruct (Z.le_gt_cases c (zlen m)) as [B|B]|].
  - rewrite at_pos_cursor in E by lia. apply parse_loop_timed in E.
    + destruct E as (more & stop & -> & L & S & ->). exists more, stop. cbn [app]. split; [reflexivity|].
      rewrite zlen_drop in L by lia. split; [lia|]. split; [exact S|]. change (hops (zlen (@nil fptr))) with 0. lia.
    + unfold fits. rewrite zlen_take, zlen_drop by lia. lia.
  - assert (Q : l = list_of [] /\ k = 0).
    { destruct fuel as [|fuel]; cbn [parse_loop_t] in E; destruct (_ <? ts); try discriminate E; try (injection E as <- _ _ <-; auto; fail).
      apply rounds_Ok in E. destruct E as (? & E & _). binv E. exfalso.
      eapply parse_outside; [| |exact E0]; cbn [cs_size cs_cursor]; lia. }
    destruct Q as [-> ->]. exists [], 0. change (zlen (@nil fptr)) with 0. change (hops 0) with 0. repeat split; lia.
  - assert (Q : l = list_of [] /\ k = 0).
    { destruct fuel as [|fuel]; cbn [parse_loop_t] in E; destruct (_ <? ts); try discriminate E; try (injection E as <- _ _ <-; auto; fail).
      apply rounds_Ok in E. destruct E as (? & E & _). binv E. exfalso.
      eapply parse_outside; [| |exact E0]; cbn [cs_size cs_cursor]; lia. }
    destruct Q as [-> ->]. exists [], 0. change (zlen (@nil fptr)) with 0. change (hops 0) with 0. repeat split; lia.
Qed.

Lemma parse_timed (m : mem) t k : zlen m < 2 ^ 31 -> Tag_parse_t (at_pos [] m) = Ok (Some t, k) ->
  exists ps stop, t_frames t = list_of ps /\ 8 * zlen ps <= zlen m /\ 0 <= stop <= 1
    /\ k = zlen ps + hops (zlen ps) + stop.
Proof.
  intros Z E. unfold Tag_parse_t in E. binv E. destruct v as [[h|] cs]; [|discriminate].
  apply tag_header_moved in E0; [|exact Z]. destruct E0 as (c & r & -> & -> & _). cbn [app] in E.
  binv E. assert (exists j, v = mkCS j (zlen (c ++ r)) (c ++ r)) as (j & ->).
  { destruct (0 <? th_ext_size h); cbn [CharStream_seek] in E0; injection E0 as <-;
      unfold with_cursor, at_pos; cbn [cs_size cs_stream]; rewrite (zlen_app c r); eauto. }
  tinv E a n m' E1. destruct a as [[l fr] cs]. apply no_rounds_Ok in E. destruct E as [E ->]. binv E. injection E as <-.
  apply parse_loop_from in E1; auto. destruct E1 as (ps & stop & -> & A & B & ->). exists ps, stop. repeat split; auto; lia.
Qed.

Lemma list_of_length ps qs : list_of ps = list_of qs -> zlen ps = zlen qs.
Proof.
  intros E. destruct ps as [|p ps], qs as [|q qs]; [reflexivity|discriminate E|discriminate E|].
  apply (f_equal (@length node)) in E. unfold zlen. cbn [list_of] in E. rewrite !map_length in E. now rewrite E.
Qed.

Lemma read_gen p n t k : n < 2 ^ 31 -> ID3v2_read_tag_from_buffer_t p n = Ok (Some t, k) ->
  exists ps stop, t_frames t = list_of ps /\ 8 * zlen ps <= n /\ 0 <= stop <= 1 /\ k = zlen ps + hops (zlen ps) + stop.
Proof.
  intros N E. unfold ID3v2_read_tag_from_buffer_t, CharStream_from_buffer in E. binv E. binv E0. injection E0 as <-.
  assert (L : zlen v0 = n).
  { unfold memcpy_from in E1. destruct p as [m|]; [|discriminate]. destruct (n <? 0) eqn:Hn; [discriminate|].
    destruct (zlen m <? n) eqn:Hm; [discriminate|]. injection E1 as <-. unfold zlen in *. rewrite firstn_length. lia. }
  subst n. change (mkCS 0 (zlen v0) v0) with (at_pos [] v0) in E. now apply parse_timed in E.
Qed.

Lemma read_timed p n t fs : n < 2 ^ 31 -> ID3v2_read_tag_from_buffer p n = Ok (Some t) -> tag_has t fs ->
  exists stop, ID3v2_read_tag_from_buffer_t p n = Ok (Some t, zlen fs + hops (zlen fs) + stop)
    /\ 0 <= stop <= 1 /\ 8 * zlen fs <= n.
Proof.
  intros N E (qs & T & <- & _). rewrite <- erase_read in E. apply timed_of in E. destruct E as (k & E). rewrite E.
  apply read_gen in E; auto. destruct E as (ps & stop & Q & A & B & ->). rewrite Q in T. apply list_of_length in T.
  replace (zlen (map fp_frame qs)) with (zlen ps) by (rewrite T; unfold zlen; now rewrite map_length).
  exists stop. auto.
Qed.

Lemma read_none_timed p n : ID3v2_read_tag_from_buffer p n = Ok None -> ID3v2_read_tag_from_buffer_t p n = Ok (None, 0).
Proof.
  intros E. rewrite <- erase_read in E. apply timed_of in E. destruct E as (k & E). rewrite E. f_equal. f_equal.
  unfold ID3v2_read_tag_from_buffer_t, Tag_parse_t in E. binv E. binv E. destruct v0 as [[h|] c]; [|congruence].
  binv E. tinv E a n' m' E3. destruct a as [[l fr] cs]. apply no_rounds_Ok in E. destruct E as [E _]. binv E. discriminate E.
Qed.

Lemma hops_bound n : 0 <= n -> 2 * hops n <= n * n.
Proof.
  intros H. unfold hops. destruct (n <? 2) eqn:A; [nia|].
  pose proof (Z.mul_div_le ((n - 1) * (n - 2)) 2). nia.
Qed.

Lemma read_quadratic p n r k : n < 2 ^ 31 -> ID3v2_read_tag_from_buffer_t p n = Ok (r, k) ->
  128 * k <= n * n + 16 * n + 128.
Proof.
  intros N E. destruct r as [t|].
  - apply read_gen in E; auto. destruct E as (ps & stop & _ & L & S & ->).
    pose proof (zlen_nonneg ps). pose proof (hops_bound (zlen ps)). nia.
  - assert (Q : ID3v2_read_tag_from_buffer p n = Ok None) by (rewrite <- erase_read, E; reflexivity).
    apply read_none_timed in Q. rewrite E in Q. injection Q as ->. nia.
Qed.

(** A buffer of many small frames. *)
Lemma read_worst (m : nat) p : 12 * Z.of_nat m < 2 ^ 28 ->
  let fs := repeat (FText (lit "TIT2") [x00; x00] (Iso [])) m in
  let bytes := header_image x03 x00 x00 (12 * Z.of_nat m) ++ images be32 fs in
  points_to p bytes ->
  zlen bytes = 10 + 12 * Z.of_nat m
  /\ exists t stop, 0 <= stop <= 1
     /\ ID3v2_read_tag_from_buffer_t p (zlen bytes) = Ok (Some t, Z.of_nat m + hops (Z.of_nat m) + stop).
Proof.
  intros M fs bytes P.
  assert (K : Forall (fun f => frame_ok f = true /\ readable f = true) fs).
  { apply Forall_forall. intros f I. apply repeat_spec in I. subst f. split; reflexivity. }
  assert (S : frames_size fs = 12 * Z.of_nat m).
  { unfold fs. clear. induction m as [|m IH]; [reflexivity|]. cbn [repeat frames_size fold_right]. unfold frames_size in IH. rewrite IH.
    change (body_size (FText (lit "TIT2") [x00; x00] (Iso []))) with 2. lia. }
  assert (Zb : zlen bytes = 10 + 12 * Z.of_nat m).
  { unfold bytes. assert (O : Forall (fun f => frame_ok f = true) fs).
    { eapply Forall_impl; [|exact K]. intros f [A _]; exact A. }
    rewrite zlen_app, images_zlen, S by (auto; reflexivity). reflexivity. }
  split; [exact Zb|].
  destruct (read_tag_ok x03 x00 x00 fs 0 [] p) as (t & E & _ & T & _); auto; try lia.
  - rewrite Z.add_0_r, S. change (zeros 0 ++ []) with (@nil byte). rewrite app_nil_r. change (size_field_of x03) with be32. fold bytes. lia.
  - rewrite Z.add_0_r, S. change (zeros 0 ++ []) with (@nil byte). rewrite app_nil_r. exact P.
  - rewrite Z.add_0_r, S in E. change (zeros 0 ++ []) with (@nil byte) in E. rewrite app_nil_r in E.
    change (size_field_of x03) with be32 in E. fold bytes in E.
    destruct (read_timed p (zlen bytes) t (map frame_of fs)) as (stop & E' & B & _); auto; [lia|].
    exists t, stop. split; [exact B|]. rewrite E'. unfold zlen. rewrite map_length. unfold fs. now rewrite repeat_length.
Qed.

(** Writing and deleting. *)

Lemma write_frames_timed l : forall cs r k, write_frames_t cs l = Ok (r, k) -> k = zlen l.
Proof.
  induction l as [|n l IH]; intros cs r k E; cbn [write_frames_t] in E.
  - injection E as _ <-. reflexivity.
  - apply rounds_Ok in E. destruct E as (m & E & ->). binv E. destruct v as [f|]; [|discriminate]. binv E.
    rewrite (IH _ _ _ E), zlen_cons. reflexivity.
Qed.

Lemma stream_timed t fs r k : tag_has t fs -> Tag_to_char_stream_t t = Ok (r, k) -> k = zlen fs.
Proof.
  intros (ps & T & <- & _) E. unfold Tag_to_char_stream_t in E. do 7 (binv E). rewrite T in E.
  replace (zlen (map fp_frame ps)) with (zlen ps) by (unfold zlen; now rewrite map_length).
  destruct ps as [|p ps]; [cbn [list_of n_frame] in E; injection E as _ <-; reflexivity|].
  rewrite list_of_nodes in E by discriminate. change (nodes (p :: ps)) with (fnode p :: nodes ps) in E.
  cbn [fnode n_frame] in E. apply write_frames_timed in E. rewrite E. exact (zlen_nodes (p :: ps)).
Qed.

Lemma write_timed content t fs w t' : announces_extended content = false -> tag_has t fs ->
  ID3v2_write_tag (Some content) (Some t) = Ok (Some w, t') ->
  ID3v2_write_tag_t (Some content) (Some t) = Ok ((Some w, t'), zlen fs + zlen (audio content) + zlen w).
Proof.
  intros X T E. rewrite <- erase_write in E. apply timed_of in E. destruct E as (k & E). rewrite E. f_equal. f_equal.
  destruct (file_header content X) as (h & Eh & H). cbn [ID3v2_write_tag_t] in E. rewrite Eh in E. cbn [bind] in E.
  binv E. binv E. tinv E cs n m E2. apply (stream_timed _ fs) in E2; [|exact T]. binv E.
  rewrite copy_timed in E. tinv E a n' m' E4. injection E4 as <- <-. rewrite copy_timed in E.
  tinv E b n'' m'' E4. injection E4 as <- <-.
  assert (W : w = copy_loop (copy_loop (from_offset content match h with Some h => declared_length h | None => 0 end) v1) []) by congruence.
  assert (M : m'' = 0) by congruence. subst m''. rewrite (copy_loop_app _ []) in W. cbn [app] in W. rewrite <- W.
  replace (from_offset content _) with (audio content).
  2:{ unfold audio, from_offset. destruct h as [h|]; [destruct H as (-> & _ & _)|rewrite H]; reflexivity. }
  lia.
Qed.

Lemma delete_file_timed content : announces_extended content = false ->
  ID3v2_delete_tag_t (Some content)
  = Ok (Some (audio content), match tag_length content with Some _ => 2 * zlen (audio content) | None => 0 end).
Proof.
  intros X. destruct (file_header content X) as (h & E & H). unfold ID3v2_delete_tag_t. rewrite E. go. unfold audio.
  destruct h as [h|]; [|now rewrite H]. destruct H as (H & _). rewrite H. fold (from_offset content (declared_length h)).
  rewrite copy_timed. cbn [tbind bind]. rewrite copy_timed. cbn [tbind bind]. rewrite !copy_loop_app. cbn [app].
  f_equal; f_equal; lia.
Qed.

Lemma unicode_count chars p : text_ok (Iso chars) = true -> 2 * zlen chars + 4 < 2 ^ 31 ->
  points_to p (text_image (Iso chars)) -> exists r,
  ID3v2_to_unicode_t p = Ok (r, zlen chars * zlen chars + 4 * zlen chars + 2).
Proof.
  intros K L P. rewrite unicode_timed, (to_unicode_iso chars p K L P). go. destruct P as (tail & ->). eexists.
  change (text_image (Iso chars)) with (chars ++ [x00]). rewrite cells_app, <- app_assoc. change (cells [x00] ++ tail) with (Some x00 :: tail).
  rewrite c_strlen_chars by (cbn [text_ok] in K; apply andb_true_iff in K; tauto). go. reflexivity.
Qed.

Lemma lookup_timed t fs arg id : tag_has t fs -> Forall sane fs -> points_to arg id -> length id = 4%nat ->
  (exists r, ID3v2_Tag_get_frame_t (Some t) arg = Ok (r, search id fs))
  /\ (exists l, ID3v2_Tag_get_frames_t (Some t) arg = Ok (l, zlen fs + hops (zlen (filter (named id) fs)))).
Proof.
  intros (ps & T & <- & _) S P L. apply all_sane_map in S. cbn [ID3v2_Tag_get_frame_t ID3v2_Tag_get_frames_t]. rewrite T.
  rewrite (get_timed arg id), (tag_gets_timed arg id) by auto. rewrite psearch_map.
  rewrite <- (map_filter_g fp_frame (named id) ps). unfold zlen. rewrite !map_length. split; eexists; reflexivity.
Qed.
