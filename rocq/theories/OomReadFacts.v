(** Reading while memory may be refused. *)
From Verif Require Import Spec TagFacts AnyFacts FileFacts.
From Verif Require Import Oom SpecOom OomFacts.
From Coq Require Import Lia ZifyBool ZifyNat.

Ltac Zify.zify_post_hook ::= Z.div_mod_to_equations.

(** ** Logs *)

Definition all_asked (p : request -> bool) (l : log) : bool := forallb (fun q => p (fst q)) l.

Lemma all_asked_app p a b : all_asked p (a ++ b) = all_asked p a && all_asked p b.
Proof. apply forallb_app. Qed.

Lemma granted_false_refused p l : granted l = false -> all_asked p l = true -> refused p l = true.
Proof.
  induction l as [|[r g] l IH]; cbn [granted all_asked forallb refused existsb fst snd]; [discriminate|].
  intros G A. apply andb_true_iff in A. destruct A as [-> A]. destruct g; [|reflexivity]. cbn [negb andb orb] in *. now apply IH.
Qed.

Lemma all_asked_not_refused p q l : (forall r, p r = true -> q r = false) -> all_asked p l = true -> refused q l = false.
Proof.
  intros H. induction l as [|[r g] l IH]; [reflexivity|]. cbn [all_asked forallb refused existsb fst snd].
  intros A. apply andb_true_iff in A. destruct A as [A1 A2]. rewrite (H _ A1), andb_false_r. now apply IH.
Qed.

Lemma refused_only_app p a b : refused_only p (a ++ b) = refused_only p a && refused_only p b.
Proof. unfold refused_only. now rewrite refused_app, negb_orb. Qed.

Lemma granted_refused_only p l : granted l = true -> refused_only p l = true.
Proof. intros G. unfold refused_only. now rewrite granted_refused. Qed.

Lemma granted_one r g : granted [(r, g)] = g.
Proof. cbn. apply andb_true_r. Qed.

Lemma refused_some p q l : (forall r, p r = true -> q r = true) -> refused p l = true -> refused q l = true.
Proof.
  intros H. unfold refused. rewrite !existsb_exists. intros (x & I & E). exists x. split; [exact I|].
  apply andb_true_iff in E. destruct E as [-> E]. now rewrite (H _ E).
Qed.

(** ** Two facts about one run *)

Lemma ends_and {A} (m : oom A) P Q : ends_in m P -> ends_in m Q -> ends_in m (fun new r => P new r /\ Q new r).
Proof.
  intros H1 H2 M l. destruct (H1 M l) as (n1 & E1 & P1), (H2 M l) as (n2 & E2 & P2).
  rewrite E1 in E2. apply app_inv_tail in E2. subst n2. eauto.
Qed.

Lemma answers_and {A} (m : oom A) o P Q : ends_in m P -> answers m o Q -> answers m o (fun new r => P new r /\ Q new r).
Proof.
  intros H1 H2 M l. destruct (H1 M l) as (n1 & E1 & P1), (H2 M l) as (n2 & E2 & G & B).
  rewrite E1 in E2. apply app_inv_tail in E2. subst n2. exists n1. auto.
Qed.

Lemma answers_ends {A} (m : oom A) o Q :
  answers m o Q -> ends_in m (fun new r => if granted new then r = o else Q new r).
Proof. intros H M l. destruct (H M l) as (n & E & G & B). exists n. split; [exact E|]. destruct (granted n); auto. Qed.

Lemma ends_answers {A} (m : oom A) o Q :
  ends_in m (fun new r => if granted new then r = o else Q new r) -> answers m o Q.
Proof. intros H M l. destruct (H M l) as (n & E & B). exists n. split; [exact E|]. destruct (granted n); split; auto; discriminate. Qed.

Lemma ends_weaken {A} (m : oom A) (P Q : log -> outcome A -> Prop) :
  (forall new r, P new r -> Q new r) -> ends_in m P -> ends_in m Q.
Proof. intros W H M l. destruct (H M l) as (n & E & B). eauto. Qed.

Lemma ends_bind {A B} (m : oom A) (f : A -> oom B) P Q :
  ends_in m P ->
  (forall new x, P new (Ok x) -> ends_in (f x) (fun new' r => Q (new' ++ new) r)) ->
  (forall new r, P new r -> (forall y, r <> Ok y) -> Q new (cast r)) ->
  ends_in (bindo m f) Q.
Proof.
  intros Hm Hf HU M l. destruct (Hm M l) as (new & E & H). unfold bindo.
  destruct (m M l) as [r l1]. cbn [fst snd] in *. subst l1. destruct r as [x|u|n|].
  - destruct (Hf new x H M (new ++ l)) as (new2 & E2 & Q2). exists (new2 ++ new). now rewrite E2, app_assoc.
  - exists new. split; [reflexivity|]. now apply (HU new (Ub u)).
  - exists new. split; [reflexivity|]. now apply (HU new (Exit n)).
  - exists new. split; [reflexivity|]. now apply (HU new NoFuel).
Qed.

Lemma ends_ret {A} (a : A) (Q : log -> outcome A -> Prop) : Q [] (Ok a) -> ends_in (ret a) Q.
Proof. intros H M l. now exists []. Qed.
Lemma ends_lift {A} (o : outcome A) (Q : log -> outcome A -> Prop) : Q [] o -> ends_in (lift o) Q.
Proof. intros H M l. now exists []. Qed.
Lemma ends_ask {A} r (k : bool -> oom A) Q :
  (forall g, (g = false -> no_bytes r = false) -> ends_in (k g) (fun new x => Q (new ++ [(r, g)]) x)) -> ends_in (bindo (ask r) k) Q.
Proof.
  intros H M l. unfold bindo, ask. cbv zeta.
  assert (N : no_bytes r || M l r = false -> no_bytes r = false) by (now destruct (no_bytes r)).
  destruct (H (no_bytes r || M l r) N M ((r, no_bytes r || M l r) :: l)) as (new & E & U).
  exists (new ++ [(r, no_bytes r || M l r)]). rewrite E, <- app_assoc. split; [reflexivity|exact U].
Qed.
Lemma ends_bind_lift {A B} (o : outcome A) (f : A -> oom B) Q :
  (forall x, o = Ok x -> ends_in (f x) Q) ->
  ((forall y, o <> Ok y) -> Q [] (cast o)) -> ends_in (bindo (lift o) f) Q.
Proof.
  intros H U. destruct o as [x|u|n|]; [exact (H x eq_refl)|intros M l; exists []; split; [reflexivity|apply U; discriminate]..].
Qed.

(** ** What is asked for *)

Definition asks {A} (p : request -> bool) (m : oom A) : Prop := ends_in m (fun new _ => all_asked p new = true).

Lemma k_ret {A} p (a : A) : asks p (ret a). Proof. now apply ends_ret. Qed.
Lemma k_lift {A} p (o : outcome A) : asks p (lift o). Proof. now apply ends_lift. Qed.
Lemma k_bind {A B} p (m : oom A) (f : A -> oom B) : asks p m -> (forall x, asks p (f x)) -> asks p (bindo m f).
Proof.
  intros H1 H2. eapply ends_bind; [exact H1| |auto]. intros new x E. eapply ends_weaken; [|apply H2].
  intros new' r E'. cbv beta in *. now rewrite all_asked_app, E, E'.
Qed.
Lemma k_ask p r : p r = true -> asks p (ask r).
Proof. intros H M l. exists [(r, no_bytes r || M l r)]. split; [reflexivity|]. cbn. now rewrite H. Qed.
Lemma k_used p g : asks p (used g).
Proof. destruct g; [apply k_ret|apply k_lift]. Qed.
Lemma k_must p r : p r = true -> asks p (must r).
Proof. intros H. apply k_bind; [now apply k_ask|intros; apply k_used]. Qed.

Create HintDb asks.
#[global] Hint Resolve k_ret k_lift k_used : asks.

Ltac kind1 :=
  match goal with
  | |- asks _ (bindo _ _) => apply k_bind; [|intro]
  | |- asks _ (ask _) => apply k_ask; reflexivity
  | |- asks _ (must _) => apply k_must; reflexivity
  | |- asks _ (let '(_, _) := ?x in _) => destruct x
  | |- asks _ (if ?b then _ else _) => destruct b
  | |- asks _ (match ?x with _ => _ end) => destruct x
  | |- _ => solve [auto with asks]
  end.
Ltac kind := cbv zeta; repeat (kind1; cbv zeta).

(** Not the header of a tag, not a tag, not a whole file, nothing of version 1;
    nor a node of the list. *)
Definition within (r : request) : bool :=
  match r with
  | RTagHeader | RTag | RFile _ | RCompatNode | RCompatFrame | RCompatData _ | RCompatTag | RCompatHeader
  | RCompatRaw _ | RCompatFile _ | RContent | RContentData _ | RCover _ | RNode => false
  | _ => true
  end.

Lemma k_itob n : asks within (itob_o n). Proof. unfold itob_o. kind. Qed.
Lemma k_CharStream_new n : asks within (CharStream_new_o n). Proof. unfold CharStream_new_o. kind. Qed.
Lemma k_from_buffer p n : asks within (CharStream_from_buffer_o p n). Proof. unfold CharStream_from_buffer_o. kind. Qed.
Lemma k_FrameHeader_new a b n : asks within (FrameHeader_new_o a b n). Proof. unfold FrameHeader_new_o. kind. Qed.
#[global] Hint Resolve k_itob k_CharStream_new k_from_buffer k_FrameHeader_new : asks.
Lemma k_FrameHeader_parse cs v : asks within (FrameHeader_parse_o cs v). Proof. unfold FrameHeader_parse_o. kind. Qed.
Lemma k_FrameHeader_to h : asks within (FrameHeader_to_char_stream_o h). Proof. unfold FrameHeader_to_char_stream_o. kind. Qed.
Lemma k_TextFrameData_new p : asks within (TextFrameData_new_o p). Proof. unfold TextFrameData_new_o. kind. Qed.
Lemma k_CommentFrameData_new a b c : asks within (CommentFrameData_new_o a b c). Proof. unfold CommentFrameData_new_o. kind. Qed.
Lemma k_ApicFrameData_new a b c d e : asks within (ApicFrameData_new_o a b c d e). Proof. unfold ApicFrameData_new_o. kind. Qed.
#[global] Hint Resolve k_FrameHeader_parse k_FrameHeader_to k_TextFrameData_new k_CommentFrameData_new k_ApicFrameData_new : asks.
Lemma k_TextFrame_new a b c : asks within (TextFrame_new_o a b c). Proof. unfold TextFrame_new_o. kind. Qed.
Lemma k_CommentFrame_new a b c d : asks within (CommentFrame_new_o a b c d). Proof. unfold CommentFrame_new_o. kind. Qed.
Lemma k_ApicFrame_new a b c d e f : asks within (ApicFrame_new_o a b c d e f). Proof. unfold ApicFrame_new_o. kind. Qed.
#[global] Hint Resolve k_TextFrame_new k_CommentFrame_new k_ApicFrame_new : asks.
Lemma k_TextFrame_parse cs v : asks within (TextFrame_parse_o cs v). Proof. unfold TextFrame_parse_o. kind. Qed.
Lemma k_CommentFrame_parse cs v : asks within (CommentFrame_parse_o cs v). Proof. unfold CommentFrame_parse_o. kind. Qed.
Lemma k_ApicFrame_parse cs v : asks within (ApicFrame_parse_o cs v). Proof. unfold ApicFrame_parse_o. kind. Qed.
#[global] Hint Resolve k_TextFrame_parse k_CommentFrame_parse k_ApicFrame_parse : asks.
Lemma k_Frame_parse cs v : asks within (Frame_parse_o cs v). Proof. unfold Frame_parse_o. kind. Qed.
#[global] Hint Resolve k_Frame_parse : asks.
Lemma k_start h : asks within (start_frame_stream_o h). Proof. unfold start_frame_stream_o. kind. Qed.
#[global] Hint Resolve k_start : asks.
Lemma k_Text_to h d : asks within (TextFrame_to_char_stream_o h d). Proof. unfold TextFrame_to_char_stream_o. kind. Qed.
Lemma k_Comment_to h d : asks within (CommentFrame_to_char_stream_o h d). Proof. unfold CommentFrame_to_char_stream_o. kind. Qed.
Lemma k_Apic_to h d : asks within (ApicFrame_to_char_stream_o h d). Proof. unfold ApicFrame_to_char_stream_o. kind. Qed.
#[global] Hint Resolve k_Text_to k_Comment_to k_Apic_to : asks.
Lemma k_Frame_to f : asks within (Frame_to_char_stream_o f). Proof. unfold Frame_to_char_stream_o. kind. Qed.
#[global] Hint Resolve k_Frame_to : asks.
Lemma k_write_frames : forall l cs, asks within (write_frames_o cs l).
Proof. induction l as [|n l IH]; intros cs; cbn [write_frames_o]; kind. Qed.
#[global] Hint Resolve k_write_frames : asks.
Lemma k_Tag_to t : asks within (Tag_to_char_stream_o t). Proof. unfold Tag_to_char_stream_o. kind. Qed.

Definition within_or_node (r : request) : bool := within r || is_node r.

Lemma k_weaken {A} (p q : request -> bool) (m : oom A) : (forall r, p r = true -> q r = true) -> asks p m -> asks q m.
Proof.
  intros H. apply ends_weaken. intros new _ E. unfold all_asked in *. rewrite forallb_forall in *. intros x I. apply H, E, I.
Qed.

Lemma k_parse_loop : forall fuel ts v cs l fresh, asks within_or_node (parse_loop_o fuel ts v cs l fresh).
Proof.
  assert (F : forall cs v, asks within_or_node (Frame_parse_o cs v)).
  { intros cs v. eapply k_weaken; [|apply k_Frame_parse]. intros r E. unfold within_or_node. now rewrite E. }
  assert (G : forall l f, asks within_or_node (FrameList_add_frame_o l f)).
  { intros l f. unfold FrameList_add_frame_o. kind. }
  induction fuel as [|fuel IH]; intros ts v cs l fresh; cbn [parse_loop_o]; kind.
Qed.

(** ** The header of a tag *)

Lemma a_TagHeader_new a b c d e (f : option TagHeader -> oom (option TagHeader * CharStream)) g Q :
  f (Some (TagHeader_new a b c d e)) = ret g ->
  ends_in (f None) (fun new r => Q (new ++ [(RTagHeader, false)]) r) ->
  answers (bindo (TagHeader_new_o a b c d e) f) (Ok g) Q.
Proof.
  intros E1 E2 M l. unfold bindo at 1, TagHeader_new_o, bindo, ask, ret. cbn [no_bytes orb].
  destruct (M l RTagHeader).
  - rewrite E1. exists [(RTagHeader, true)]. repeat split. discriminate.
  - destruct (E2 M ((RTagHeader, false) :: l)) as (new & N & H). exists (new ++ [(RTagHeader, false)]).
    rewrite N, <- app_assoc. split; [reflexivity|]. rewrite granted_app. cbn [granted forallb snd]. rewrite andb_false_r.
    split; [discriminate|auto].
Qed.

Definition no_header (new : log) (r : outcome (option TagHeader * CharStream)) : Prop :=
  new = [(RTagHeader, false)] /\ exists cs, r = Ok (None, cs).

Lemma a_TagHeader_parse cs : answers (TagHeader_parse_o cs) (TagHeader_parse cs) no_header.
Proof.
  unfold TagHeader_parse_o, TagHeader_parse.
  apply a_bind_lift. intros has _. destruct (negb has); [apply a_ret|].
  apply a_bind_lift. intros [d c1] _. apply a_bind_lift. intros [major c2] _. apply a_bind_lift. intros [minor c3] _.
  destruct (_ && _); [apply a_ret|].
  apply a_bind_lift. intros [flags c4] _. apply a_bind_lift. intros [raw c5] _. apply a_bind_lift. intros n _. cbv zeta.
  destruct (_ =? _).
  - apply a_bind_lift. intros [rawe c6] _. apply a_bind_lift. intros e _.
    apply a_TagHeader_new; [reflexivity|]. apply ends_ret. split; [reflexivity|eauto].
  - apply a_TagHeader_new; [reflexivity|]. apply ends_ret. split; [reflexivity|eauto].
Qed.

(** Refused: the header alone gives no header, anything else is undefined. *)
Lemma within_not_header r : within r = true -> is_tag_header r = false.
Proof. now destruct r. Qed.

Lemma a_read_header_buffer p :
  answers (ID3v2_read_tag_header_from_buffer_o p) (ID3v2_read_tag_header_from_buffer p) (header_or_undefined (Ok None)).
Proof.
  unfold ID3v2_read_tag_header_from_buffer_o, ID3v2_read_tag_header_from_buffer.
  eapply a_bind_any with (Q2 := header_or_undefined (Ok None)).
  - apply answers_and; [apply k_from_buffer|apply n_from_buffer].
  - intros cs _. eapply a_bind_any with (Q1 := no_header) (Q2 := fun _ _ => False).
    + apply a_TagHeader_parse.
    + intros [h c] _. apply a_ret.
    + intros new [h c] _ (-> & c' & E). injection E as -> ->. apply ends_ret. split; reflexivity.
    + intros new r _ (_ & c & ->) E. now destruct (E (None, c)).
    + contradiction.
  - intros new y _ (_ & u & E). discriminate E.
  - intros new r _ (A & u & ->) _. cbn [cast]. unfold header_or_undefined.
    rewrite (all_asked_not_refused within is_tag_header) by (auto using within_not_header). now exists u.
  - intros new1 new2 x r G _ _ H. unfold header_or_undefined in *.
    rewrite refused_app, refused_only_app, (granted_refused _ new1), (granted_refused_only _ new1), orb_false_r, andb_true_r by auto. exact H.
Qed.

Lemma a_read_header f : answers (ID3v2_read_tag_header_o f) (ID3v2_read_tag_header f) (header_or_undefined (Ok None)).
Proof.
  unfold ID3v2_read_tag_header_o, ID3v2_read_tag_header. destruct f as [content|]; [|apply a_ret].
  cbv zeta. destruct (_ <? _); [apply a_ret|]. apply a_read_header_buffer.
Qed.

(** ** One frame *)

Lemma read_into_still cs n d cs' :
  0 < n -> read_into cs n = Ok (d, cs') -> cs_cursor cs' = cs_cursor cs ->
  cs' = cs /\ cs_cursor cs = cs_size cs /\ d = repeat None (Z.to_nat n).
Proof.
  intros N E C. unfold read_into, CharStream_read in E. binv E. destruct v as [d0 c0]. binv E0. binv E0. injection E0 as <- <-.
  unfold isub in E1. apply chk_int_inv in E1. destruct E1 as [-> R].
  assert (E' : d = v0 ++ repeat None (Z.to_nat n - length v0)
               /\ cs' = with_cursor cs (cs_cursor cs + clamp_int n 0 (cs_size cs - cs_cursor cs))) by (split; congruence).
  destruct E' as [-> ->]. cbn [with_cursor cs_cursor] in C.
  assert (Z0 : clamp_int n 0 (cs_size cs - cs_cursor cs) = 0) by lia.
  rewrite Z0 in *. assert (S0 : cs_size cs - cs_cursor cs = 0).
  { unfold clamp_int in Z0. destruct (n <? 0) eqn:?; [lia|]. destruct (_ <? n) eqn:?; lia. }
  assert (v0 = []) as ->.
  { unfold memcpy_from in E2. change (0 <? 0) with false in E2. cbv iota in E2. change (Z.to_nat 0) with 0%nat in E2.
    destruct (_ <? 0) in E2; [discriminate E2|]. cbn [firstn] in E2. congruence. }
  cbn [app length]. rewrite Nat.sub_0_r, Z.add_0_r. split; [now destruct cs|]. split; [lia|reflexivity].
Qed.

(** The data of a frame all of whose bytes are missing. *)
Definition stripped (cs : CharStream) (ver : Z) (new : log) (r : outcome (option frame * CharStream)) : Prop :=
  refused_only is_raw new = true /\
  exists h cs1, FrameHeader_parse cs ver = Ok (Some h, cs1) /\ 0 < fh_size h /\ cs_cursor cs1 = cs_size cs1
    /\ r = Ok (Some (mkFrame h (DRaw [])), cs1)
    /\ Frame_parse cs ver = Ok (Some (mkFrame h (DRaw (repeat None (Z.to_nat (fh_size h))))), cs1).

Lemma a_Frame_parse cs ver :
  answers (Frame_parse_o cs ver) (Frame_parse cs ver) (fun new r => undefined r \/ stripped cs ver new r).
Proof.
  set (Q := fun new r => undefined r \/ stripped cs ver new r).
  assert (HU : forall new u, granted new = false -> Q new (Ub u)) by (intros new u _; left; now exists u).
  assert (HA : forall new1 new2 r, granted new1 = true -> granted new2 = false -> Q new2 r -> Q (new2 ++ new1) r).
  { intros n1 n2 r G _ [U|[R X]]; [now left|right]. split; [|exact X].
    now rewrite refused_only_app, R, (granted_refused_only _ n1). }
  assert (W : forall m o, needs_all m o -> answers m o Q).
  { intros m o. apply a_weaken. intros new r _ U. now left. }
  remember (Frame_parse cs ver) as P eqn:EP. unfold Frame_parse_o. unfold Frame_parse in EP.
  subst P. eapply a_bind; [apply n_FrameHeader_parse| |exact HU|exact HA].
  intros [[h|] c1] EH; [|apply a_ret].
  apply a_bind_lift. intros it Eit. apply a_bind_lift. intros ic Eic. apply a_bind_lift. intros ia Eia.
  destruct it; [apply W; need|]. destruct ic; [apply W; need|]. destruct ia; [apply W; need|].
  apply a_must; [|exact HU|exact HA].
  destruct (fh_size h <? 0) eqn:S; [apply a_lift|].
  apply ends_answers. apply ends_ask. intros g NB. apply ends_bind_lift.
  - intros [d c2] ER. rewrite ER. cbn [bind]. destruct g.
    + apply ends_ret. now rewrite granted_app, granted_one.
    + destruct (cs_cursor c2 =? cs_cursor c1) eqn:C.
      * apply ends_ret. cbn [app]. rewrite granted_one. right. split; [reflexivity|].
        specialize (NB eq_refl). cbn [no_bytes] in NB.
        destruct (read_into_still c1 (fh_size h) d c2 ltac:(lia) ER ltac:(lia)) as (-> & C2 & ->).
        exists h, c1. split; [exact EH|]. split; [lia|]. split; [exact C2|]. split; [reflexivity|].
        unfold Frame_parse. rewrite EH. cbn [bind]. rewrite Eit. cbn [bind]. rewrite Eic. cbn [bind]. rewrite Eia. cbn [bind].
        rewrite S, ER. reflexivity.
      * apply ends_lift. cbn [app]. rewrite granted_one. apply HU. reflexivity.
  - intros N. cbn [app]. rewrite granted_one. pose proof (benign_read_into c1 (fh_size h)) as B.
    destruct (read_into c1 (fh_size h)) as [x|u| |]; try contradiction; [now destruct (N x)|].
    cbn [cast bind]. destruct g; [reflexivity|apply HU; reflexivity].
Qed.

(** With bytes left after the header of the frame. *)
Lemma n_Frame_parse cs ver :
  (forall h c, FrameHeader_parse cs ver = Ok (Some h, c) -> cs_cursor c <> cs_size c) ->
  needs_all (Frame_parse_o cs ver) (Frame_parse cs ver).
Proof.
  intros H. eapply a_weaken; [|apply a_Frame_parse]. cbv beta. intros new r _ [U|(_ & h & c & E & _ & C & _)]; [exact U|].
  now destruct (H h c E).
Qed.

(** ** The frames of a tag *)

Lemma bereft_refl f : bereft f f. Proof. now left. Qed.
Lemma bereft_node_refl n : bereft_node n n.
Proof. split; [reflexivity|]. destruct (n_frame n); [split; [reflexivity|apply bereft_refl]|exact I]. Qed.
Lemma bereft_refl_list l : Forall2 bereft_node l l.
Proof. induction l; constructor; auto using bereft_node_refl. Qed.

Lemma add_frame_bereft l l' fresh f f' : Forall2 bereft_node l l' -> bereft f f' ->
  match FrameList_add_frame l (fresh, f) with
  | Ok r => exists r', FrameList_add_frame l' (fresh, f') = Ok r' /\ Forall2 bereft_node r r'
  | o => FrameList_add_frame l' (fresh, f') = o
  end.
Proof.
  intros L F. destruct L as [|n n' l l' N L]; [reflexivity|]. cbn [FrameList_add_frame].
  assert (B : bereft_node (mkNode (Some (fresh, f)) true) (mkNode (Some (fresh, f')) true)) by (repeat split; exact F).
  rewrite (proj1 N). destruct (negb (n_start n)).
  - eexists. split; [reflexivity|]. now constructor.
  - eexists. split; [reflexivity|]. apply Forall2_app; [now constructor|]. constructor; [exact B|constructor].
Qed.

Definition loop_matches (o r : outcome (flist * nat * CharStream)) : Prop :=
  match o with
  | Ok (l, fr, c) => exists l', r = Ok (l', fr, c) /\ Forall2 bereft_node l l'
  | _ => r = o
  end.

Lemma loop_bereft ts ver : forall fuel cs l l' fresh, Forall2 bereft_node l l' ->
  ends_in (parse_loop_o fuel ts ver cs l' fresh)
    (fun new r => refused_only is_raw new = true /\ loop_matches (parse_loop fuel ts ver cs l fresh) r
               \/ granted new = false /\ undefined r).
Proof.
  induction fuel as [|fuel IH]; intros cs l l' fresh L; cbn [parse_loop_o parse_loop]; destruct (to_u32 _ <? ts).
  1: apply ends_lift; left; split; reflexivity.
  1, 3: apply ends_ret; left; split; [reflexivity|]; eexists; split; [reflexivity|exact L].
  assert (X : exists Q, ends_in (Frame_parse_o cs ver) Q /\ forall new r, Q new r ->
     (granted new = false /\ undefined r) \/
     (refused_only is_raw new = true /\
      match Frame_parse cs ver with
      | Ok (Some f, c) => exists f', r = Ok (Some f', c) /\ bereft f f'
      | o => r = o
      end)).
  { eexists. split; [apply answers_ends, a_Frame_parse|]. intros new r H. cbv beta in H. destruct (granted new) eqn:G.
    - right. split; [now apply granted_refused_only|]. subst r. destruct (Frame_parse cs ver) as [[[f|] c]| | |]; try reflexivity.
      exists f. split; [reflexivity|apply bereft_refl].
    - destruct H as [U|(R & h & c & _ & N & _ & -> & ->)]; [now left|right]. split; [exact R|].
      eexists. split; [reflexivity|]. right. exists h. auto. }
  destruct X as (Q & X & HQ). eapply ends_bind; [exact X| |].
  - intros new [fo' c] H. destruct (HQ _ _ H) as [(_ & u & E)|(R & E)]; [discriminate E|].
    destruct (Frame_parse cs ver) as [[[f|] c0]| | |]; try discriminate E.
    2:{ injection E as -> ->. cbn [bind]. apply ends_ret. left. split; [exact R|]. cbn [loop_matches]. eauto. }
    destruct E as (f' & E & B). injection E as -> ->. cbn [bind].
    pose proof (add_frame_bereft l l' fresh f f' L B) as AF.
    eapply ends_bind; [apply answers_ends, n_add_frame| |].
    + intros new2 x H2. cbv beta in H2. destruct (granted new2) eqn:G2; [|now destruct H2].
      destruct (FrameList_add_frame l (fresh, f)) as [l2| | |]; [|rewrite AF in H2; discriminate H2..].
      destruct AF as (l2' & E2 & B2). rewrite E2 in H2. injection H2 as ->. cbn [bind].
      eapply ends_weaken; [|apply (IH c0 l2 l2' (S fresh) B2)]. cbv beta. intros new3 r [(R3 & M3)|(G3 & U)].
      * left. split; [|exact M3]. now rewrite !refused_only_app, R3, R, (granted_refused_only _ new2).
      * right. split; [|exact U]. now rewrite !granted_app, G3.
    + intros new2 r H2 N. cbv beta in H2. destruct (granted new2) eqn:G2.
      * left. split; [now rewrite refused_only_app, R, (granted_refused_only _ new2)|]. subst r.
        destruct (FrameList_add_frame l (fresh, f)) as [l2|u|n|].
        -- destruct AF as (l2' & E2 & _). now destruct (N l2').
        -- now rewrite AF.
        -- now rewrite AF.
        -- now rewrite AF.
      * right. split; [now rewrite granted_app, G2|]. destruct H2 as (u & ->). now exists u.
  - intros new r H N. destruct (HQ _ _ H) as [(G & u & ->)|(R & E)]; [right; split; [exact G|now exists u]|left].
    split; [exact R|]. destruct (Frame_parse cs ver) as [[[f|] c]|u|n|].
    + destruct E as (f' & -> & _). now destruct (N (Some f', c)).
    + subst r. now destruct (N (None, c)).
    + now subst r.
    + now subst r.
    + now subst r.
Qed.

Definition lacking_started (n : node) : Prop := n_start n = true /\ lacking n.

Lemma add_frame_lacking l p l' : Exists lacking_started l -> FrameList_add_frame l p = Ok l' -> Exists lacking_started l'.
Proof.
  intros X E. destruct l as [|n l]; [discriminate E|]. cbn [FrameList_add_frame] in E. destruct (n_start n) eqn:S; cbn [negb] in E.
  - injection E as <-. change (n :: l ++ [mkNode (Some p) true]) with ((n :: l) ++ [mkNode (Some p) true]). apply Exists_app. now left.
  - injection E as <-. inversion X as [? ? (C & _)|? ? H]; subst; [congruence|]. now right.
Qed.

Lemma add_lacking_frame l fresh f l' : 0 < fh_size (f_hdr f) -> f_data f = DRaw [] ->
  FrameList_add_frame l (fresh, f) = Ok l' -> Exists lacking_started l'.
Proof.
  intros P D E. assert (L : lacking_started (mkNode (Some (fresh, f)) true)) by (split; [reflexivity|]; split; assumption).
  destruct l as [|n l]; [discriminate E|]. cbn [FrameList_add_frame] in E. destruct (negb (n_start n)); injection E as <-.
  - now left.
  - apply (Exists_app lacking_started (n :: l)). right. now left.
Qed.

(** A refusal that went unnoticed has left a frame without its data. *)
Lemma e_loop_lacking ts ver : forall fuel cs l fresh,
  ends_in (parse_loop_o fuel ts ver cs l fresh) (fun new r => forall l' fr c, r = Ok (l', fr, c) ->
     Exists lacking_started l \/ granted new = false -> Exists lacking_started l').
Proof.
  induction fuel as [|fuel IH]; intros cs l fresh; cbn [parse_loop_o]; destruct (to_u32 _ <? ts).
  1: apply ends_lift; discriminate.
  1, 3: apply ends_ret; intros l' fr c E [H|H]; [injection E as <- _ _; exact H|discriminate H].
  eapply ends_bind; [apply answers_ends, a_Frame_parse| |].
  2:{ intros new r _ N l' fr c E. destruct r as [x| | |]; [now destruct (N x)|discriminate E..]. }
  cbv beta. intros new [[f|] c] H.
  2:{ apply ends_ret. intros l' fr c0 E [X|X]; [injection E as <- _ _; exact X|]. cbn [app] in X. rewrite X in H.
      destruct H as [(u & H)|(_ & h & c1 & _ & _ & _ & H & _)]; discriminate H. }
  assert (LK : granted new = false -> 0 < fh_size (f_hdr f) /\ f_data f = DRaw []).
  { intros G. rewrite G in H. destruct H as [(u & H)|(_ & h & c1 & _ & P & _ & H & _)]; [discriminate H|]. injection H as -> _. now split. }
  eapply ends_bind; [apply answers_ends, n_add_frame| |].
  2:{ intros new2 r _ N l' fr c0 E. destruct r as [x| | |]; [now destruct (N x)|discriminate E..]. }
  cbv beta. intros new2 l2 H2. destruct (granted new2) eqn:G2; [|now destruct H2].
  eapply ends_weaken; [|apply IH]. cbv beta. intros new3 r H3 l' fr c0 E X. eapply H3; [exact E|].
  rewrite !granted_app, G2 in X. cbn [andb] in X. destruct X as [X|X]; [left; eapply add_frame_lacking; eauto|].
  destruct (granted new3); [cbn [andb] in X; left|now right]. destruct (LK X). eapply add_lacking_frame; eauto.
Qed.

Lemma lacking_started_all l : Exists lacking_started l -> Exists lacking l.
Proof. apply Exists_impl. now intros n [_ H]. Qed.

Lemma a_parse_loop ts ver : forall fuel cs l fresh,
  answers (parse_loop_o fuel ts ver cs l fresh) (parse_loop fuel ts ver cs l fresh) (fun _ _ => True).
Proof.
  induction fuel as [|fuel IH]; intros cs l fresh; cbn [parse_loop_o parse_loop]; destruct (to_u32 _ <? ts).
  1: apply a_lift.
  1, 3: apply a_ret.
  eapply a_bind_any with (Q2 := fun _ _ => True); [apply a_Frame_parse| | |auto|auto].
  - intros [[f|] c] _; [|apply a_ret]. eapply a_bind; [apply n_add_frame|auto|auto|auto].
  - intros new [[f|] c] _ _; [|now apply ends_ret].
    apply (ends_weaken _ (fun new _ => all_asked within_or_node new = true)); [auto|].
    apply k_bind; [unfold FrameList_add_frame_o; kind|]. intros. apply k_parse_loop.
Qed.

(** *** As many bytes as a file is read for *)

Lemma header_outside cs ver r :
  0 <= cs_size cs -> cs_cursor cs < 0 \/ cs_size cs < cs_cursor cs -> FrameHeader_parse cs ver <> Ok r.
Proof.
  intros H O E.
  unfold FrameHeader_parse, read_into, CharStream_read in E.
  do 2 (apply bind_Ok in E; destruct E as (? & E & _)).
  apply bind_Ok in E. destruct E as (a & Ea & E).
  unfold isub in Ea. apply chk_int_inv in Ea. destruct Ea as [-> R].
  apply bind_Ok in E. destruct E as (d & E & _).
  unfold clamp_int in *. change ID3v2_FRAME_HEADER_ID_LENGTH with 4 in *.
  change (4 <? 0) with false in *. cbv iota in *. unfold memcpy_from, CharStream_get_cur in E.
  destruct O as [O|O].
  - replace (cs_cursor cs <? 0) with true in E by lia. change (zlen (@nil cell)) with 0 in E.
    destruct (cs_size cs - cs_cursor cs <? 4) eqn:C.
    + replace (cs_size cs - cs_cursor cs <? 0) with false in E by lia.
      replace (0 <? cs_size cs - cs_cursor cs) with true in E by lia. discriminate E.
    + discriminate E.
  - replace (cs_size cs - cs_cursor cs <? 4) with true in * by lia.
    replace (cs_size cs - cs_cursor cs <? 0) with true in E by lia. discriminate E.
Qed.

Lemma n_parse_loop ts ver : forall fuel p r l fresh, fits p r -> zlen p + zlen r = ts + 10 ->
  needs_all (parse_loop_o fuel ts ver (at_pos p r) l fresh) (parse_loop fuel ts ver (at_pos p r) l fresh).
Proof.
  induction fuel as [|fuel IH]; intros p r l fresh F Z; cbn [parse_loop_o parse_loop].
  - need.
  - destruct (to_u32 _ <? ts) eqn:C; [|need].
    assert (C' : zlen p < ts).
    { unfold at_pos in C. cbn [cs_cursor] in C. pose proof (zlen_nonneg p). pose proof (zlen_nonneg r). unfold fits in F.
      rewrite to_u32_id in C by (split; lia). lia. }
    apply s_bind.
    + apply n_Frame_parse. intros h c E. apply header_parse_some in E; [|exact F].
      destruct E as (i & s & d & n & -> & Li & Ls & _ & _ & -> & _).
      unfold at_pos. cbn [cs_cursor cs_size]. rewrite !zlen_app in *. pose proof (zlen_nonneg d).
      rewrite zlen_drop, (zlen_take 2) by lia. lia.
    + intros [[f|] c] E; [|need]. apply frame_parse_moved in E; [|exact F]. destruct E as (d & r' & -> & -> & K).
      apply s_bind; [apply n_add_frame|]. intros l2 _. apply IH; [now apply fits_app|]. rewrite !zlen_app in *. lia.
Qed.

Lemma n_parse_loop_any ts ver fuel (m : mem) c l fresh : zlen m < 2 ^ 31 -> zlen m = ts + 10 ->
  needs_all (parse_loop_o fuel ts ver (mkCS c (zlen m) m) l fresh) (parse_loop fuel ts ver (mkCS c (zlen m) m) l fresh).
Proof.
  intros Z T. pose proof (zlen_nonneg m).
  assert (X : c < 0 \/ zlen m < c -> needs_all (parse_loop_o fuel ts ver (mkCS c (zlen m) m) l fresh) (parse_loop fuel ts ver (mkCS c (zlen m) m) l fresh)).
  { intros O. destruct fuel as [|fuel]; cbn [parse_loop parse_loop_o]; destruct (to_u32 _ <? ts); try solve [need].
    apply s_bind.
    - apply n_Frame_parse. intros h d E. exfalso. eapply header_outside; [| |exact E]; cbn [cs_size cs_cursor]; lia.
    - intros x E. exfalso. eapply parse_outside; [| |exact E]; cbn [cs_size cs_cursor]; lia. }
  destruct (Z.le_gt_cases 0 c) as [A|A]; [destruct (Z.le_gt_cases c (zlen m)) as [B|B]|].
  - rewrite at_pos_cursor by lia. apply n_parse_loop.
    + unfold fits. rewrite zlen_take, zlen_drop by lia. lia.
    + rewrite zlen_take, zlen_drop by lia. lia.
  - apply X. lia.
  - apply X. lia.
Qed.

Definition loop_answer (s : bool) (o : outcome (flist * nat * CharStream)) (new : log) (r : outcome (flist * nat * CharStream)) : Prop :=
  undefined r \/
  s = false /\ refused_only is_raw new = true
  /\ exists l l' fr c, o = Ok (l, fr, c) /\ r = Ok (l', fr, c) /\ Forall2 bereft_node l l' /\ Exists lacking l'.

Lemma a_loop (s : bool) ts ver fuel (m : mem) c l fresh : zlen m < 2 ^ 31 -> (length m + 2 <= fuel)%nat ->
  (s = true -> zlen m = ts + 10) ->
  answers (parse_loop_o fuel ts ver (mkCS c (zlen m) m) l fresh) (parse_loop fuel ts ver (mkCS c (zlen m) m) l fresh)
    (loop_answer s (parse_loop fuel ts ver (mkCS c (zlen m) m) l fresh)).
Proof.
  intros Z L S. destruct s.
  - eapply a_weaken; [|apply n_parse_loop_any; auto]. intros new r _ U. now left.
  - eapply a_weaken; [|apply answers_and; [apply ends_and; [apply loop_bereft, bereft_refl_list|apply e_loop_lacking]|apply a_parse_loop]].
    cbv beta. intros new r G [[[(R & M)|(_ & U)] LK] _]; [|now left].
    pose proof (parse_loop_any ts ver fuel m c l fresh Z L) as B. unfold loop_matches in M.
    destruct (parse_loop fuel ts ver (mkCS c (zlen m) m) l fresh) as [[[l1 fr] c1]|u| |]; try contradiction.
    + right. split; [reflexivity|]. split; [exact R|]. destruct M as (l' & -> & F). exists l1, l', fr, c1.
      repeat split; auto. eapply lacking_started_all, LK; eauto.
    + left. now exists u.
Qed.

(** *** No list to put frames in *)

Lemma loop_started ts ver : forall fuel cs n l fresh l' fr c, n_start n = true ->
  parse_loop fuel ts ver cs (n :: l) fresh = Ok (l', fr, c) -> exists k, l' = n :: k.
Proof.
  induction fuel as [|fuel IH]; intros cs n l fresh l' fr c S E; cbn [parse_loop] in E; destruct (to_u32 _ <? ts).
  - discriminate E.
  - injection E as <- _ _. eauto.
  - binv E. destruct v as [[f|] c0]; [|injection E as <- _ _; eauto].
    cbn [FrameList_add_frame] in E. rewrite S in E. cbn [negb bind app] in E. eapply IH; eauto.
  - injection E as <- _ _. eauto.
Qed.

Lemma within_not_node r : within r = true -> negb (is_node r) = true.
Proof. now destruct r. Qed.

Lemma refused_not_only p l : refused (fun r => negb (p r)) l = true -> refused_only p l = false.
Proof. intros H. unfold refused_only. now rewrite H. Qed.

Lemma e_null_loop ts ver fuel cs fresh :
  ends_in (parse_loop_o (S fuel) ts ver cs [] fresh)
    (fun new r =>
       granted new = true
       /\ (exists c, r = Ok ([], fresh, c) /\ forall l, parse_loop (S fuel) ts ver cs l fresh = Ok (l, fresh, c))
       \/ undefined r
       /\ (refused_only is_node new = false \/ forall fr c, parse_loop (S fuel) ts ver cs FrameList_new fresh <> Ok (FrameList_new, fr, c))).
Proof.
  cbn [parse_loop_o parse_loop]. destruct (to_u32 _ <? ts).
  2:{ apply ends_ret. left. split; [reflexivity|]. eauto. }
  eapply ends_bind; [apply ends_and; [apply k_Frame_parse|apply answers_ends, a_Frame_parse]| |].
  - cbv beta. intros new [fo c] (A & H). destruct (granted new) eqn:G.
    + rewrite <- H. cbn [bind]. destruct fo as [f|].
      * cbn [FrameList_add_frame_o]. apply ends_bind_lift; [discriminate|]. intros _. right. split; [now exists NullDeref|right].
        intros fr c1 E. cbn [FrameList_add_frame FrameList_new empty_node n_start negb bind] in E.
        apply loop_started in E; [|reflexivity]. destruct E as (k & E). discriminate E.
      * apply ends_ret. left. split; [exact G|]. eauto.
    + destruct H as [(u & E)|(_ & h & c1 & _ & _ & _ & E & _)]; [discriminate E|]. injection E as -> ->.
      cbn [FrameList_add_frame_o]. apply ends_bind_lift; [discriminate|]. intros _. right. split; [now exists NullDeref|left].
      cbn [app]. apply refused_not_only. eapply refused_some; [exact within_not_node|]. now apply granted_false_refused.
  - cbv beta. intros new r (A & H) N. right. destruct (granted new) eqn:G.
    + subst r. pose proof (benign_frame_parse cs ver) as B. destruct (Frame_parse cs ver) as [x|u| |]; try contradiction.
      * now destruct (N x).
      * split; [now exists u|right]. cbn [bind]. discriminate.
    + assert (undefined (cast (B := flist * nat * CharStream) r)).
      { destruct H as [(u & ->)|(_ & h & c1 & _ & _ & _ & -> & _)]; [now exists u|]. exfalso. eapply N. reflexivity. }
      split; [assumption|left]. apply refused_not_only. eapply refused_some; [exact within_not_node|]. now apply granted_false_refused.
Qed.

(** ** A tag *)

Lemma e_tag_new h n :
  ends_in (ID3v2_Tag_new_o (Some h) n) (fun new r =>
    new = [(RTag, false)] /\ undefined r
    \/ exists g, new = [(RNode, g); (RTag, true)] /\ r = Ok (Whole (mkTag h (if g then FrameList_new else []) 0 0))).
Proof.
  unfold ID3v2_Tag_new_o, FrameList_new_o, bindo, ask, used, ret, lift. intros M l. cbn [no_bytes orb]. cbv zeta.
  destruct (M l RTag); cbn [fst snd].
  - destruct (M ((RTag, true) :: l) RNode) eqn:G; eexists [(RNode, _); (RTag, true)]; split; try reflexivity; right; eexists; split; reflexivity.
  - exists [(RTag, false)]. split; [reflexivity|left]. split; [reflexivity|now exists NullDeref].
Qed.

(** tag.c:49-67 *)
Definition tag_rest_o (h : TagHeader) (cs : CharStream) : oom (option Tag) :=
  let# tag := ID3v2_Tag_new_o (Some h) 0 in
  match tag with
  | Headless _ => lift (Ub NullDeref)
  | Whole tag =>
      let# cs := lift (if 0 <? th_ext_size h
                       then CharStream_seek cs (to_i32 (th_ext_size h)) SEEK_SET
                       else Ok cs) in
      let# (frames, fresh, cs) :=
        parse_loop_o (length (cs_stream cs) + 2) (th_tag_size h) (schar (th_major h))
                     cs (t_frames tag) (t_fresh tag) in
      let# padding := lift (isub (cs_size cs) (cs_cursor cs)) in
      ret (Some (mkTag h frames padding fresh))
  end.

Definition tag_rest (h : TagHeader) (cs : CharStream) : outcome (option Tag) :=
  let tag := ID3v2_Tag_new (Some h) 0 in
  let* cs := if 0 <? th_ext_size h
             then CharStream_seek cs (to_i32 (th_ext_size h)) SEEK_SET
             else Ok cs in
  let* (frames, fresh, cs) :=
    parse_loop (length (cs_stream cs) + 2) (th_tag_size h) (schar (th_major h))
               cs (t_frames tag) (t_fresh tag) in
  let* padding := isub (cs_size cs) (cs_cursor cs) in
  Ok (Some (mkTag h frames padding fresh)).


Definition inside (r : request) : bool := within_or_node r || is_tag r.

Lemma frameless_spec t : frameless t = true <-> t_frames t = FrameList_new.
Proof.
  unfold frameless, FrameList_new, empty_node. destruct (t_frames t) as [|[[p|] [|]] [|]]; cbn; split; intros H; try discriminate H; try reflexivity.
Qed.

Lemma not_frameless_ub s o new u :
  refused_only is_node new = false \/ (forall t, o = Ok (Some t) -> frameless t = false) ->
  tag_answer s o new (Ub u).
Proof.
  intros H. unfold tag_answer. destruct o as [[t|]| | |]; try (now exists u).
  destruct H as [->|H]; [rewrite andb_false_r|rewrite (H t eq_refl); cbn [andb]]; left; now exists u.
Qed.

Lemma e_new_loop ts ver fuel cs fresh :
  ends_in (parse_loop_o (S fuel) ts ver cs FrameList_new fresh)
    (fun new r => granted new = false -> refused_only is_node new = true ->
       forall fr c, parse_loop (S fuel) ts ver cs FrameList_new fresh <> Ok (FrameList_new, fr, c)).
Proof.
  assert (T : forall fo c, ends_in
     (match fo with
      | None => ret (FrameList_new, fresh, c)
      | Some f => let# frames := FrameList_add_frame_o FrameList_new (fresh, f) in parse_loop_o fuel ts ver c frames (S fresh)
      end) (fun _ _ => True)).
  { intros fo c. apply (ends_weaken _ (fun new _ => all_asked within_or_node new = true)); [auto|].
    destruct fo; [|apply k_ret]. apply k_bind; [unfold FrameList_add_frame_o; kind|]. intros. apply k_parse_loop. }
  cbn [parse_loop_o parse_loop]. destruct (to_u32 _ <? ts).
  2:{ apply ends_ret. discriminate. }
  assert (X : forall new, all_asked within new = true -> granted new = false -> refused_only is_node new = false).
  { intros new A G. apply refused_not_only. eapply refused_some; [exact within_not_node|]. now apply granted_false_refused. }
  eapply ends_bind; [apply ends_and; [apply k_Frame_parse|apply answers_ends, a_Frame_parse]| |].
  - cbv beta. intros new [fo c] (A & H). destruct (granted new) eqn:G.
    + rewrite <- H. cbn [bind]. destruct fo as [f|].
      * eapply ends_weaken; [|apply (T (Some f) c)]. intros new2 r _ _ _ fr c1 E.
        cbn [FrameList_add_frame FrameList_new empty_node n_start negb bind] in E.
        apply loop_started in E; [|reflexivity]. destruct E as (k & E). discriminate E.
      * apply ends_ret. cbn [app]. rewrite G. discriminate.
    + eapply ends_weaken; [|apply (T fo c)]. intros new2 r _ _ R. rewrite refused_only_app, (X new A G), andb_false_r in R. discriminate R.
  - cbv beta. intros new r (A & H) N. destruct (granted new) eqn:G; [discriminate|].
    intros _ R. rewrite (X new A G) in R. discriminate R.
Qed.

Lemma is_tag_not_node_log l : refused_only is_node (l ++ [(RTag, false)]) = false.
Proof. rewrite refused_only_app. apply andb_false_r. Qed.

Lemma a_tag_rest (s : bool) h k (m : mem) : zlen m < 2 ^ 31 -> (s = true -> zlen m = th_tag_size h + 10) ->
  answers (tag_rest_o h (mkCS k (zlen m) m)) (tag_rest h (mkCS k (zlen m) m)) (tag_answer s (tag_rest h (mkCS k (zlen m) m))).
Proof.
  intros Z S. apply ends_answers. unfold tag_rest_o.
  eapply ends_bind; [apply e_tag_new| |].
  2:{ intros new r [(-> & u & ->)|(g & _ & ->)] N; [|now edestruct N].
      cbn [granted forallb snd andb cast]. apply not_frameless_ub. left. reflexivity. }
  intros new tag [(_ & u & E)|(g & -> & E)]; [discriminate E|]. injection E as ->.
  set (log0 := [(RNode, g); (RTag, true)]).
  assert (exists k', (if 0 <? th_ext_size h then CharStream_seek (mkCS k (zlen m) m) (to_i32 (th_ext_size h)) SEEK_SET
                      else Ok (mkCS k (zlen m) m)) = Ok (mkCS k' (zlen m) m)) as (k' & EK).
  { destruct (0 <? th_ext_size h); [cbn [CharStream_seek]; unfold with_cursor; cbn [cs_size cs_stream]|]; eauto. }
  unfold tag_rest. cbv zeta. rewrite EK. cbn [bind]. apply ends_bind_lift; [|intros N; now destruct (N (mkCS k' (zlen m) m))].
  intros cs E. injection E as <-. cbn [cs_stream t_frames t_fresh ID3v2_Tag_new].
  set (fuel := (length m + 2)%nat). set (ver := schar (th_major h)). set (ts := th_tag_size h).
  assert (exists fuel', fuel = Datatypes.S fuel') as (fuel' & EF) by (exists (length m + 1)%nat; unfold fuel; lia).
  assert (BL : benign (parse_loop fuel ts ver (mkCS k' (zlen m) m) FrameList_new 0)) by (apply parse_loop_any; auto).
  assert (GL : forall l, granted (l ++ log0) = granted l && g) by (intros l; rewrite granted_app; unfold log0; cbn [granted forallb snd]; now rewrite !andb_true_r).
  destruct g.
  - assert (RO : forall p l, refused_only p (l ++ log0) = refused_only p l) by (intros p l; rewrite refused_only_app; apply andb_true_r).
    eapply ends_bind; [apply ends_and; [rewrite EF; apply e_new_loop|apply answers_ends, (a_loop s); auto]| |]; fold ts.
    + cbv beta. rewrite <- EF. intros new [[l2 fr] c] (HN & HL). destruct (granted new) eqn:G.
      * rewrite <- HL. cbn [bind]. apply ends_bind_lift.
        -- intros pad EP. rewrite EP. apply ends_ret. cbn [app]. now rewrite GL, G.
        -- intros N. cbn [app]. rewrite GL, G. cbn [andb]. destruct (isub (cs_size c) (cs_cursor c)) as [pad| | |] eqn:EP; try reflexivity.
           now destruct (N pad).
      * destruct HL as [(u & E)|(Hs & R & l1 & l' & fr' & c' & EL & E & F & LK)]; [discriminate E|]. injection E as -> -> ->.
        rewrite EL in *. cbn [bind]. apply ends_bind_lift.
        -- intros pad EP. rewrite EP. cbn [bind]. apply ends_ret. cbn [app]. rewrite GL, G. cbn [andb tag_answer].
           destruct (frameless _ && _) eqn:FL.
           ++ exfalso. apply andb_true_iff in FL. destruct FL as [F1 F2]. rewrite RO in F2.
              apply frameless_spec in F1. cbn [t_frames] in F1. subst l1. now destruct (HN eq_refl F2 fr' c').
           ++ right. split; [exact Hs|]. split; [now rewrite RO|]. eexists. split; [reflexivity|]. repeat split; auto.
        -- intros N. cbn [app]. rewrite GL, G. cbn [andb]. pose proof (benign_isub (cs_size c') (cs_cursor c')) as B.
           destruct (isub (cs_size c') (cs_cursor c')) as [pad|u| |]; try contradiction; [now destruct (N pad)|]. cbn [bind cast tag_answer]. now exists u.
    + cbv beta. rewrite <- EF. intros new r (HN & HL) N. rewrite GL. cbn [andb]. rewrite andb_true_r. destruct (granted new) eqn:G.
      * subst r. destruct (parse_loop fuel ts ver (mkCS k' (zlen m) m) FrameList_new 0); try reflexivity. now edestruct N.
      * destruct HL as [(u & ->)|(_ & _ & l1 & l' & fr' & c' & EL & -> & F & LK)]; [|now edestruct N].
        cbn [cast]. apply not_frameless_ub. rewrite RO. destruct (refused_only is_node new) eqn:R; [right|now left].
        intros t Et. destruct (parse_loop fuel ts ver (mkCS k' (zlen m) m) FrameList_new 0) as [[[l1 fr] c]| | |] eqn:EL; try discriminate Et.
        cbn [bind] in Et. binv Et. injection Et as <-. destruct (frameless _) eqn:F1; [|reflexivity].
        apply frameless_spec in F1. cbn [t_frames] in F1. subst l1. now destruct (HN eq_refl eq_refl fr c).
  - assert (NG : forall l, granted (l ++ log0) = false) by (intros l; rewrite GL; apply andb_false_r).
    assert (RO : forall l, refused_only is_node (l ++ log0) = refused_only is_node l) by (intros l; rewrite refused_only_app; apply andb_true_r).
    eapply ends_bind; [rewrite EF; apply e_null_loop| |]; fold ts.
    + cbv beta. rewrite <- EF. intros new x [(G & c & E & EL)|((u & E) & _)]; [|discriminate E]. injection E as ->.
      rewrite EL. cbn [bind]. apply ends_bind_lift.
      * intros pad EP. rewrite EP. cbn [bind]. apply ends_ret. cbn [app]. rewrite NG. cbn [tag_answer]. rewrite RO, (granted_refused_only _ new) by auto.
        reflexivity.
      * intros N. cbn [app]. rewrite NG. pose proof (benign_isub (cs_size c) (cs_cursor c)) as B.
        destruct (isub (cs_size c) (cs_cursor c)) as [pad|u| |]; try contradiction; [now destruct (N pad)|]. cbn [bind cast tag_answer]. now exists u.
    + cbv beta. rewrite <- EF. intros new r [(G & c & -> & EL)|((u & ->) & H)] N; [now edestruct N|]. cbn [cast]. rewrite NG.
      apply not_frameless_ub. rewrite RO. destruct H as [H|H]; [now left|right].
      intros t Et. destruct (parse_loop fuel ts ver (mkCS k' (zlen m) m) FrameList_new 0) as [[[l1 fr] c]| | |] eqn:EL; try discriminate Et.
      cbn [bind] in Et. binv Et. injection Et as <-. destruct (frameless _) eqn:F1; [|reflexivity].
      apply frameless_spec in F1. cbn [t_frames] in F1. subst l1. now destruct (H fr c).
Qed.

Lemma k_tag_rest h cs : asks inside (tag_rest_o h cs).
Proof.
  assert (N : forall n, asks inside (ID3v2_Tag_new_o (Some h) n)) by (intros n; unfold ID3v2_Tag_new_o, FrameList_new_o; kind).
  unfold tag_rest_o. apply k_bind; [apply N|]. intros [t|l]; [|apply k_lift].
  apply k_bind; [apply k_lift|]. intros c. apply k_bind; [|intros; kind].
  eapply k_weaken; [|apply k_parse_loop]. intros r E. unfold inside. now rewrite E.
Qed.

Lemma inside_not_header r : inside r = true -> is_tag_header r = false. Proof. now destruct r. Qed.
Lemma inside_not_file r : inside r = true -> is_file r = false. Proof. now destruct r. Qed.

Definition parse_answer (s : bool) (o : outcome (option Tag)) (new : log) (r : outcome (option Tag)) : Prop :=
  refused is_file new = false /\
  if refused is_tag_header new then r = Ok None else tag_answer s o new r.

Lemma tag_answer_app s o a b r : granted b = true -> tag_answer s o a r -> tag_answer s o (a ++ b) r.
Proof.
  intros G H. unfold tag_answer in *. destruct o as [[t|]| | |]; auto.
  rewrite !refused_only_app, !(granted_refused_only _ b), !andb_true_r by auto. exact H.
Qed.

Lemma parse_answer_app s o a b r : granted b = true -> parse_answer s o a r -> parse_answer s o (a ++ b) r.
Proof.
  intros G (H1 & H2). unfold parse_answer. rewrite !refused_app, !(granted_refused _ b), !orb_false_r by auto.
  split; [exact H1|]. destruct (refused is_tag_header a); [exact H2|now apply tag_answer_app].
Qed.

Lemma bindo_ext {A B} (m : oom A) (f g : A -> oom B) M l : (forall x M l, f x M l = g x M l) -> bindo m f M l = bindo m g M l.
Proof. intros H. unfold bindo. destruct (m M l) as [[x| | |] l1]; auto. Qed.

Lemma a_Tag_parse (s : bool) (m : mem) : zlen m < 2 ^ 31 ->
  (s = true -> forall h c, TagHeader_parse (at_pos [] m) = Ok (Some h, c) -> zlen m = th_tag_size h + 10) ->
  answers (Tag_parse_o (at_pos [] m)) (Tag_parse (at_pos [] m)) (parse_answer s (Tag_parse (at_pos [] m))).
Proof.
  intros Z S. remember (Tag_parse (at_pos [] m)) as T eqn:ET.
  assert (ET' : T = bind (TagHeader_parse (at_pos [] m))
     (fun x => match fst x with None => Ok None | Some h => tag_rest h (snd x) end)).
  { rewrite ET. unfold Tag_parse. destruct (TagHeader_parse (at_pos [] m)) as [[[h|] c]| | |]; reflexivity. }
  assert (EO : forall M l, Tag_parse_o (at_pos [] m) M l = bindo (TagHeader_parse_o (at_pos [] m))
     (fun x => match fst x with None => ret None | Some h => tag_rest_o h (snd x) end) M l).
  { intros M l. unfold Tag_parse_o. apply bindo_ext. intros [[h|] c] M' l'; reflexivity. }
  assert (X : answers (bindo (TagHeader_parse_o (at_pos [] m))
     (fun x => match fst x with None => ret None | Some h => tag_rest_o h (snd x) end)) T (parse_answer s T)).
  2:{ intros M l. rewrite EO. apply X. }
  clear EO ET. rewrite ET' at 1.
  eapply a_bind_any with (Q1 := no_header) (Q2 := fun new r => exists h c, TagHeader_parse (at_pos [] m) = Ok (Some h, c)
      /\ all_asked inside new = true /\ tag_answer s (tag_rest h c) new r).
  - apply a_TagHeader_parse.
  - intros [[h|] c] E; cbn [fst snd]; [|apply a_ret].
    pose proof (tag_header_moved [] m (Some h) c Z E) as (c1 & r1 & Em & Ec & _).
    assert (Ec' : c = mkCS (zlen c1) (zlen m) m).
    { rewrite Ec, Em. cbn [app]. unfold at_pos. now rewrite <- zlen_app. }
    eapply a_weaken; [|apply answers_and; [apply k_tag_rest|]].
    2:{ rewrite Ec'. apply (a_tag_rest s); [exact Z|]. intros Hs. eapply S; eauto. }
    cbv beta. intros new r _ (A & H). exists h, c. rewrite Ec' in *. auto.
  - intros new [ho c] _ (-> & c' & E). injection E as -> ->. cbn [fst]. apply ends_ret. split; reflexivity.
  - intros new r _ (_ & c & ->) N. now edestruct N.
  - intros new1 new2 x r G _ _ (h & c & E & A & H). apply parse_answer_app; [exact G|].
    split; [now apply (all_asked_not_refused inside is_file); [exact inside_not_file|]|].
    rewrite (all_asked_not_refused inside is_tag_header) by (auto using inside_not_header).
    rewrite ET', E. exact H.
Qed.

Lemma memcpy_from_zlen p n v : memcpy_from p n = Ok v -> zlen v = n.
Proof.
  intros E0. unfold memcpy_from in E0. destruct p as [m|]; [|discriminate]. destruct (n <? 0) eqn:Hn; [discriminate|].
  destruct (zlen m <? n) eqn:Hm; [discriminate|]. injection E0 as <-. unfold zlen in *. rewrite firstn_length. lia.
Qed.

Lemma within_not_file r : within r = true -> is_file r = false. Proof. now destruct r. Qed.

Lemma a_read_buffer (s : bool) p n : n < 2 ^ 31 ->
  (s = true -> forall m h c, p = Some m -> zlen m = n -> TagHeader_parse (at_pos [] m) = Ok (Some h, c) -> n = th_tag_size h + 10) ->
  (s = true -> exists m, p = Some m /\ zlen m = n) ->
  answers (ID3v2_read_tag_from_buffer_o p n) (ID3v2_read_tag_from_buffer p n)
    (parse_answer s (ID3v2_read_tag_from_buffer p n)).
Proof.
  intros N S1 S2. unfold ID3v2_read_tag_from_buffer_o.
  remember (ID3v2_read_tag_from_buffer p n) as T eqn:ET. rewrite ET at 1. unfold ID3v2_read_tag_from_buffer at 1.
  eapply a_bind_any.
  - apply answers_and; [apply k_from_buffer|apply n_from_buffer].
  - intros cs E. assert (ET' : T = Tag_parse cs) by (rewrite ET; unfold ID3v2_read_tag_from_buffer; now rewrite E).
    unfold CharStream_from_buffer in E. binv E. injection E as <-.
    assert (Hv : v = v) by reflexivity. pose proof (memcpy_from_zlen _ _ _ E0) as L. revert ET'. rewrite <- L.
    change (mkCS 0 (zlen v) v) with (at_pos [] v). intros ET'.
    eapply a_weaken; [|apply (a_Tag_parse s)].
    + intros new r _ H. rewrite <- ET' in H. exact H.
    + lia.
    + intros Hs h c Eh. destruct (S2 Hs) as (m & -> & Lm).
      assert (v = m) as ->.
      { unfold memcpy_from in E0. destruct (n <? 0); [discriminate|]. destruct (zlen m <? n); [discriminate|].
        rewrite firstn_all2 in E0 by (unfold zlen in Lm; lia). congruence. }
      rewrite L. eapply S1; eauto.
  - cbv beta. intros new y _ (_ & u & E). discriminate E.
  - cbv beta. intros new r G (A & u & ->) _. cbn [cast].
    split; [now apply (all_asked_not_refused within is_file); [exact within_not_file|]|].
    rewrite (all_asked_not_refused within is_tag_header) by (auto using within_not_header).
    apply not_frameless_ub. left. apply refused_not_only. eapply refused_some; [exact within_not_node|]. now apply granted_false_refused.
  - cbv beta. intros new1 new2 x r G _ _ H. now apply parse_answer_app.
Qed.

(** ** A file *)

Lemma zlen_fread content n : 0 <= n -> zlen (fread_into content n) = n.
Proof.
  intros N. unfold fread_into, zlen. rewrite app_length, repeat_length. unfold cells. rewrite map_length, firstn_length. lia.
Qed.

Lemma file_room content h : ID3v2_read_tag_header (Some content) = Ok (Some h) ->
  10 <= declared_length h < 2 ^ 31 /\ declared_length h = th_tag_size h + 10
  /\ exists c, TagHeader_parse (at_pos [] (fread_into content (declared_length h))) = Ok (Some h, c).
Proof.
  intros E. destruct (at_least_ten content) as [S|(a & b & c & d & e & f & g & h' & i & j & r & ->)].
  - rewrite header_short in E by auto. discriminate E.
  - change (a :: b :: c :: d :: e :: f :: g :: h' :: i :: j :: r) with ([a; b; c; d; e; f; g; h'; i; j] ++ r) in *.
    rewrite (header_file _ r (Some (cells [a; b; c; d; e; f; g; h'; i; j]))) in E
      by (reflexivity || (exists []; now rewrite app_nil_r)).
    rewrite (header_from_buffer a b c d e f g h' i j) in E by (exists []; now rewrite app_nil_r).
    destruct (is_id3 a b c) eqn:I3; [|discriminate E]. destruct (known_version d) eqn:KV; [|discriminate E]. cbn [andb] in E.
    destruct (has_extended_header f) eqn:HE; [discriminate E|].
    assert (Eh : h = mkTH (lit "ID3") d e f (synchsafe_value [g; h'; i; j]) 0) by congruence. clear E.
    pose proof (synchsafe_value_range [g; h'; i; j]) as R. change (2 ^ 29) with 536870912 in R.
    assert (DL : declared_length h = synchsafe_value [g; h'; i; j] + 10).
    { rewrite Eh. unfold declared_length. cbn [th_tag_size]. change ID3v2_TAG_HEADER_LENGTH with 10.
      rewrite to_u32_id, to_i32_id by lia. reflexivity. }
    assert (TS : th_tag_size h = synchsafe_value [g; h'; i; j]) by (now rewrite Eh).
    split; [change (2 ^ 31) with 2147483648; lia|]. split; [lia|].
    set (n := declared_length h) in *.
    assert (exists rest, fread_into ([a; b; c; d; e; f; g; h'; i; j] ++ r) n = cells [a; b; c; d; e; f; g; h'; i; j] ++ rest) as (rest & ER).
    { unfold fread_into. replace (Z.to_nat n) with (10 + (Z.to_nat n - 10))%nat by lia.
      cbn [Nat.add app firstn cells map]. eexists. reflexivity. }
    exists (at_pos (cells [a; b; c; d; e; f; g; h'; i; j]) rest).
    assert (F : fits [] (cells [a; b; c; d; e; f; g; h'; i; j] ++ rest)).
    { unfold fits. rewrite <- ER, zlen_fread by lia. change (zlen (@nil cell)) with 0. change (2 ^ 31) with 2147483648. lia. }
    rewrite ER, header_start by auto. rewrite KV. cbn [negb]. cbv zeta. rewrite HE. now rewrite Eh.
Qed.

Lemma a_read_tag f : answers (ID3v2_read_tag_o f) (ID3v2_read_tag f) (file_answer (ID3v2_read_tag f)).
Proof.
  unfold ID3v2_read_tag_o. remember (ID3v2_read_tag f) as T eqn:ET. rewrite ET at 1. unfold ID3v2_read_tag at 1.
  eapply a_bind_any with (Q2 := file_answer T).
  - apply answers_and; [|apply a_read_header].
    instantiate (1 := fun new _ => refused is_file new = false /\ refused_only is_node new = granted new).
    unfold ID3v2_read_tag_header_o. destruct f as [content|]; [|apply ends_ret; split; reflexivity].
    cbv zeta. destruct (_ <? _); [apply ends_ret; split; reflexivity|].
    assert (K : asks (fun r => within r || is_tag_header r) (ID3v2_read_tag_header_from_buffer_o (Some (cells (firstn (Z.to_nat ID3v2_TAG_HEADER_LENGTH) content))))).
    { unfold ID3v2_read_tag_header_from_buffer_o, CharStream_from_buffer_o, TagHeader_parse_o, TagHeader_new_o. kind. }
    eapply ends_weaken; [|exact K]. cbv beta. intros new r A. split.
    + eapply all_asked_not_refused; [|exact A]. intros q. now destruct q.
    + destruct (granted new) eqn:G; [now apply granted_refused_only|]. apply refused_not_only.
      eapply refused_some; [|apply granted_false_refused; [exact G|exact A]]. intros q. now destruct q.
  - intros [h|] E; [|apply a_ret]. destruct f as [content|]; [|apply a_lift]. cbv zeta.
    destruct (file_room content h E) as (R & D & c & Hc).
    assert (ET' : T = ID3v2_read_tag_from_buffer (Some (fread_into content (declared_length h))) (declared_length h)).
    { rewrite ET. unfold ID3v2_read_tag. rewrite E. reflexivity. }
    apply ends_answers. apply ends_ask. intros g _. destruct g.
    + eapply ends_weaken; [|apply answers_ends, (a_read_buffer true)].
      * cbv beta. intros new r H. rewrite granted_app, granted_one, andb_true_r. destruct (granted new); [exact H|].
        destruct H as (H1 & H2). unfold file_answer. rewrite !refused_app. cbn [refused existsb fst snd negb andb]. rewrite !orb_false_r.
        fold (refused is_file new) (refused is_tag_header new). rewrite H1, orb_false_r.
        destruct (refused is_tag_header new); [exact H2|]. rewrite ET'. apply tag_answer_app; [reflexivity|exact H2].
      * lia.
      * intros _ m h0 c0 Em _ Eh. assert (m = fread_into content (declared_length h)) as -> by congruence.
        rewrite Hc in Eh. assert (h0 = h) as -> by congruence. exact D.
      * intros _. eexists. split; [reflexivity|]. apply zlen_fread. lia.
    + apply ends_ret. cbn [app]. rewrite granted_one. unfold file_answer. cbn [refused existsb fst snd negb andb orb is_file is_tag_header].
      reflexivity.
  - cbv beta. intros new [h|] G ((A & _) & H); unfold header_or_undefined in H.
    + destruct (refused is_tag_header new); [destruct H as [_ H]; discriminate H|]. destruct H as (u & E). discriminate E.
    + apply ends_ret. cbn [app]. unfold file_answer. destruct (refused is_tag_header new) eqn:RH; [reflexivity|].
      destruct H as (u & E). discriminate E.
  - cbv beta. intros new r G ((A & B) & H) N. unfold header_or_undefined in H. unfold file_answer.
    destruct (refused is_tag_header new) eqn:RH; [destruct H as [_ ->]; now edestruct N|]. rewrite A. cbn [orb].
    destruct H as (u & ->). cbn [cast]. apply not_frameless_ub. left. now rewrite B.
  - cbv beta. intros new1 new2 x r G _ _ H. unfold file_answer in *. rewrite !refused_app, !(granted_refused _ new1), !orb_false_r by auto.
    destruct (_ || _); [exact H|now apply tag_answer_app].
Qed.
