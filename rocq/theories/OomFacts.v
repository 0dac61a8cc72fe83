(** Programs that run out of memory. *)
From Verif Require Import Oom SpecOom.
From Verif Require Export Benign.
From Coq Require Import Lia ZifyBool ZifyNat.

Lemma granted_app a b : granted (a ++ b) = granted a && granted b.
Proof. apply forallb_app. Qed.
Lemma refused_app p a b : refused p (a ++ b) = refused p a || refused p b.
Proof. apply existsb_app. Qed.
Lemma granted_refused p l : granted l = true -> refused p l = false.
Proof.
  induction l as [|[r g] l IH]; [reflexivity|]. cbn [granted forallb refused existsb fst snd]. intros G.
  apply andb_true_iff in G. destruct G as [-> G]. cbn [negb andb orb]. apply IH. exact G.
Qed.

Create HintDb need.
Create HintDb calm.

(** ** Rules *)

Lemma a_weaken {A} (m : oom A) o (Q Q' : log -> outcome A -> Prop) :
  (forall new r, granted new = false -> Q new r -> Q' new r) -> answers m o Q -> answers m o Q'.
Proof. intros W H M l. destruct (H M l) as (new & E & G & B). exists new. auto. Qed.

Lemma a_lift {A} (o : outcome A) Q : answers (lift o) o Q.
Proof. intros M l. exists []. cbn. repeat split; auto. discriminate. Qed.

Lemma a_ret {A} (a : A) Q : answers (ret a) (Ok a) Q.
Proof. apply (a_lift (Ok a)). Qed.

Lemma a_bind_lift {A B} (o : outcome A) (f : A -> oom B) (g : A -> outcome B) Q :
  (forall x, o = Ok x -> answers (f x) (g x) Q) -> answers (bindo (lift o) f) (bind o g) Q.
Proof.
  intros H M l. unfold bindo, lift. destruct o as [x|u|n|]; cbn [bind].
  - apply (H x eq_refl).
  - exists []. cbn. repeat split; auto. discriminate.
  - exists []. cbn. repeat split; auto. discriminate.
  - exists []. cbn. repeat split; auto. discriminate.
Qed.

(** A strict part, then anything. *)
Lemma a_bind {A B} (m : oom A) o (f : A -> oom B) (g : A -> outcome B) Q :
  needs_all m o ->
  (forall x, o = Ok x -> answers (f x) (g x) Q) ->
  (forall new u, granted new = false -> Q new (Ub u)) ->
  (forall new1 new2 r, granted new1 = true -> granted new2 = false -> Q new2 r -> Q (new2 ++ new1) r) ->
  answers (bindo m f) (bind o g) Q.
Proof.
  intros Hm Hf HU HA M l. destruct (Hm M l) as (new & E & G & U). unfold bindo.
  destruct (m M l) as [r l1]. cbn [fst snd] in *. subst l1.
  destruct (granted new) eqn:N.
  - rewrite (G eq_refl). destruct o as [x|u|n|]; cbn [bind].
    + destruct (Hf x eq_refl M (new ++ l)) as (new2 & E2 & G2 & B2).
      exists (new2 ++ new). split; [now rewrite E2, app_assoc|]. rewrite granted_app, N, andb_true_r. split; [exact G2|].
      intros F. apply HA; auto.
    + exists new. cbn. rewrite N. repeat split; auto. discriminate.
    + exists new. cbn. rewrite N. repeat split; auto. discriminate.
    + exists new. cbn. rewrite N. repeat split; auto. discriminate.
  - destruct (U eq_refl) as (u & ->). exists new. cbn. rewrite N. repeat split; auto. discriminate.
Qed.

(** The general rule: what comes after a part that came to something although
    memory was refused. *)
Definition cast {A B} (o : outcome A) : outcome B :=
  match o with Ok _ => NoFuel | Ub u => Ub u | Exit n => Exit n | NoFuel => NoFuel end.

Lemma a_bind_any {A B} (m : oom A) o (f : A -> oom B) (g : A -> outcome B) Q1 Q2 Q :
  answers m o Q1 ->
  (forall x, o = Ok x -> answers (f x) (g x) Q2) ->
  (forall new y, granted new = false -> Q1 new (Ok y) -> ends_in (f y) (fun new' r => Q (new' ++ new) r)) ->
  (forall new r, granted new = false -> Q1 new r -> (forall y, r <> Ok y) -> Q new (cast r)) ->
  (forall new1 new2 x r, granted new1 = true -> granted new2 = false -> o = Ok x -> Q2 new2 r -> Q (new2 ++ new1) r) ->
  answers (bindo m f) (bind o g) Q.
Proof.
  intros Hm Hf HE HU HA M l. destruct (Hm M l) as (new & E & G & U). unfold bindo.
  destruct (m M l) as [r l1]. cbn [fst snd] in *. subst l1.
  destruct (granted new) eqn:N.
  - rewrite (G eq_refl). destruct o as [x|u|n|]; cbn [bind].
    + destruct (Hf x eq_refl M (new ++ l)) as (new2 & E2 & G2 & B2).
      exists (new2 ++ new). split; [now rewrite E2, app_assoc|]. rewrite granted_app, N, andb_true_r. split; [exact G2|].
      intros F. eapply HA; eauto.
    + exists new. cbn. rewrite N. repeat split; auto. discriminate.
    + exists new. cbn. rewrite N. repeat split; auto. discriminate.
    + exists new. cbn. rewrite N. repeat split; auto. discriminate.
  - specialize (U eq_refl). destruct r as [y|u|n|].
    + destruct (HE new y N U M (new ++ l)) as (new' & E' & Q').
      exists (new' ++ new). rewrite granted_app, N, andb_false_r, E'. rewrite app_assoc. repeat split; auto. discriminate.
    + exists new. cbn. rewrite N. repeat split; auto; [discriminate|]. intros _. now apply (HU new (Ub u)).
    + exists new. cbn. rewrite N. repeat split; auto; [discriminate|]. intros _. now apply (HU new (Exit n)).
    + exists new. cbn. rewrite N. repeat split; auto; [discriminate|]. intros _. now apply (HU new NoFuel).
Qed.

Lemma s_bind {A B} (m : oom A) o (f : A -> oom B) (g : A -> outcome B) :
  needs_all m o -> (forall x, o = Ok x -> needs_all (f x) (g x)) -> needs_all (bindo m f) (bind o g).
Proof. intros H1 H2. apply a_bind; auto. intros new u _. now exists u. Qed.

(** Sure to be undefined. *)
Definition doomed {A} (m : oom A) : Prop := ends_in m (fun _ r => undefined r).

Definition calmly {A} (m : oom A) : Prop := ends_in m (fun _ r => benign r).

Lemma d_used {A} (k : unit -> oom A) : doomed (bindo (used false) k).
Proof. intros M l. exists []. cbn. split; [reflexivity|now exists NullDeref]. Qed.

Lemma d_lift {A B} (o : outcome A) (k : A -> oom B) : benign o -> (forall x, doomed (k x)) -> doomed (bindo (lift o) k).
Proof.
  intros C H M l. unfold bindo, lift. destruct o as [x|u|n|]; try contradiction; [apply H|].
  exists []. cbn. split; [reflexivity|now exists u].
Qed.

Lemma d_ask {A} r (k : bool -> oom A) : (forall x, doomed (k x)) -> doomed (bindo (ask r) k).
Proof.
  intros H M l. unfold bindo, ask. cbv zeta. destruct (H (no_bytes r || M l r) M ((r, no_bytes r || M l r) :: l)) as (new & E & U).
  exists (new ++ [(r, no_bytes r || M l r)]). rewrite E, <- app_assoc. split; [reflexivity|exact U].
Qed.

Lemma d_bind {A B} (m : oom A) (k : A -> oom B) : calmly m -> (forall x, doomed (k x)) -> doomed (bindo m k).
Proof.
  intros C H M l. unfold bindo. destruct (C M l) as (new & E & U). destruct (m M l) as [r l1]. cbn [fst snd] in *. subst l1.
  destruct r as [x|u|n|]; try contradiction.
  - destruct (H x M (new ++ l)) as (new2 & E2 & U2). exists (new2 ++ new). rewrite E2, app_assoc. auto.
  - exists new. split; [reflexivity|now exists u].
Qed.

Lemma s_ask {A} r (k : bool -> oom A) o Q : answers (k true) o Q -> doomed (k false) ->
  (forall new u, granted new = false -> Q new (Ub u)) ->
  (forall new1 new2 r, granted new1 = true -> granted new2 = false -> Q new2 r -> Q (new2 ++ new1) r) ->
  answers (bindo (ask r) k) o Q.
Proof.
  intros H D HU HA M l. unfold bindo, ask. cbv zeta. destruct (no_bytes r || M l r).
  - destruct (H M ((r, true) :: l)) as (new & E & G & B). exists (new ++ [(r, true)]). rewrite E, <- app_assoc.
    rewrite granted_app. cbn [granted forallb snd andb]. rewrite andb_true_r. repeat split; auto.
  - destruct (D M ((r, false) :: l)) as (new & E & u & U). exists (new ++ [(r, false)]). rewrite E, <- app_assoc.
    rewrite granted_app. cbn [granted forallb snd andb]. rewrite andb_false_r, U. repeat split; auto; [discriminate|].
    intros _. apply HU. rewrite granted_app. cbn [granted forallb snd andb]. now rewrite andb_false_r.
Qed.

Lemma n_ask {A} r (k : bool -> oom A) o : needs_all (k true) o -> doomed (k false) -> needs_all (bindo (ask r) k) o.
Proof. intros H D. apply s_ask; auto. intros new u _. now exists u. Qed.

Lemma n_used {A} (k : unit -> oom A) o Q : answers (k tt) o Q -> answers (bindo (used true) k) o Q.
Proof. exact (fun H => H). Qed.

Lemma bindo_assoc {A B C} (m : oom A) (f : A -> oom B) (g : B -> oom C) M l :
  bindo (bindo m f) g M l = bindo m (fun x => bindo (f x) g) M l.
Proof. unfold bindo. destruct (m M l) as [[x|u|n|] l1]; reflexivity. Qed.

Lemma n_lift {A B} (o : outcome A) (f : A -> oom B) (g : A -> outcome B) :
  (forall x, o = Ok x -> needs_all (f x) (g x)) -> needs_all (bindo (lift o) f) (bind o g).
Proof. intros H. apply a_bind_lift. exact H. Qed.

Lemma n_used1 {A} (k : unit -> oom A) o : needs_all (k tt) o -> needs_all (bindo (used true) k) o.
Proof. exact (fun H => H). Qed.

Lemma n_must {A} r (k : unit -> oom A) o : needs_all (k tt) o -> needs_all (bindo (must r) k) o.
Proof.
  intros H. assert (X : needs_all (bindo (ask r) (fun p => bindo (used p) k)) o).
  { apply n_ask; [apply n_used, H|apply d_used]. }
  intros M l. unfold must. rewrite bindo_assoc. apply X.
Qed.

Lemma a_must {A} r (k : unit -> oom A) o Q : answers (k tt) o Q ->
  (forall new u, granted new = false -> Q new (Ub u)) ->
  (forall new1 new2 r, granted new1 = true -> granted new2 = false -> Q new2 r -> Q (new2 ++ new1) r) ->
  answers (bindo (must r) k) o Q.
Proof.
  intros H HU HA. assert (X : answers (bindo (ask r) (fun p => bindo (used p) k)) o Q).
  { apply s_ask; [apply n_used, H|apply d_used|exact HU|exact HA]. }
  intros M l. unfold must. rewrite bindo_assoc. apply X.
Qed.

Lemma bind_ok {A} (o : outcome A) : bind o Ok = o.
Proof. now destruct o. Qed.

(** ** Nothing but results and undefined behaviour *)

Lemma benign_frame_at l a : benign (frame_at l a).
Proof. induction l as [|n l IH]; cbn [frame_at]; ben. Qed.
#[export] Hint Resolve benign_deref benign_from_buffer benign_strlent benign_frame_at : benign.

Lemma c_ret {A} (a : A) : calmly (ret a). Proof. intros M l. exists []. split; [reflexivity|exact I]. Qed.
Lemma c_lift {A} (o : outcome A) : benign o -> calmly (lift o).
Proof. intros C M l. exists []. split; [reflexivity|exact C]. Qed.
Lemma c_bind {A B} (m : oom A) (k : A -> oom B) : calmly m -> (forall x, calmly (k x)) -> calmly (bindo m k).
Proof.
  intros C H M l. unfold bindo. destruct (C M l) as (new & E & U). destruct (m M l) as [r l1]. cbn [fst snd] in *. subst l1.
  destruct r as [x|u|n|]; try contradiction.
  - destruct (H x M (new ++ l)) as (new2 & E2 & U2). exists (new2 ++ new). rewrite E2, app_assoc. auto.
  - exists new. split; [reflexivity|exact I].
Qed.
Lemma c_ask r : calmly (ask r).
Proof. intros M l. exists [(r, no_bytes r || M l r)]. split; [reflexivity|exact I]. Qed.
Lemma c_used g : calmly (used g).
Proof. destruct g; [apply c_ret|apply c_lift; exact I]. Qed.
Lemma c_must r : calmly (must r).
Proof. apply c_bind; [apply c_ask|intro; apply c_used]. Qed.

#[global] Hint Resolve c_ret c_ask c_used c_must : calm.

Ltac calmly1 :=
  match goal with
  | |- calmly (bindo _ _) => apply c_bind; [|intro]
  | |- calmly (lift _) => apply c_lift
  | |- calmly (let '(_, _) := ?x in _) => destruct x
  | |- calmly (if ?b then _ else _) => destruct b
  | |- calmly (match ?x with _ => _ end) => destruct x
  | |- _ => auto with calm benign
  end.

Lemma c_TextFrameData_new p : calmly (TextFrameData_new_o p).
Proof. unfold TextFrameData_new_o. repeat calmly1. Qed.
Lemma c_CommentFrameData_new a b c : calmly (CommentFrameData_new_o a b c).
Proof. unfold CommentFrameData_new_o. repeat calmly1. Qed.
Lemma c_ApicFrameData_new a b c d e : calmly (ApicFrameData_new_o a b c d e).
Proof. unfold ApicFrameData_new_o. repeat calmly1. Qed.
#[global] Hint Resolve c_TextFrameData_new c_CommentFrameData_new c_ApicFrameData_new : calm.

(** ** Functions that need all they ask for *)

Ltac doom :=
  repeat match goal with
  | |- doomed (bindo (used false) _) => apply d_used
  | |- doomed (bindo (lift _) _) => apply d_lift; [solve [auto with calm benign]|intro]
  | |- doomed (bindo (ask _) _) => apply d_ask; intro
  | |- doomed (bindo _ _) => apply d_bind; [solve [auto with calm benign]|intro]
  | |- doomed (let '(_, _) := ?x in _) => destruct x
  end.

Lemma n_ub {A} (m : oom A) u : doomed m -> (forall M l, fst (m M l) = Ub u) -> needs_all m (Ub u).
Proof. intros D E M l. destruct (D M l) as (new & N & U). exists new. auto. Qed.

Ltac need1 :=
  match goal with
  | |- needs_all (ret ?a) (Ok ?a) => apply a_ret
  | |- needs_all (lift ?o) ?o => apply a_lift
  | |- needs_all (lift ?o) (bind ?o (fun x => Ok x)) => rewrite bind_ok; apply a_lift
  | |- needs_all (bindo (lift ?o) _) (bind ?o _) => apply n_lift; intros ? _
  | |- needs_all (bindo (must _) _) _ => apply n_must
  | |- needs_all (bindo (used true) _) _ => apply n_used1
  | |- needs_all (bindo (ask _) _) _ => apply n_ask; [|solve [doom]]
  | |- needs_all (let '(_, _) := ?x in _) _ => destruct x
  | |- needs_all (if ?b then _ else _) _ => destruct b
  | |- needs_all (match ?x with _ => _ end) _ => destruct x
  | |- needs_all (bindo _ _) (bind _ _) => apply s_bind; [solve [eauto with need]|intros ? _]
  | |- _ => solve [eauto with need]
  end.
Ltac need := cbv zeta; repeat (need1; cbv zeta).

Lemma n_itob n : needs_all (itob_o n) (Ok (itob n)).
Proof. unfold itob_o. need. Qed.

Lemma n_to_unicode p : needs_all (ID3v2_to_unicode_o p) (ID3v2_to_unicode p).
Proof.
  rewrite <- (bind_ok (ID3v2_to_unicode p)). unfold ID3v2_to_unicode_o. need.
Qed.

Lemma n_CharStream_new n : needs_all (CharStream_new_o n) (CharStream_new n).
Proof. rewrite <- (bind_ok (CharStream_new n)). unfold CharStream_new_o. need. Qed.

Lemma n_from_buffer p n : needs_all (CharStream_from_buffer_o p n) (CharStream_from_buffer p n).
Proof. rewrite <- (bind_ok (CharStream_from_buffer p n)). unfold CharStream_from_buffer_o. need. Qed.
#[global] Hint Resolve n_itob n_to_unicode n_CharStream_new n_from_buffer : need.

Lemma n_FrameHeader_new a b n : needs_all (FrameHeader_new_o a b n) (FrameHeader_new a b n).
Proof. unfold FrameHeader_new_o. need. Qed.
#[global] Hint Resolve n_FrameHeader_new : need.

Lemma n_FrameHeader_parse cs v : needs_all (FrameHeader_parse_o cs v) (FrameHeader_parse cs v).
Proof. unfold FrameHeader_parse_o, FrameHeader_parse. need. Qed.
#[global] Hint Resolve n_FrameHeader_parse : need.

Lemma n_itob_bind {A} n (f : mem -> oom A) o : needs_all (f (itob n)) o -> needs_all (bindo (itob_o n) f) o.
Proof. intros H. change o with (bind (Ok (itob n)) (fun _ => o)). apply s_bind; [apply n_itob|]. intros x E. injection E as <-. exact H. Qed.

Lemma n_FrameHeader_to_char_stream h : needs_all (FrameHeader_to_char_stream_o h) (FrameHeader_to_char_stream h).
Proof.
  unfold FrameHeader_to_char_stream_o, FrameHeader_to_char_stream. need1. need1. apply n_itob_bind. need.
Qed.
#[global] Hint Resolve n_FrameHeader_to_char_stream : need.

Lemma n_TextFrameData_new p : needs_all (TextFrameData_new_o p) (TextFrameData_new p).
Proof. unfold TextFrameData_new_o, TextFrameData_new. need. Qed.
#[global] Hint Resolve n_TextFrameData_new : need.
Lemma n_TextFrame_new a b c : needs_all (TextFrame_new_o a b c) (TextFrame_new a b c).
Proof. unfold TextFrame_new_o, TextFrame_new. need. Qed.
#[global] Hint Resolve n_TextFrame_new : need.
Lemma n_TextFrame_parse cs v : needs_all (TextFrame_parse_o cs v) (TextFrame_parse cs v).
Proof. unfold TextFrame_parse_o, TextFrame_parse. need. Qed.
#[global] Hint Resolve n_TextFrame_parse : need.
Lemma n_start_stream h : needs_all (start_frame_stream_o h) (start_frame_stream h).
Proof. unfold start_frame_stream_o, start_frame_stream. need. Qed.
#[global] Hint Resolve n_start_stream : need.
Lemma n_TextFrame_to_char_stream h d : needs_all (TextFrame_to_char_stream_o h d) (TextFrame_to_char_stream h d).
Proof. unfold TextFrame_to_char_stream_o, TextFrame_to_char_stream. need. Qed.
#[global] Hint Resolve n_TextFrame_to_char_stream : need.

Lemma n_CommentFrameData_new a b c : needs_all (CommentFrameData_new_o a b c) (CommentFrameData_new a b c).
Proof. unfold CommentFrameData_new_o, CommentFrameData_new. need. Qed.
#[global] Hint Resolve n_CommentFrameData_new : need.
Lemma n_CommentFrame_new a b c d : needs_all (CommentFrame_new_o a b c d) (CommentFrame_new a b c d).
Proof. unfold CommentFrame_new_o, CommentFrame_new. need. Qed.
#[global] Hint Resolve n_CommentFrame_new : need.
Lemma n_CommentFrame_parse cs v : needs_all (CommentFrame_parse_o cs v) (CommentFrame_parse cs v).
Proof. unfold CommentFrame_parse_o, CommentFrame_parse. need. Qed.
#[global] Hint Resolve n_CommentFrame_parse : need.
Lemma n_CommentFrame_to_char_stream h d : needs_all (CommentFrame_to_char_stream_o h d) (CommentFrame_to_char_stream h d).
Proof. unfold CommentFrame_to_char_stream_o, CommentFrame_to_char_stream. need. Qed.
#[global] Hint Resolve n_CommentFrame_to_char_stream : need.

Lemma n_ApicFrameData_new a b c d e : needs_all (ApicFrameData_new_o a b c d e) (ApicFrameData_new a b c d e).
Proof. unfold ApicFrameData_new_o, ApicFrameData_new. need. Qed.
#[global] Hint Resolve n_ApicFrameData_new : need.
Lemma n_ApicFrame_new a b c d e f : needs_all (ApicFrame_new_o a b c d e f) (ApicFrame_new a b c d e f).
Proof. unfold ApicFrame_new_o, ApicFrame_new. need. Qed.
#[global] Hint Resolve n_ApicFrame_new : need.
Lemma n_ApicFrame_parse cs v : needs_all (ApicFrame_parse_o cs v) (ApicFrame_parse cs v).
Proof. unfold ApicFrame_parse_o, ApicFrame_parse. need. Qed.
#[global] Hint Resolve n_ApicFrame_parse : need.
Lemma n_ApicFrame_to_char_stream h d : needs_all (ApicFrame_to_char_stream_o h d) (ApicFrame_to_char_stream h d).
Proof. unfold ApicFrame_to_char_stream_o, ApicFrame_to_char_stream. need. Qed.
#[global] Hint Resolve n_ApicFrame_to_char_stream : need.

Lemma n_Frame_to_char_stream f : needs_all (Frame_to_char_stream_o f) (Frame_to_char_stream f).
Proof. unfold Frame_to_char_stream_o, Frame_to_char_stream. need. Qed.
#[global] Hint Resolve n_Frame_to_char_stream : need.

Lemma n_write_frames : forall l cs, needs_all (write_frames_o cs l) (write_frames cs l).
Proof.
  induction l as [|n l IH]; intros cs; cbn [write_frames_o write_frames]; need.
Qed.
#[global] Hint Resolve n_write_frames : need.

Lemma n_Tag_to_char_stream t : needs_all (Tag_to_char_stream_o t) (Tag_to_char_stream t).
Proof.
  unfold Tag_to_char_stream_o, Tag_to_char_stream. cbv zeta. do 6 need1. apply n_itob_bind. need.
Qed.
#[global] Hint Resolve n_Tag_to_char_stream : need.

Lemma n_add_frame l p : needs_all (FrameList_add_frame_o l p) (FrameList_add_frame l p).
Proof. unfold FrameList_add_frame_o, FrameList_add_frame. need. Qed.
#[global] Hint Resolve n_add_frame : need.

Lemma n_install t e f : needs_all (install_frame_o t e f) (install_frame t e f).
Proof. unfold install_frame_o, install_frame. need. Qed.
#[global] Hint Resolve n_install : need.

Lemma n_unlink r : needs_all (unlink_node_o r) (Ok (unlink_node r)).
Proof. unfold unlink_node_o, unlink_node. need. Qed.

Lemma n_unlink_bind {A} r (f : flist -> oom A) o : needs_all (f (unlink_node r)) o -> needs_all (bindo (unlink_node_o r) f) o.
Proof. intros H. change o with (bind (Ok (unlink_node r)) (fun _ => o)). apply s_bind; [apply n_unlink|]. intros x E. injection E as <-. exact H. Qed.

Lemma n_remove_by_id l id : needs_all (FrameList_remove_frame_by_id_o l id) (FrameList_remove_frame_by_id l id).
Proof.
  induction l as [|n l IH]; cbn [FrameList_remove_frame_by_id_o FrameList_remove_frame_by_id]; [need|].
  need1. need1. need1; [apply n_unlink_bind; need|need].
Qed.
#[global] Hint Resolve n_remove_by_id : need.

Lemma n_remove_frame l p : needs_all (FrameList_remove_frame_o l p) (Ok (FrameList_remove_frame l p)).
Proof.
  induction l as [|n l IH]; cbn [FrameList_remove_frame_o FrameList_remove_frame]; [need|].
  need1; [apply n_unlink_bind; need|].
  destruct (FrameList_remove_frame l p) as [r l'] eqn:E.
  change (Ok (r, n :: l')) with (bind (Ok (r, l')) (fun x => Ok (fst x, n :: snd x))).
  apply s_bind; [exact IH|]. intros [r2 l2] _. cbn [fst snd]. need.
Qed.

Lemma n_delete_nth head : forall i index l, needs_all (delete_nth_loop_o head i index l) (Ok (delete_nth_loop head i index l)).
Proof.
  induction head as [|n rest IH]; intros i index l; cbn [delete_nth_loop_o delete_nth_loop]; [need|].
  need1; [|apply IH].
  change (Ok (snd (FrameList_remove_frame l (n_frame n))))
    with (bind (Ok (FrameList_remove_frame l (n_frame n))) (fun x => Ok (snd x))).
  apply s_bind; [apply n_remove_frame|]. intros [r2 l2] _. cbn [fst snd]. need.
Qed.

Lemma n_delete_frame t id : needs_all (ID3v2_Tag_delete_frame_o t id) (ID3v2_Tag_delete_frame t id).
Proof. unfold ID3v2_Tag_delete_frame_o, ID3v2_Tag_delete_frame. need. Qed.
#[global] Hint Resolve n_delete_frame : need.

Lemma n_set_text t i : needs_all (ID3v2_Tag_set_text_frame_o t i) (ID3v2_Tag_set_text_frame t i).
Proof. unfold ID3v2_Tag_set_text_frame_o, ID3v2_Tag_set_text_frame. need. Qed.
Lemma n_set_comment t i : needs_all (ID3v2_Tag_set_comment_frame_o t i) (ID3v2_Tag_set_comment_frame t i).
Proof. unfold ID3v2_Tag_set_comment_frame_o, ID3v2_Tag_set_comment_frame. need. Qed.
Lemma n_add_comment t i : needs_all (ID3v2_Tag_add_comment_frame_o t i) (ID3v2_Tag_add_comment_frame t i).
Proof. unfold ID3v2_Tag_add_comment_frame_o, ID3v2_Tag_add_comment_frame, append_frame. need. Qed.
Lemma n_set_apic t i : needs_all (ID3v2_Tag_set_apic_frame_o t i) (ID3v2_Tag_set_apic_frame t i).
Proof. unfold ID3v2_Tag_set_apic_frame_o, ID3v2_Tag_set_apic_frame. need. Qed.
Lemma n_add_apic t i : needs_all (ID3v2_Tag_add_apic_frame_o t i) (ID3v2_Tag_add_apic_frame t i).
Proof. unfold ID3v2_Tag_add_apic_frame_o, ID3v2_Tag_add_apic_frame, append_frame. need. Qed.
#[global] Hint Resolve n_set_text n_set_comment n_add_comment n_set_apic n_add_apic : need.
