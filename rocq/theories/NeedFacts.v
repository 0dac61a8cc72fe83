(** Programs that ask for memory: what the answers decide, and how much is asked
    for. *)
From Verif Require Import Spec TagFacts AnyFacts FileFacts.
From Verif Require Import Oom SpecOom SpecNeed OomFacts OomReadFacts OomCallFacts.
From Coq Require Import Lia ZifyBool ZifyNat.

(** ** Only the answers matter *)

(** [M] would have given these answers. *)
Fixpoint agrees (M : allocator) (new l : log) : Prop :=
  match new with
  | [] => True
  | (q, g) :: b => no_bytes q || M (b ++ l) q = g /\ agrees M b l
  end.

Lemma agrees_app M b a l : agrees M (b ++ a) l <-> agrees M a l /\ agrees M b (a ++ l).
Proof.
  induction b as [|[q g] b IH]; cbn [app agrees]; [tauto|]. rewrite IH, app_assoc. tauto.
Qed.

Definition steady {A} (m : oom A) : Prop :=
  forall M l, exists new, snd (m M l) = new ++ l /\ agrees M new l /\ forall M', agrees M' new l -> m M' l = m M l.

Lemma y_ret {A} (a : A) : steady (ret a). Proof. intros M l. now exists []. Qed.
Lemma y_lift {A} (o : outcome A) : steady (lift o). Proof. intros M l. now exists []. Qed.
Lemma y_ask r : steady (ask r).
Proof.
  intros M l. exists [(r, no_bytes r || M l r)]. split; [reflexivity|]. split; [cbn [agrees app]; auto|]. intros M' H.
  cbn [agrees app] in H. unfold ask. cbv zeta. destruct H as [H _]. now rewrite H.
Qed.
Lemma y_bind {A B} (m : oom A) (f : A -> oom B) : steady m -> (forall x, steady (f x)) -> steady (bindo m f).
Proof.
  intros H1 H2 M l. destruct (H1 M l) as (new & E & G & S). unfold bindo. destruct (m M l) as [r l1]. cbn [fst snd] in *. subst l1.
  destruct r as [x|u|n|].
  - destruct (H2 x M (new ++ l)) as (new2 & E2 & G2 & S2). exists (new2 ++ new). split; [now rewrite E2, app_assoc|].
    split; [now apply agrees_app|].
    intros M' H. apply agrees_app in H. destruct H as [Ha Hb]. rewrite (S M' Ha). now apply S2.
  - exists new. split; [reflexivity|]. split; [exact G|]. intros M' H. now rewrite (S M' H).
  - exists new. split; [reflexivity|]. split; [exact G|]. intros M' H. now rewrite (S M' H).
  - exists new. split; [reflexivity|]. split; [exact G|]. intros M' H. now rewrite (S M' H).
Qed.
Lemma y_used g : steady (used g). Proof. destruct g; [apply y_ret|apply y_lift]. Qed.
Lemma y_must r : steady (must r). Proof. apply y_bind; [apply y_ask|intro; apply y_used]. Qed.

Create HintDb steady.
#[global] Hint Resolve y_ret y_lift y_ask y_used y_must : steady.

Ltac still1 :=
  match goal with
  | |- steady (bindo _ _) => apply y_bind; [|intro]
  | |- steady (let '(_, _) := ?x in _) => destruct x
  | |- steady (if ?b then _ else _) => destruct b
  | |- steady (match ?x with _ => _ end) => destruct x
  | |- _ => solve [auto with steady]
  end.
Ltac still := cbv zeta; repeat (still1; cbv zeta).

Lemma y_itob n : steady (itob_o n). Proof. unfold itob_o. still. Qed.
Lemma y_CharStream_new n : steady (CharStream_new_o n). Proof. unfold CharStream_new_o. still. Qed.
Lemma y_from_buffer p n : steady (CharStream_from_buffer_o p n). Proof. unfold CharStream_from_buffer_o. still. Qed.
Lemma y_TagHeader_new a b c d e : steady (TagHeader_new_o a b c d e). Proof. unfold TagHeader_new_o. still. Qed.
#[global] Hint Resolve y_itob y_CharStream_new y_from_buffer y_TagHeader_new : steady.
Lemma y_TagHeader_parse cs : steady (TagHeader_parse_o cs). Proof. unfold TagHeader_parse_o. still. Qed.
Lemma y_FrameHeader_new a b n : steady (FrameHeader_new_o a b n). Proof. unfold FrameHeader_new_o. still. Qed.
#[global] Hint Resolve y_TagHeader_parse y_FrameHeader_new : steady.
Lemma y_FrameHeader_parse cs v : steady (FrameHeader_parse_o cs v). Proof. unfold FrameHeader_parse_o. still. Qed.
Lemma y_FrameHeader_to h : steady (FrameHeader_to_char_stream_o h). Proof. unfold FrameHeader_to_char_stream_o. still. Qed.
Lemma y_TextFrameData_new p : steady (TextFrameData_new_o p). Proof. unfold TextFrameData_new_o. still. Qed.
Lemma y_CommentFrameData_new a b c : steady (CommentFrameData_new_o a b c). Proof. unfold CommentFrameData_new_o. still. Qed.
Lemma y_ApicFrameData_new a b c d e : steady (ApicFrameData_new_o a b c d e). Proof. unfold ApicFrameData_new_o. still. Qed.
#[global] Hint Resolve y_FrameHeader_parse y_FrameHeader_to y_TextFrameData_new y_CommentFrameData_new y_ApicFrameData_new : steady.
Lemma y_TextFrame_new a b c : steady (TextFrame_new_o a b c). Proof. unfold TextFrame_new_o. still. Qed.
Lemma y_CommentFrame_new a b c d : steady (CommentFrame_new_o a b c d). Proof. unfold CommentFrame_new_o. still. Qed.
Lemma y_ApicFrame_new a b c d e f : steady (ApicFrame_new_o a b c d e f). Proof. unfold ApicFrame_new_o. still. Qed.
#[global] Hint Resolve y_TextFrame_new y_CommentFrame_new y_ApicFrame_new : steady.
Lemma y_TextFrame_parse cs v : steady (TextFrame_parse_o cs v). Proof. unfold TextFrame_parse_o. still. Qed.
Lemma y_CommentFrame_parse cs v : steady (CommentFrame_parse_o cs v). Proof. unfold CommentFrame_parse_o. still. Qed.
Lemma y_ApicFrame_parse cs v : steady (ApicFrame_parse_o cs v). Proof. unfold ApicFrame_parse_o. still. Qed.
#[global] Hint Resolve y_TextFrame_parse y_CommentFrame_parse y_ApicFrame_parse : steady.
Lemma y_Frame_parse cs v : steady (Frame_parse_o cs v). Proof. unfold Frame_parse_o. still. Qed.
Lemma y_start h : steady (start_frame_stream_o h). Proof. unfold start_frame_stream_o. still. Qed.
#[global] Hint Resolve y_Frame_parse y_start : steady.
Lemma y_Text_to h d : steady (TextFrame_to_char_stream_o h d). Proof. unfold TextFrame_to_char_stream_o. still. Qed.
Lemma y_Comment_to h d : steady (CommentFrame_to_char_stream_o h d). Proof. unfold CommentFrame_to_char_stream_o. still. Qed.
Lemma y_Apic_to h d : steady (ApicFrame_to_char_stream_o h d). Proof. unfold ApicFrame_to_char_stream_o. still. Qed.
#[global] Hint Resolve y_Text_to y_Comment_to y_Apic_to : steady.
Lemma y_Frame_to f : steady (Frame_to_char_stream_o f). Proof. unfold Frame_to_char_stream_o. still. Qed.
#[global] Hint Resolve y_Frame_to : steady.
Lemma y_write_frames : forall l cs, steady (write_frames_o cs l).
Proof. induction l as [|n l IH]; intros cs; cbn [write_frames_o]; still. Qed.
#[global] Hint Resolve y_write_frames : steady.
Lemma y_Tag_to t : steady (Tag_to_char_stream_o t). Proof. unfold Tag_to_char_stream_o. still. Qed.
Lemma y_FrameList_new : steady FrameList_new_o. Proof. unfold FrameList_new_o. still. Qed.
Lemma y_add l f : steady (FrameList_add_frame_o l f). Proof. unfold FrameList_add_frame_o. still. Qed.
#[global] Hint Resolve y_Tag_to y_FrameList_new y_add : steady.
Lemma y_Tag_new h n : steady (ID3v2_Tag_new_o h n). Proof. unfold ID3v2_Tag_new_o, TagHeader_new_empty_o. still. Qed.
Lemma y_loop : forall fuel ts v cs l fresh, steady (parse_loop_o fuel ts v cs l fresh).
Proof. induction fuel as [|fuel IH]; intros ts v cs l fresh; cbn [parse_loop_o]; still. Qed.
#[global] Hint Resolve y_Tag_new y_loop : steady.
Lemma y_Tag_parse cs : steady (Tag_parse_o cs). Proof. unfold Tag_parse_o. still. Qed.
#[global] Hint Resolve y_Tag_parse : steady.
Lemma y_header_buffer p : steady (ID3v2_read_tag_header_from_buffer_o p). Proof. unfold ID3v2_read_tag_header_from_buffer_o. still. Qed.
#[global] Hint Resolve y_header_buffer : steady.
Lemma y_header f : steady (ID3v2_read_tag_header_o f). Proof. unfold ID3v2_read_tag_header_o. still. Qed.
Lemma y_read_buffer p n : steady (ID3v2_read_tag_from_buffer_o p n). Proof. unfold ID3v2_read_tag_from_buffer_o. still. Qed.
#[global] Hint Resolve y_header y_read_buffer : steady.
Lemma y_read f : steady (ID3v2_read_tag_o f). Proof. unfold ID3v2_read_tag_o. still. Qed.
Lemma y_write f t : steady (ID3v2_write_tag_o f t). Proof. unfold ID3v2_write_tag_o. still. Qed.

(** ** What is asked for when everything is granted *)

Definition all : allocator := fun _ _ => true.

Lemma all_bind {A B} (m : oom A) (f : A -> oom B) l y l' :
  bindo m f all l = (Ok y, l') -> exists x l1, m all l = (Ok x, l1) /\ f x all l1 = (Ok y, l').
Proof. unfold bindo. destruct (m all l) as [[x|u|n|] l1]; try discriminate. eauto. Qed.
Lemma all_lift {A} (o : outcome A) l y l' : lift o all l = (Ok y, l') -> o = Ok y /\ l' = l.
Proof. unfold lift. intros E. injection E as -> <-. auto. Qed.
Lemma all_ret {A} (a : A) l y l' : ret a all l = (Ok y, l') -> y = a /\ l' = l.
Proof. unfold ret. intros E. injection E as <- <-. auto. Qed.
Lemma all_ask r l y l' : ask r all l = (Ok y, l') -> y = true /\ l' = (r, true) :: l.
Proof. unfold ask, all. cbv zeta. rewrite orb_true_r. intros E. injection E as <- <-. auto. Qed.
Lemma all_used g l y l' : used g all l = (Ok y, l') -> l' = l.
Proof. destruct g; cbn; unfold ret, lift; intros E; [now injection E|discriminate E]. Qed.
Lemma all_must r l y l' : must r all l = (Ok y, l') -> l' = (r, true) :: l.
Proof.
  unfold must. intros E. apply all_bind in E. destruct E as (x & l1 & E1 & E2). apply all_ask in E1. destruct E1 as [-> ->].
  now apply all_used in E2.
Qed.

Lemma memcpy_size p n m : memcpy_from p n = Ok m -> zlen m = n /\ 0 <= n.
Proof.
  unfold memcpy_from. destruct p as [c|]; [|discriminate]. destruct (n <? 0) eqn:N; [discriminate|]. destruct (zlen c <? n) eqn:C; [discriminate|].
  intros E. injection E as <-. unfold zlen in *. rewrite firstn_length. lia.
Qed.

Section Sizes.
  Context (sizeof : request -> Z) (SN : forall r, 0 <= sizeof r).
  Notation bytes := (bytes sizeof).
  Notation total := (total sizeof).

  Definition proper (l : log) : Prop := Forall (fun q => 0 <= bytes (fst q)) l.

  Definition spends {A} (m : oom A) (c : A -> Z) : Prop :=
    forall l y l', m all l = (Ok y, l') -> total l' = total l + c y /\ (proper l -> proper l').

  Lemma total_cons r l : total ((r, true) :: l) = bytes r + total l. Proof. reflexivity. Qed.
  Lemma proper_cons r l : 0 <= bytes r -> proper l -> proper ((r, true) :: l).
  Proof. intros. now constructor. Qed.

  Ltac inv1 :=
    match goal with
    | E : (let '(_, _) := ?x in _) all _ = (Ok _, _) |- _ => destruct x; cbn beta iota in E
    | E : bindo _ _ all _ = (Ok _, _) |- _ => let x := fresh "x" in let l := fresh "l" in let F := fresh "F" in
        apply all_bind in E; destruct E as (x & l & F & E)
    | E : lift _ all _ = (Ok _, _) |- _ => apply all_lift in E; destruct E as [E ->]
    | E : ret _ all _ = (Ok ?y, _) |- _ => apply all_ret in E; first [destruct E as [-> ->]|destruct E as [E ->]]
    | E : ask _ all _ = (Ok ?y, _) |- _ => apply all_ask in E; destruct E as [-> ->]
    | E : must _ all _ = (Ok _, _) |- _ => apply all_must in E; subst
    | E : used _ all _ = (Ok _, _) |- _ => apply all_used in E; subst
    end.
  Ltac inv := repeat (cbv zeta in *; inv1).
  Ltac close := split; [rewrite ?total_cons; cbn [SpecNeed.bytes] in * |intro; repeat apply proper_cons; auto; cbn [SpecNeed.bytes]; auto].

  Ltac sizes := repeat match goal with
    | E : memcpy_from _ _ = Ok _ |- _ => apply memcpy_size in E; destruct E
    end.

  Lemma p_itob n : spends (itob_o n) (fun _ => 4).
  Proof. intros l y l' E. unfold itob_o in E. inv. close; lia. Qed.

  Lemma p_CharStream_new n : spends (CharStream_new_o n) (fun _ => stream_room sizeof n).
  Proof.
    intros l y l' E. unfold CharStream_new_o in E. inv. unfold CharStream_new in F0. destruct (n <? 0) eqn:N; [discriminate F0|].
    close; unfold stream_room; lia.
  Qed.

  Lemma p_from_buffer p n : spends (CharStream_from_buffer_o p n) (fun _ => stream_room sizeof n).
  Proof.
    intros l y l' E. unfold CharStream_from_buffer_o in E. inv. unfold CharStream_from_buffer in F1. binv F1. sizes.
    close; unfold stream_room; lia.
  Qed.

  Lemma p_TagHeader_parse cs :
    spends (TagHeader_parse_o cs) (fun y => match fst y with Some _ => sizeof RTagHeader | None => 0 end).
  Proof.
    intros l y l' E. unfold TagHeader_parse_o, TagHeader_new_o in E. inv. destruct (negb x).
    - inv. close. cbn [fst]. lia.
    - inv. destruct (_ && _).
      + inv. close. cbn [fst]. lia.
      + inv. destruct (_ =? _); inv; close; cbn [fst]; lia.
  Qed.

  Lemma p_FrameHeader_parse cs v :
    spends (FrameHeader_parse_o cs v) (fun y => match fst y with Some _ => sizeof RFrameHeader | None => 0 end).
  Proof.
    intros l y l' E. unfold FrameHeader_parse_o, FrameHeader_new_o in E. inv. destruct x.
    - inv. close. cbn [fst]. lia.
    - inv. close. cbn [fst]. lia.
  Qed.

  Lemma p_TextFrame_new a b c : spends (TextFrame_new_o a b c) (fun f => frame_bytes sizeof f - 2 * sizeof RFrameHeader).
  Proof.
    intros l y l' E. unfold TextFrame_new_o, TextFrameData_new_o, FrameHeader_new_o in E. inv. sizes.
    close; unfold frame_bytes, data_bytes, data_struct; cbn [f_data td_size]; lia.
  Qed.

  Lemma p_CommentFrame_new a b c d : spends (CommentFrame_new_o a b c d) (fun f => frame_bytes sizeof f - 2 * sizeof RFrameHeader).
  Proof.
    intros l y l' E. unfold CommentFrame_new_o, CommentFrameData_new_o, FrameHeader_new_o in E. inv. sizes.
    close; unfold frame_bytes, data_bytes, data_struct; cbn [f_data cd_size cd_short]; lia.
  Qed.

  Lemma p_ApicFrame_new a b c d e g : spends (ApicFrame_new_o a b c d e g) (fun f => frame_bytes sizeof f - 2 * sizeof RFrameHeader).
  Proof.
    intros l y l' E. unfold ApicFrame_new_o, ApicFrameData_new_o, FrameHeader_new_o in E. inv. sizes.
    close; unfold frame_bytes, data_bytes, data_struct; cbn [f_data ad_mime ad_desc ad_picture_size]; lia.
  Qed.

  Ltac by_spends P := match goal with
    | E : _ all _ = (Ok _, _) |- _ => apply P in E; destruct E
    end.

  Lemma p_TextFrame_parse cs v : spends (TextFrame_parse_o cs v) (fun y => frame_bytes sizeof (fst y) - sizeof RFrameHeader).
  Proof.
    intros l y l' E. unfold TextFrame_parse_o in E. inv. by_spends p_FrameHeader_parse. by_spends p_TextFrame_new.
    cbn [fst] in *. destruct o; [|discriminate]. split; [lia|auto].
  Qed.

  Lemma p_CommentFrame_parse cs v : spends (CommentFrame_parse_o cs v) (fun y => frame_bytes sizeof (fst y) - sizeof RFrameHeader).
  Proof.
    intros l y l' E. unfold CommentFrame_parse_o in E. inv. by_spends p_FrameHeader_parse. by_spends p_CommentFrame_new.
    cbn [fst] in *. destruct o; [|discriminate]. split; [lia|auto].
  Qed.

  Lemma p_ApicFrame_parse cs v : spends (ApicFrame_parse_o cs v) (fun y => frame_bytes sizeof (fst y) - sizeof RFrameHeader).
  Proof.
    intros l y l' E. unfold ApicFrame_parse_o in E. inv. by_spends p_FrameHeader_parse. by_spends p_ApicFrame_new.
    cbn [fst] in *. destruct o; [|discriminate]. split; [lia|auto].
  Qed.

  Lemma read_into_size cs n d cs' : read_into cs n = Ok (d, cs') -> 0 <= n -> zlen d = n.
  Proof.
    unfold read_into, CharStream_read, clamp_int. intros E N. binv E. destruct v as [m c]. injection E as <- <-. binv E0. binv E0.
    injection E0 as <- <-. sizes. unfold zlen in *. rewrite app_length, repeat_length.
    destruct (n <? 0) eqn:?, (v <? n) eqn:?; lia.
  Qed.

  Lemma p_Frame_parse cs v :
    spends (Frame_parse_o cs v) (fun y => match fst y with Some f => frame_bytes sizeof f | None => 0 end).
  Proof.
    intros l y l' E. unfold Frame_parse_o in E. inv. by_spends p_FrameHeader_parse. cbn [fst] in *. destruct o as [h|]; [|inv; split; [cbn [fst]; lia|auto]].
    inv. destruct x; [|destruct x0; [|destruct x1]].
    - inv. by_spends p_TextFrame_parse. cbn [fst] in *. split; [lia|auto].
    - inv. by_spends p_CommentFrame_parse. cbn [fst] in *. split; [lia|auto].
    - inv. by_spends p_ApicFrame_parse. cbn [fst] in *. split; [lia|auto].
    - inv. destruct (fh_size h <? 0) eqn:N; inv; [discriminate|]. cbn [fst].
      match goal with H : read_into _ _ = _ |- _ => apply read_into_size in H; [|lia] end.
      close; unfold frame_bytes, data_bytes, data_struct; cbn [f_data]; try lia.
  Qed.

  Lemma list_bytes_app a b : list_bytes sizeof (a ++ b) = list_bytes sizeof a + list_bytes sizeof b.
  Proof. unfold list_bytes. induction a as [|n a IH]; cbn [app fold_right] in *; [reflexivity|]. rewrite IH. lia. Qed.

  (** The first node of a list is in use, or empty. *)
  Definition headed (l : flist) : Prop :=
    match l with n :: _ => n_start n = true \/ n_frame n = None | [] => True end.

  Lemma p_add l f : headed l ->
    forall k y k', FrameList_add_frame_o l f all k = (Ok y, k') ->
      headed y /\ total k' = total k + (list_bytes sizeof y - list_bytes sizeof l) - frame_bytes sizeof (fp_frame f) /\ (proper k -> proper k').
  Proof.
    intros H k y k' E. unfold FrameList_add_frame_o in E. destruct l as [|n r]; [inv; discriminate|].
    destruct (n_start n) eqn:S; cbn [negb] in E; inv.
    - split; [left; exact S|]. rewrite list_bytes_app. close. unfold list_bytes at 2. cbn [fold_right n_frame]. lia.
    - destruct H as [H|H]; [congruence|]. split; [now left|]. close. unfold list_bytes. cbn [fold_right n_frame]. rewrite H. lia.
  Qed.

  Lemma p_loop ts v : forall fuel cs l fresh, headed l -> forall k y k',
    parse_loop_o fuel ts v cs l fresh all k = (Ok y, k') ->
    total k' = total k + (list_bytes sizeof (fst (fst y)) - list_bytes sizeof l) /\ (proper k -> proper k').
  Proof.
    induction fuel as [|fuel IH]; intros cs l fresh H k y k' E; cbn [parse_loop_o] in E.
    - destruct (_ <? _); inv; [discriminate|]. cbn [fst]. split; [lia|auto].
    - destruct (_ <? _); inv; [|cbn [fst]; split; [lia|auto]].
      by_spends p_Frame_parse. cbn [fst] in *. destruct o as [f|]; inv; [|cbn [fst]; split; [lia|auto]].
      match goal with Q : FrameList_add_frame_o _ _ all _ = _ |- _ => apply p_add in Q; [|exact H]; destruct Q as (H' & T & P) end. cbn [fp_frame snd] in T.
      apply IH in E; [|exact H']. destruct E as [T2 P2]. split; [lia|auto].
  Qed.

  Lemma p_Tag_parse cs : spends (Tag_parse_o cs)
    (fun y => match y with Some t => sizeof RTagHeader + sizeof RTag + list_bytes sizeof (t_frames t) | None => 0 end).
  Proof.
    intros l y l' E. unfold Tag_parse_o, ID3v2_Tag_new_o, FrameList_new_o in E. inv. by_spends p_TagHeader_parse. cbn [fst] in *.
    destruct o as [h|]; inv; [|split; [lia|auto]]. cbn [t_frames t_fresh] in *.
    match goal with E : parse_loop_o _ _ _ _ _ _ all _ = _ |- _ => apply p_loop in E; [|now right]; destruct E as [T P] end. cbn [fst] in T.
    rewrite ?total_cons in T. cbn [SpecNeed.bytes] in T. split.
    - change (list_bytes sizeof FrameList_new) with (sizeof RNode + 0 + 0) in T. lia.
    - intro Q. apply P. repeat apply proper_cons; auto; cbn [SpecNeed.bytes]; auto.
  Qed.

  Lemma p_header_buffer p : spends (ID3v2_read_tag_header_from_buffer_o p)
    (fun y => stream_room sizeof 10 + match y with Some _ => sizeof RTagHeader | None => 0 end).
  Proof.
    intros l y l' E. unfold ID3v2_read_tag_header_from_buffer_o in E. inv. by_spends p_from_buffer. by_spends p_TagHeader_parse.
    cbn [fst] in *. change ID3v2_TAG_HEADER_LENGTH with 10 in *. split; [lia|auto].
  Qed.

  Lemma p_header content : spends (ID3v2_read_tag_header_o (Some content))
    (fun y => if zlen content <? 10 then 0 else stream_room sizeof 10 + match y with Some _ => sizeof RTagHeader | None => 0 end).
  Proof.
    intros l y l' E. unfold ID3v2_read_tag_header_o in E. cbv zeta in E. change ID3v2_TAG_HEADER_LENGTH with 10 in *.
    assert (Z : zlen (firstn (Z.to_nat 10) content) = Z.min 10 (zlen content)) by (unfold zlen; rewrite firstn_length; lia).
    rewrite Z in E. destruct (zlen content <? 10) eqn:S.
    - destruct (_ <? _) eqn:Q; [|lia]. inv. split; [lia|auto].
    - destruct (_ <? _) eqn:Q; [lia|]. by_spends p_header_buffer. auto.
  Qed.

  Lemma p_read_buffer p n : spends (ID3v2_read_tag_from_buffer_o p n)
    (fun y => match y with Some t => tag_bytes_read sizeof n t | None => stream_room sizeof n end).
  Proof.
    intros l y l' E. unfold ID3v2_read_tag_from_buffer_o in E. inv. by_spends p_from_buffer. by_spends p_Tag_parse.
    unfold tag_bytes_read. destruct y; split; auto; lia.
  Qed.
  Lemma p_start h : spends (start_frame_stream_o h) (fun _ => stream_room sizeof 10 + 4 + stream_room sizeof (fh_size h + 10)).
  Proof.
    intros l y l' E. unfold start_frame_stream_o, FrameHeader_to_char_stream_o in E. inv. by_spends p_CharStream_new. by_spends p_CharStream_new. by_spends p_itob.
    change ID3v2_FRAME_HEADER_LENGTH with 10 in *.
    match goal with H : iadd _ _ = _ |- _ => unfold iadd in H; apply chk_int_inv in H; destruct H as [-> _] end. split; [lia|auto].
  Qed.

  Lemma p_Frame_to f : spends (Frame_to_char_stream_o (Some f)) (fun _ => frame_bytes_written sizeof f).
  Proof.
    intros l y l' E. unfold Frame_to_char_stream_o in E. inv. unfold frame_bytes_written.
    destruct x; [|destruct x0; [|destruct x1]]; destruct (f_data f); inv; try discriminate.
    - unfold TextFrame_to_char_stream_o in *. inv. by_spends p_start. split; [lia|auto].
    - unfold CommentFrame_to_char_stream_o in *. inv. by_spends p_start. split; [lia|auto].
    - unfold ApicFrame_to_char_stream_o in *. inv. by_spends p_start. split; [lia|auto].
    - unfold FrameHeader_to_char_stream_o in *. inv. by_spends p_CharStream_new. by_spends p_CharStream_new. by_spends p_itob.
      change ID3v2_FRAME_HEADER_LENGTH with 10 in *.
      match goal with H : iadd _ _ = _ |- _ => unfold iadd in H; apply chk_int_inv in H; destruct H as [-> _] end. split; [lia|auto].
  Qed.

  Lemma p_write_frames : forall l cs, spends (write_frames_o cs l) (fun _ => list_bytes_written sizeof l).
  Proof.
    induction l as [|n l IH]; intros cs k y k' E; cbn [write_frames_o] in E.
    - inv. split; [cbn; lia|auto].
    - inv. cbn [list_bytes_written fold_right]. fold (list_bytes_written sizeof l). destruct (n_frame n) as [p|]; cbn [option_map] in *.
      + by_spends p_Frame_to. destruct x; inv; [|discriminate]. apply IH in E. destruct E. split; [lia|auto].
      + cbn [Frame_to_char_stream_o] in *. inv. discriminate.
  Qed.

  Lemma p_Tag_to t : spends (Tag_to_char_stream_o t)
    (fun _ => stream_room sizeof (declared_length (t_header t)) + 4 + list_bytes_written sizeof (t_frames t)).
  Proof.
    intros l y l' E. unfold Tag_to_char_stream_o in E. inv. by_spends p_CharStream_new. by_spends p_itob.
    unfold declared_length.
    destruct (t_frames t) as [|n r] eqn:T; inv; [discriminate|]. destruct (n_frame n) as [p|] eqn:N.
    - apply p_write_frames in E. destruct E. split; [lia|auto].
    - inv. cbn [list_bytes_written fold_right]. rewrite N. split; [lia|auto].
  Qed.

  (** ** Limits *)

  Lemma no_bytes_bytes r : no_bytes r = true -> bytes r = 0.
  Proof. destruct r; cbn; intros; try discriminate; lia. Qed.

  Lemma total_nonneg l : proper l -> 0 <= total l.
  Proof.
    induction 1 as [|[q g] l H P IH]; [cbn; lia|]. cbn [SpecNeed.total fold_right fst snd] in *. fold (total l). destruct g; lia.
  Qed.

  Lemma total_app a b : total (a ++ b) = total a + total b.
  Proof. induction a as [|q a IH]; cbn [app SpecNeed.total fold_right]; [reflexivity|]. fold (total (a ++ b)) (total a). rewrite IH. lia. Qed.

  Lemma agrees_all new : agrees all new [] -> granted new = true.
  Proof.
    induction new as [|[q g] new IH]; [reflexivity|]. cbn [agrees granted forallb snd]. unfold all at 1. rewrite orb_true_r. intros [<- H]. now apply IH.
  Qed.

  Lemma granted_agrees new : granted new = true -> agrees all new [].
  Proof.
    induction new as [|[q g] new IH]; cbn [agrees granted forallb snd]; [auto|]. intros G. apply andb_true_iff in G. destruct G as [-> G].
    split; [unfold all; apply orb_true_r|auto].
  Qed.

  Lemma supplied n M new : supplies sizeof n M -> proper new -> granted new = true -> total new <= n -> agrees M new [].
  Proof.
    intros S. induction new as [|[q g] new IH]; [constructor|]. intros P G T. inversion P as [|? ? P1 P2]; subst.
    cbn [granted forallb snd] in G. apply andb_true_iff in G. destruct G as [-> G].
    rewrite total_cons in T. cbn [fst] in P1. cbn [agrees]. split; [|apply IH; auto; lia]. rewrite app_nil_r, S, orb_true_r; [reflexivity|lia].
  Qed.

  Lemma within_limit n new : 0 <= n -> granted new = true -> agrees (limited sizeof n) new [] -> total new <= n.
  Proof.
    intros N. induction new as [|[q g] new IH]; [cbn; lia|]. cbn [granted forallb snd agrees]. intros G [A B].
    apply andb_true_iff in G. destruct G as [-> G]. rewrite total_cons. rewrite app_nil_r in A.
    apply orb_true_iff in A. destruct A as [A|A].
    - apply no_bytes_bytes in A. specialize (IH G B). lia.
    - unfold limited in A. lia.
  Qed.

  Lemma all_answers {A} (m : oom A) o Q : steady m -> answers m o Q -> exists new, m all [] = (o, new) /\ granted new = true.
  Proof.
    intros Y W. destruct (Y all []) as (new & E & G & _). rewrite app_nil_r in E. apply agrees_all in G. exists new. split; [|exact G].
    destruct (W all []) as (new' & E' & H & _). rewrite app_nil_r, E in E'. subst new'.
    specialize (H G). rewrite (surjective_pairing (m all [])). now rewrite H, E.
  Qed.

  Lemma takes_one {A} (m : oom A) x Q c : steady m -> answers m (Ok x) Q ->
    (forall new, m all [] = (Ok x, new) -> total new = c /\ proper new) -> takes sizeof m (Ok x) c.
  Proof.
    intros Y W S. destruct (all_answers m _ Q Y W) as (new & R & G). destruct (S new R) as [T P].
    assert (Same : forall M, agrees M new [] -> m M [] = (Ok x, new)).
    { destruct (Y all []) as (new' & E & _ & K). rewrite app_nil_r, R in E. cbn [snd] in E. subst new'. intros M H. rewrite <- R. now apply K. }
    split.
    - intros M Su. rewrite Same; [cbn [fst snd]; auto|]. apply supplied with c; auto. lia.
    - intros limit L. destruct (granted (snd (m (limited sizeof limit) []))) eqn:G'; [|reflexivity]. exfalso.
      destruct (Y (limited sizeof limit) []) as (new' & E & Ag & K). rewrite app_nil_r in E. rewrite E in G'.
      assert (Z := K all (granted_agrees _ G')). rewrite R in Z. rewrite <- Z in E. cbn [snd] in E. subst new'.
      apply within_limit in Ag; [|lia|exact G]. lia.
  Qed.

  Lemma takes_spends {A} (m : oom A) x Q c : steady m -> answers m (Ok x) Q -> spends m c -> takes sizeof m (Ok x) (c x).
  Proof.
    intros Y W S. eapply takes_one; eauto. intros new R. destruct (S [] x new R) as [T P]. split; [exact T|apply P; constructor].
  Qed.

  Lemma need_header_buffer p h : ID3v2_read_tag_header_from_buffer p = Ok h ->
    takes sizeof (ID3v2_read_tag_header_from_buffer_o p) (Ok h) (stream_room sizeof 10 + header_bytes sizeof h).
  Proof.
    intros E. apply takes_spends with (Q := header_or_undefined (Ok None)) (c := fun y => stream_room sizeof 10 + header_bytes sizeof y); auto with steady.
    - rewrite <- E. apply a_headers.
    - intros l y l' R. apply p_header_buffer in R. exact R.
  Qed.

  Lemma need_header content h : ID3v2_read_tag_header (Some content) = Ok h ->
    takes sizeof (ID3v2_read_tag_header_o (Some content)) (Ok h) (look_bytes sizeof content h).
  Proof.
    intros E. apply takes_spends with (Q := header_or_undefined (Ok None)) (c := look_bytes sizeof content); auto with steady.
    - rewrite <- E. apply a_headers.
    - intros l y l' R. apply p_header in R. exact R.
  Qed.

  Lemma need_buffer p n t : n < 2 ^ 31 -> ID3v2_read_tag_from_buffer p n = Ok (Some t) ->
    takes sizeof (ID3v2_read_tag_from_buffer_o p n) (Ok (Some t)) (tag_bytes_read sizeof n t).
  Proof.
    intros N E. eapply takes_one; [auto with steady|rewrite <- E; apply a_read_tag_buffer; exact N|].
    intros new R. apply p_read_buffer in R. destruct R as [T P]. split; [exact T|apply P; constructor].
  Qed.

  Lemma need_none p n : n < 2 ^ 31 -> ID3v2_read_tag_from_buffer p n = Ok None ->
    takes sizeof (ID3v2_read_tag_from_buffer_o p n) (Ok None) (stream_room sizeof n).
  Proof.
    intros N E. eapply takes_one; [auto with steady|rewrite <- E; apply a_read_tag_buffer; exact N|].
    intros new R. apply p_read_buffer in R. destruct R as [T P]. split; [exact T|apply P; constructor].
  Qed.

  Lemma read_found content h r : ID3v2_read_tag_header (Some content) = Ok (Some h) -> ID3v2_read_tag (Some content) = Ok r ->
    exists t, r = Some t /\ t_header t = h.
  Proof.
    intros E0 E. unfold ID3v2_read_tag in E. rewrite E0 in E. cbn [bind] in E. cbv zeta in E.
    destruct (file_room content h E0) as (R & D & c & Hc). unfold ID3v2_read_tag_from_buffer, CharStream_from_buffer in E.
    assert (Ec : memcpy_from (Some (fread_into content (declared_length h))) (declared_length h) = Ok (fread_into content (declared_length h))).
    { unfold memcpy_from. rewrite zlen_fread by lia. ifF. ifF. f_equal. apply firstn_all2. pose proof (zlen_fread content (declared_length h)) as Z. unfold zlen in Z. lia. }
    rewrite Ec in E. cbn [bind] in E. unfold Tag_parse in E.
    unfold at_pos in Hc. rewrite zlen_fread in Hc by lia. change (zlen (@nil cell)) with 0 in Hc. cbn [app] in Hc. rewrite Z.add_0_l in Hc.
    rewrite Hc in E. cbn [bind] in E. cbv zeta in E. binv E. binv E. destruct v0 as [[fs k] c']. binv E. injection E as <-. eexists. split; reflexivity.
  Qed.

  Lemma read_header_same content t : ID3v2_read_tag (Some content) = Ok (Some t) ->
    ID3v2_read_tag_header (Some content) = Ok (Some (t_header t)).
  Proof.
    intros E. assert (exists h, ID3v2_read_tag_header (Some content) = Ok (Some h)) as (h & H).
    { unfold ID3v2_read_tag in E. binv E. destruct v as [h|]; [now exists h|discriminate E]. }
    destruct (read_found _ _ _ H E) as (t' & Et & <-). injection Et as <-. exact H.
  Qed.

  Lemma need_file content t : ID3v2_read_tag (Some content) = Ok (Some t) ->
    takes sizeof (ID3v2_read_tag_o (Some content)) (Ok (Some t)) (file_bytes_read sizeof t).
  Proof.
    intros E. pose proof (read_header_same _ _ E) as H. destruct (file_room content _ H) as (R & D & _).
    eapply takes_one; [apply y_read|rewrite <- E; apply a_read_tag|].
    intros new Q. unfold ID3v2_read_tag_o in Q. apply all_bind in Q. destruct Q as (x & l1 & Q1 & Q2).
    assert (x = Some (t_header t)) as ->.
    { destruct (all_answers _ _ _ (y_header (Some content)) (proj1 a_headers (Some content))) as (new' & Z & _).
      rewrite Z, H in Q1. congruence. }
    cbv zeta in Q2. inv. apply p_header in Q1. apply p_read_buffer in Q2. destruct Q1 as [T1 P1], Q2 as [T2 P2].
    destruct (zlen content <? 10) eqn:S.
    { exfalso. rewrite header_short in H; [discriminate H|]. unfold zlen in S. lia. }
    rewrite total_cons in T2. cbn [SpecNeed.bytes] in T2. unfold file_bytes_read. cbv zeta. rewrite <- D. split.
    - cbn [SpecNeed.total fold_right] in T1. lia.
    - apply P2. apply proper_cons; [cbn; lia|]. apply P1. constructor.
  Qed.

  Lemma need_no_tag content : ID3v2_read_tag (Some content) = Ok None ->
    takes sizeof (ID3v2_read_tag_o (Some content)) (Ok None) (look_bytes sizeof content None).
  Proof.
    intros E. assert (H : ID3v2_read_tag_header (Some content) = Ok None).
    { assert (E' := E). unfold ID3v2_read_tag in E. binv E. destruct v as [h|]; [|exact E0].
      destruct (read_found _ _ _ E0 E') as (t & Et & _). discriminate Et. }
    eapply takes_one; [apply y_read|rewrite <- E; apply a_read_tag|].
    intros new Q. unfold ID3v2_read_tag_o in Q. apply all_bind in Q. destruct Q as (x & l1 & Q1 & Q2).
    assert (x = None) as ->.
    { destruct (all_answers _ _ _ (y_header (Some content)) (proj1 a_headers (Some content))) as (new' & Z & _).
      rewrite Z, H in Q1. congruence. }
    inv. apply p_header in Q1. destruct Q1 as [T P]. split; [exact T|apply P; constructor].
  Qed.

  Lemma need_write content h t r : ID3v2_read_tag_header (Some content) = Ok h -> ID3v2_write_tag (Some content) (Some t) = Ok r ->
    takes sizeof (ID3v2_write_tag_o (Some content) (Some t)) (Ok r) (write_bytes sizeof content h t).
  Proof.
    intros H E. eapply takes_one; [apply y_write|rewrite <- E; apply a_write|].
    intros new Q. unfold ID3v2_write_tag_o in Q. apply all_bind in Q. destruct Q as (x & l1 & Q1 & Q2).
    assert (x = h) as ->.
    { destruct (all_answers _ _ _ (y_header (Some content)) (proj1 a_headers (Some content))) as (new' & Z & _).
      rewrite Z, H in Q1. congruence. }
    inv. apply p_header in Q1. destruct Q1 as [T P]. by_spends p_Tag_to. cbn [t_header t_frames] in *. cbn [SpecNeed.total fold_right] in T.
    unfold write_bytes, look_bytes, header_bytes. split; [lia|]. apply H1, P. constructor.
  Qed.

  Lemma y_delete f : steady (ID3v2_delete_tag_o f). Proof. unfold ID3v2_delete_tag_o. still. Qed.

  Lemma need_delete content h r : ID3v2_read_tag_header (Some content) = Ok h -> ID3v2_delete_tag (Some content) = Ok r ->
    takes sizeof (ID3v2_delete_tag_o (Some content)) (Ok r) (look_bytes sizeof content h).
  Proof.
    intros H E. eapply takes_one; [apply y_delete|rewrite <- E; apply a_delete|].
    intros new Q. unfold ID3v2_delete_tag_o in Q. apply all_bind in Q. destruct Q as (x & l1 & Q1 & Q2).
    assert (x = h) as ->.
    { destruct (all_answers _ _ _ (y_header (Some content)) (proj1 a_headers (Some content))) as (new' & Z & _).
      rewrite Z, H in Q1. congruence. }
    apply p_header in Q1. destruct Q1 as [T P]. destruct h; inv; (split; [exact T|apply P; constructor]).
  Qed.
End Sizes.
