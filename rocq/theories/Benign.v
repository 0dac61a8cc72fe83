(** No function below the tag level runs out of fuel or exits: it returns
    normally or is undefined. *)
From Verif Require Import File Spec.
From Verif Require Export BaseFacts.

Definition benign {A} (o : outcome A) : Prop :=
  match o with Ok _ | Ub _ => True | Exit _ | NoFuel => False end.

Lemma benign_bind {A B} (o : outcome A) (k : A -> outcome B) :
  benign o -> (forall a, o = Ok a -> benign (k a)) -> benign (bind o k).
Proof. destruct o; cbn [bind benign]; intros; auto. Qed.

Lemma benign_ub {A} (o : outcome A) : benign o -> (forall a, o <> Ok a) -> exists u, o = Ub u.
Proof. destruct o; cbn [benign]; intros B N; try contradiction; eauto. now destruct (N a). Qed.

Create HintDb benign.
Ltac ben :=
  repeat match goal with
  | |- benign (bind _ _) => apply benign_bind; [|intros]
  | |- benign (Ok _) => exact I
  | |- benign (Ub _) => exact I
  | |- benign (match ?x with _ => _ end) => destruct x
  | |- benign (let '(_, _) := ?x in _) => destruct x
  | |- benign _ => solve [auto with benign]
  end.

Lemma benign_memcpy p n : benign (memcpy_from p n).
Proof. unfold memcpy_from. ben. Qed.
Lemma benign_chk z : benign (chk_int z).
Proof. unfold chk_int. ben. Qed.
#[export] Hint Resolve benign_memcpy benign_chk : benign.
Lemma benign_iadd a b : benign (iadd a b).
Proof. apply benign_chk. Qed.
Lemma benign_isub a b : benign (isub a b).
Proof. apply benign_chk. Qed.
Lemma benign_memcmp l m : benign (memcmp_eq l m).
Proof. revert m. induction l as [|x l IH]; intros m; cbn [memcmp_eq]; ben. Qed.
Lemma benign_strncmp n a b : benign (strncmp_eq n a b).
Proof. revert a b. induction n as [|n IH]; intros a b; cbn [strncmp_eq]; ben. Qed.
Lemma benign_strlen m : benign (c_strlen m).
Proof. induction m as [|x m IH]; cbn [c_strlen]; ben. Qed.
#[export] Hint Resolve benign_iadd benign_isub benign_memcmp benign_strncmp benign_strlen : benign.

Lemma benign_wstrlen_n n : forall m, (length m <= n)%nat -> benign (wstrlen m).
Proof.
  induction n as [|n IH]; intros m L; destruct m as [|a [|b m]]; cbn [length] in L; try exact I; try lia.
  cbn [wstrlen]. assert (benign (wstrlen m)) by (apply IH; lia). ben.
Qed.
Lemma benign_wstrlen m : benign (wstrlen m).
Proof. now apply (benign_wstrlen_n (length m)). Qed.
Lemma benign_has_bom p : benign (string_has_bom p).
Proof. unfold string_has_bom. ben. Qed.
#[export] Hint Resolve benign_wstrlen benign_has_bom : benign.
Lemma benign_ID3v2_strlen p : benign (ID3v2_strlen p).
Proof. unfold ID3v2_strlen. ben. Qed.
#[export] Hint Resolve benign_ID3v2_strlen : benign.
Lemma benign_strlent p : benign (ID3v2_strlent p).
Proof. unfold ID3v2_strlent. ben. Qed.
Lemma benign_btoi_loop n m r : benign (btoi_loop n m r).
Proof. revert m r. induction n as [|n IH]; intros m r; cbn [btoi_loop]; ben. Qed.
#[export] Hint Resolve benign_strlent benign_btoi_loop : benign.
Lemma benign_btoi m s : benign (btoi m s).
Proof. apply benign_btoi_loop. Qed.
#[export] Hint Resolve benign_btoi : benign.

Lemma benign_new n : benign (CharStream_new n).
Proof. unfold CharStream_new. ben. Qed.
Lemma benign_from_buffer p n : benign (CharStream_from_buffer p n).
Proof. unfold CharStream_from_buffer. ben. Qed.
Lemma benign_write cs d n : benign (CharStream_write cs d n).
Proof. unfold CharStream_write. ben. Qed.
Lemma benign_read cs n : benign (CharStream_read cs n).
Proof. unfold CharStream_read. ben. Qed.
#[export] Hint Resolve benign_new benign_from_buffer benign_write benign_read : benign.
Lemma benign_read_into cs n : benign (read_into cs n).
Proof. unfold read_into. ben. Qed.
Lemma benign_getc cs : benign (CharStream_getc cs).
Proof. unfold CharStream_getc. ben. Qed.
Lemma benign_slice cs n : benign (CharStream_slice cs n).
Proof. unfold CharStream_slice. ben. Qed.
Lemma benign_seek cs n w : benign (CharStream_seek cs n w).
Proof. unfold CharStream_seek. ben. Qed.
Lemma benign_deref {A} (p : option A) : benign (deref p).
Proof. unfold deref. ben. Qed.
Lemma benign_vla n : benign (vla n).
Proof. unfold vla. ben. Qed.
Lemma benign_id0 h c : benign (id0_is h c).
Proof. unfold id0_is. ben. Qed.
#[export] Hint Resolve benign_read_into benign_getc benign_slice benign_seek benign_deref benign_vla benign_id0 : benign.

Lemma benign_fh_new i f s : benign (FrameHeader_new i f s).
Proof. unfold FrameHeader_new. ben. Qed.
#[export] Hint Resolve benign_fh_new : benign.
Lemma benign_fh_parse cs v : benign (FrameHeader_parse cs v).
Proof. unfold FrameHeader_parse. ben. Qed.
Lemma benign_th_parse cs : benign (TagHeader_parse cs).
Proof. unfold TagHeader_parse. ben. Qed.
Lemma benign_text_new i f t : benign (TextFrame_new i f t).
Proof. unfold TextFrame_new, TextFrameData_new. ben. Qed.
Lemma benign_comment_new f l s c : benign (CommentFrame_new f l s c).
Proof. unfold CommentFrame_new, CommentFrameData_new. ben. Qed.
Lemma benign_apic_new f d t m s p : benign (ApicFrame_new f d t m s p).
Proof. unfold ApicFrame_new, ApicFrameData_new. ben. Qed.
#[export] Hint Resolve benign_fh_parse benign_th_parse benign_text_new benign_comment_new benign_apic_new : benign.
Lemma benign_text_parse cs v : benign (TextFrame_parse cs v).
Proof. unfold TextFrame_parse. ben. Qed.
Lemma benign_comment_parse cs v : benign (CommentFrame_parse cs v).
Proof. unfold CommentFrame_parse. ben. Qed.
Lemma benign_apic_parse cs v : benign (ApicFrame_parse cs v).
Proof. unfold ApicFrame_parse. ben. Qed.
#[export] Hint Resolve benign_text_parse benign_comment_parse benign_apic_parse : benign.
Lemma benign_frame_parse cs v : benign (Frame_parse cs v).
Proof. unfold Frame_parse, FrameHeader_isTextFrame, FrameHeader_isCommentFrame, FrameHeader_isApicFrame. ben. Qed.
#[export] Hint Resolve benign_frame_parse : benign.

Lemma benign_fh_write h : benign (FrameHeader_to_char_stream h).
Proof. unfold FrameHeader_to_char_stream. ben. Qed.
#[export] Hint Resolve benign_fh_write : benign.
Lemma benign_start h : benign (start_frame_stream h).
Proof. unfold start_frame_stream. ben. Qed.
#[export] Hint Resolve benign_start : benign.
Lemma benign_frame_write fp : benign (Frame_to_char_stream fp).
Proof.
  unfold Frame_to_char_stream, FrameHeader_isTextFrame, FrameHeader_isCommentFrame, FrameHeader_isApicFrame,
    TextFrame_to_char_stream, CommentFrame_to_char_stream, ApicFrame_to_char_stream. ben.
Qed.
#[export] Hint Resolve benign_frame_write : benign.
