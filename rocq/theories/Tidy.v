(** The functions on values know no free: they are never undefined for using
    freed memory or for freeing what is not allocated.  Nor for taking a frame
    for one of another kind, when the kinds of the frames fit their ids. *)
From Verif Require Import File Calls Spec SpecHeap SpecHeapIO BaseFacts.

Lemma tidy_bind {A B} (o : outcome A) (k : A -> outcome B) :
  tidy o -> (forall a, o = Ok a -> tidy (k a)) -> tidy (bind o k).
Proof. destruct o; cbn [bind tidy]; intros; auto. Qed.

Create HintDb tidy.
Ltac tid :=
  repeat match goal with
  | |- tidy (bind _ _) => apply tidy_bind; [|intros]
  | |- tidy (Ok _) => exact I
  | |- tidy (Ub _) => exact I
  | |- tidy (Exit _) => exact I
  | |- tidy NoFuel => exact I
  | |- tidy (match ?x with _ => _ end) => destruct x
  | |- tidy _ => solve [auto with tidy]
  end.

Lemma tidy_memcpy p n : tidy (memcpy_from p n).
Proof. unfold memcpy_from. tid. Qed.
Lemma tidy_chk z : tidy (chk_int z).
Proof. unfold chk_int. tid. Qed.
#[export] Hint Resolve tidy_memcpy tidy_chk : tidy.
Lemma tidy_iadd a b : tidy (iadd a b).
Proof. apply tidy_chk. Qed.
Lemma tidy_isub a b : tidy (isub a b).
Proof. apply tidy_chk. Qed.
Lemma tidy_memcmp l m : tidy (memcmp_eq l m).
Proof. revert m. induction l as [|x l IH]; intros m; cbn [memcmp_eq]; tid. Qed.
Lemma tidy_strncmp n a b : tidy (strncmp_eq n a b).
Proof. revert a b. induction n as [|n IH]; intros a b; cbn [strncmp_eq]; tid. Qed.
Lemma tidy_strlen m : tidy (c_strlen m).
Proof. induction m as [|x m IH]; cbn [c_strlen]; tid. Qed.
#[export] Hint Resolve tidy_iadd tidy_isub tidy_memcmp tidy_strncmp tidy_strlen : tidy.

Lemma tidy_wstrlen_n n : forall m, (length m <= n)%nat -> tidy (wstrlen m).
Proof.
  induction n as [|n IH]; intros m L; destruct m as [|a [|b m]]; cbn [length] in L; try exact I; try lia.
  cbn [wstrlen]. assert (tidy (wstrlen m)) by (apply IH; lia). tid.
Qed.
Lemma tidy_wstrlen m : tidy (wstrlen m).
Proof. now apply (tidy_wstrlen_n (length m)). Qed.
Lemma tidy_has_bom p : tidy (string_has_bom p).
Proof. unfold string_has_bom. tid. Qed.
#[export] Hint Resolve tidy_wstrlen tidy_has_bom : tidy.
Lemma tidy_ID3v2_strlen p : tidy (ID3v2_strlen p).
Proof. unfold ID3v2_strlen. tid. Qed.
#[export] Hint Resolve tidy_ID3v2_strlen : tidy.
Lemma tidy_strlent p : tidy (ID3v2_strlent p).
Proof. unfold ID3v2_strlent. tid. Qed.
Lemma tidy_btoi_loop n m r : tidy (btoi_loop n m r).
Proof. revert m r. induction n as [|n IH]; intros m r; cbn [btoi_loop]; tid. Qed.
Lemma tidy_encode_loop n : forall v m o, tidy (syncint_encode_loop n v m o).
Proof. induction n as [|n IH]; intros v m o; cbn [syncint_encode_loop]; tid. Qed.
#[export] Hint Resolve tidy_strlent tidy_btoi_loop tidy_encode_loop : tidy.
Lemma tidy_btoi m s : tidy (btoi m s).
Proof. apply tidy_btoi_loop. Qed.
Lemma tidy_encode v : tidy (syncint_encode v).
Proof. apply tidy_encode_loop. Qed.
#[export] Hint Resolve tidy_btoi tidy_encode : tidy.

Lemma tidy_new n : tidy (CharStream_new n).
Proof. unfold CharStream_new. tid. Qed.
Lemma tidy_from_buffer p n : tidy (CharStream_from_buffer p n).
Proof. unfold CharStream_from_buffer. tid. Qed.
Lemma tidy_write cs d n : tidy (CharStream_write cs d n).
Proof. unfold CharStream_write. tid. Qed.
Lemma tidy_read cs n : tidy (CharStream_read cs n).
Proof. unfold CharStream_read. tid. Qed.
#[export] Hint Resolve tidy_new tidy_from_buffer tidy_write tidy_read : tidy.
Lemma tidy_read_into cs n : tidy (read_into cs n).
Proof. unfold read_into. tid. Qed.
Lemma tidy_getc cs : tidy (CharStream_getc cs).
Proof. unfold CharStream_getc. tid. Qed.
Lemma tidy_slice cs n : tidy (CharStream_slice cs n).
Proof. unfold CharStream_slice. tid. Qed.
Lemma tidy_seek cs n w : tidy (CharStream_seek cs n w).
Proof. unfold CharStream_seek. tid. Qed.
Lemma tidy_deref {A} (p : option A) : tidy (deref p).
Proof. unfold deref. tid. Qed.
Lemma tidy_vla n : tidy (vla n).
Proof. unfold vla. tid. Qed.
Lemma tidy_id0 h c : tidy (id0_is h c).
Proof. unfold id0_is. tid. Qed.
#[export] Hint Resolve tidy_read_into tidy_getc tidy_slice tidy_seek tidy_deref tidy_vla tidy_id0 : tidy.

Lemma tidy_fh_new i f s : tidy (FrameHeader_new i f s).
Proof. unfold FrameHeader_new. tid. Qed.
#[export] Hint Resolve tidy_fh_new : tidy.
Lemma tidy_fh_parse cs v : tidy (FrameHeader_parse cs v).
Proof. unfold FrameHeader_parse. tid. Qed.
Lemma tidy_th_parse cs : tidy (TagHeader_parse cs).
Proof. unfold TagHeader_parse. tid. Qed.
Lemma tidy_text_new i f t : tidy (TextFrame_new i f t).
Proof. unfold TextFrame_new, TextFrameData_new. tid. Qed.
Lemma tidy_comment_new f l s c : tidy (CommentFrame_new f l s c).
Proof. unfold CommentFrame_new, CommentFrameData_new. tid. Qed.
Lemma tidy_apic_new f d t m s p : tidy (ApicFrame_new f d t m s p).
Proof. unfold ApicFrame_new, ApicFrameData_new. tid. Qed.
#[export] Hint Resolve tidy_fh_parse tidy_th_parse tidy_text_new tidy_comment_new tidy_apic_new : tidy.
Lemma tidy_text_parse cs v : tidy (TextFrame_parse cs v).
Proof. unfold TextFrame_parse. tid. Qed.
Lemma tidy_comment_parse cs v : tidy (CommentFrame_parse cs v).
Proof. unfold CommentFrame_parse. tid. Qed.
Lemma tidy_apic_parse cs v : tidy (ApicFrame_parse cs v).
Proof. unfold ApicFrame_parse. tid. Qed.
#[export] Hint Resolve tidy_text_parse tidy_comment_parse tidy_apic_parse : tidy.
Lemma tidy_frame_parse cs v : tidy (Frame_parse cs v).
Proof. unfold Frame_parse, FrameHeader_isTextFrame, FrameHeader_isCommentFrame, FrameHeader_isApicFrame. tid. Qed.
#[export] Hint Resolve tidy_frame_parse : tidy.

Lemma tidy_add l f : tidy (FrameList_add_frame l f).
Proof. unfold FrameList_add_frame. tid. Qed.
Lemma tidy_id f i : tidy (id_matches f i).
Proof. unfold id_matches. tid. Qed.
#[export] Hint Resolve tidy_add tidy_id : tidy.
Lemma tidy_parse_loop fuel : forall s v cs l fr, tidy (parse_loop fuel s v cs l fr).
Proof. induction fuel as [|fuel IH]; intros s v cs l fr; cbn [parse_loop]; tid. Qed.
#[export] Hint Resolve tidy_parse_loop : tidy.
Lemma tidy_tag_parse cs : tidy (Tag_parse cs).
Proof. unfold Tag_parse. tid. Qed.
#[export] Hint Resolve tidy_tag_parse : tidy.
Lemma tidy_header_buffer p : tidy (ID3v2_read_tag_header_from_buffer p).
Proof. unfold ID3v2_read_tag_header_from_buffer. tid. Qed.
Lemma tidy_read_buffer p n : tidy (ID3v2_read_tag_from_buffer p n).
Proof. unfold ID3v2_read_tag_from_buffer. tid. Qed.
#[export] Hint Resolve tidy_header_buffer tidy_read_buffer : tidy.
Lemma tidy_read_header f : tidy (ID3v2_read_tag_header f).
Proof. unfold ID3v2_read_tag_header. tid. Qed.
#[export] Hint Resolve tidy_read_header : tidy.
Lemma tidy_read_tag f : tidy (ID3v2_read_tag f).
Proof. unfold ID3v2_read_tag. tid. Qed.
Lemma tidy_delete_tag f : tidy (ID3v2_delete_tag_states f).
Proof. unfold ID3v2_delete_tag_states. tid. Qed.
#[export] Hint Resolve tidy_read_tag tidy_delete_tag : tidy.

Lemma tidy_get l i : tidy (FrameList_get_frame_by_id l i).
Proof. induction l as [|n l IH]; cbn [FrameList_get_frame_by_id]; tid. Qed.
Lemma tidy_gets l i : forall s, tidy (get_frames_loop l i s).
Proof. induction l as [|n l IH]; intros s; cbn [get_frames_loop]; tid. Qed.
Lemma tidy_remove l i : tidy (FrameList_remove_frame_by_id l i).
Proof. induction l as [|n l IH]; cbn [FrameList_remove_frame_by_id]; tid. Qed.
#[export] Hint Resolve tidy_get tidy_gets tidy_remove : tidy.
Lemma tidy_get_frame t i : tidy (ID3v2_Tag_get_frame t i).
Proof. unfold ID3v2_Tag_get_frame. tid. Qed.
Lemma tidy_get_frames t i : tidy (ID3v2_Tag_get_frames t i).
Proof. unfold ID3v2_Tag_get_frames, FrameList_get_frames_by_id. tid. Qed.
Lemma tidy_install t e f : tidy (install_frame t e f).
Proof. unfold install_frame. tid. Qed.
#[export] Hint Resolve tidy_get_frame tidy_get_frames tidy_install : tidy.
Lemma tidy_set_text t i : tidy (ID3v2_Tag_set_text_frame t i).
Proof. unfold ID3v2_Tag_set_text_frame. tid. Qed.
Lemma tidy_set_comment t i : tidy (ID3v2_Tag_set_comment_frame t i).
Proof. unfold ID3v2_Tag_set_comment_frame, ID3v2_Tag_get_comment_frame. tid. Qed.
Lemma tidy_add_comment t i : tidy (ID3v2_Tag_add_comment_frame t i).
Proof. unfold ID3v2_Tag_add_comment_frame, append_frame. tid. Qed.
Lemma tidy_set_apic t i : tidy (ID3v2_Tag_set_apic_frame t i).
Proof. unfold ID3v2_Tag_set_apic_frame, ID3v2_Tag_get_album_cover_frame. tid. Qed.
Lemma tidy_add_apic t i : tidy (ID3v2_Tag_add_apic_frame t i).
Proof. unfold ID3v2_Tag_add_apic_frame, append_frame. tid. Qed.
Lemma tidy_delete t i : tidy (ID3v2_Tag_delete_frame t i).
Proof. unfold ID3v2_Tag_delete_frame. tid. Qed.
Lemma tidy_delete_comment t i : tidy (ID3v2_Tag_delete_comment_frame t i).
Proof. unfold ID3v2_Tag_delete_comment_frame, ID3v2_Tag_get_comment_frames. tid. Qed.
Lemma tidy_delete_apic t i : tidy (ID3v2_Tag_delete_apic_frame t i).
Proof. unfold ID3v2_Tag_delete_apic_frame, ID3v2_Tag_get_apic_frames. tid. Qed.
#[export] Hint Resolve tidy_set_text tidy_set_comment tidy_add_comment tidy_set_apic tidy_add_apic tidy_delete
  tidy_delete_comment tidy_delete_apic : tidy.
Lemma tidy_call t c : tidy (run_call t c).
Proof.
  destruct c; cbn [run_call]; auto with tidy;
    first [apply tidy_set_text|apply tidy_set_comment|apply tidy_set_apic|apply tidy_delete].
Qed.

Lemma tidy_fh_write h : tidy (FrameHeader_to_char_stream h).
Proof. unfold FrameHeader_to_char_stream. tid. Qed.
#[export] Hint Resolve tidy_call tidy_fh_write : tidy.
Lemma tidy_start h : tidy (start_frame_stream h).
Proof. unfold start_frame_stream. tid. Qed.
#[export] Hint Resolve tidy_start : tidy.
Lemma tidy_text_write h d : tidy (TextFrame_to_char_stream h d).
Proof. unfold TextFrame_to_char_stream. tid. Qed.
Lemma tidy_comment_write h d : tidy (CommentFrame_to_char_stream h d).
Proof. unfold CommentFrame_to_char_stream. tid. Qed.
Lemma tidy_apic_write h d : tidy (ApicFrame_to_char_stream h d).
Proof. unfold ApicFrame_to_char_stream. tid. Qed.
#[export] Hint Resolve tidy_text_write tidy_comment_write tidy_apic_write : tidy.
Lemma tidy_frame_write f : match f with Some f => kind_ok f | None => True end -> tidy (Frame_to_char_stream f).
Proof.
  destruct f as [f|]; [|intros; exact I]. intros (c & r & E & D). unfold Frame_to_char_stream.
  unfold FrameHeader_isTextFrame, FrameHeader_isCommentFrame, FrameHeader_isApicFrame, id0_is. rewrite E. cbn [bind].
  destruct (f_data f); try (destruct D as (D1 & D2 & D3); apply beq_false in D1, D2, D3; rewrite D1, D2, D3); try subst c; cbn; tid.
Qed.
Lemma tidy_write_frames l : kinds_ok l -> forall cs, tidy (write_frames cs l).
Proof.
  induction 1 as [|n l K _ IH]; intros cs; cbn [write_frames]; [exact I|].
  apply tidy_bind; [apply tidy_frame_write; destruct (n_frame n); [exact K|exact I]|]. intros. tid.
Qed.
Lemma tidy_tag_write t : kinds_ok (t_frames t) -> tidy (Tag_to_char_stream t).
Proof. intros K. unfold Tag_to_char_stream. tid. now apply tidy_write_frames. Qed.
Lemma tidy_fwrite m : tidy (fwrite_bytes m).
Proof. induction m as [|x m IH]; cbn [fwrite_bytes]; tid. Qed.
#[export] Hint Resolve tidy_fwrite : tidy.
Lemma tidy_write_tag f t : kinds_ok (t_frames t) -> tidy (ID3v2_write_tag_states f (Some t)).
Proof.
  intros K. unfold ID3v2_write_tag_states.
  repeat (apply tidy_bind; [first [apply tidy_tag_write; exact K|tid]|intros]). tid.
Qed.
