(** Specification of what is in the heap: which blocks hold a tag. *)
From Coq Require Export Sorting.Permutation.
From Verif Require Import Heap Spec SpecEdit.

(** The same outcome, with related results. *)
Definition agrees {A B} (R : A -> B -> Prop) (o : outcome A) (o' : outcome B) : Prop :=
  match o with
  | Ok a => exists b, o' = Ok b /\ R a b
  | Ub u => o' = Ub u
  | Exit n => o' = Exit n
  | NoFuel => o' = NoFuel
  end.

(** The allocated blocks are exactly these. *)
Definition heap_is (h : heap) (m : list (nat * block)) : Prop :=
  Permutation (live h) m /\ NoDup (map fst m) /\ Forall (fun a => (a < next h)%nat) (map fst m).

(** Addresses of the blocks of a frame: struct, header, data, and the strings
    that the data points to (as many as the kind of the frame has). *)
Record lay := mkLay { l_self : nat; l_header : nat; l_data : nat; l_x : nat; l_y : nat; l_z : nat }.

Definition frame_blocks (l : lay) (f : frame) : list (nat * block) :=
  (l_self l, BFrame (Some (l_header l)) (Some (l_data l)))
  :: (l_header l, BFrameHeader (f_hdr f))
  :: match f_data f with
     | DText d =>
         [ (l_data l, BText (td_size d) (td_encoding d) (Some (l_x l))); (l_x l, BBytes (td_text d)) ]
     | DComment d =>
         [ (l_data l, BComment (cd_size d) (cd_encoding d) (cd_language d) (Some (l_x l)) (Some (l_y l)));
           (l_x l, BBytes (cd_short d)); (l_y l, BBytes (cd_comment d)) ]
     | DApic d =>
         [ (l_data l, BApic (ad_encoding d) (Some (l_x l)) (ad_type d) (Some (l_y l)) (Some (l_z l)) (ad_picture_size d));
           (l_x l, BBytes (ad_mime d)); (l_y l, BBytes (ad_desc d)); (l_z l, BBytes (ad_data d)) ]
     | DRaw m => [ (l_data l, BBytes m) ]
     end.

(** A node, the address of its block, and the addresses of its frame. *)
Record pnode := mkP { p_addr : nat; p_lay : lay; p_node : node }.

Definition p_frame (p : pnode) : ptr :=
  match n_frame (p_node p) with Some _ => Some (l_self (p_lay p)) | None => None end.

Definition p_frame_blocks (p : pnode) : list (nat * block) :=
  match n_frame (p_node p) with Some f => frame_blocks (p_lay p) (fp_frame f) | None => [] end.

Definition first_addr (l : list pnode) : ptr :=
  match l with [] => None | p :: _ => Some (p_addr p) end.

(** The blocks of the nodes of a list, linked to each other; all the start
    pointers that are set point to [head]. *)
Fixpoint node_blocks (head : nat) (l : list pnode) : list (nat * block) :=
  match l with
  | [] => []
  | p :: rest =>
      (p_addr p, BNode (p_frame p) (if n_start (p_node p) then Some head else None) (first_addr rest))
      :: node_blocks head rest
  end.

Definition all_frame_blocks (l : list pnode) : list (nat * block) := flat_map p_frame_blocks l.

(** All the blocks of a tag: struct at [a], header at [ah], nodes and frames. *)
Definition tag_blocks (a ah head : nat) (t : Tag) (l : list pnode) : list (nat * block) :=
  [ (a, BTag (Some ah) (Some head) (t_padding t)); (ah, BTagHeader (t_header t)) ]
  ++ node_blocks head l ++ all_frame_blocks l.

(** The addresses by which the value of a list identifies its frames. *)
Definition addresses (l : flist) : list nat :=
  flat_map (fun n => match n_frame n with Some p => [fp_addr p] | None => [] end) l.

(** A node without a frame is one as FrameList_new makes it. *)
Definition node_ok (n : node) : Prop := n_start n = match n_frame n with Some _ => true | None => false end.

(** The tag [t] is at address [a], with its nodes and frames as [l] says, and
    [rest] is all else that is allocated. *)
Definition tag_laid (h : heap) (a : nat) (t : Tag) (l : list pnode) (rest : list (nat * block)) : Prop :=
  exists ah head,
    heap_is h (tag_blocks a ah head t l ++ rest)
    /\ t_frames t = map p_node l /\ first_addr l = Some head
    /\ Forall node_ok (t_frames t) /\ NoDup (addresses (t_frames t)) /\ Forall (fun x => (x < t_fresh t)%nat) (addresses (t_frames t)).

Definition tag_at (h : heap) (a : nat) (t : Tag) (rest : list (nat * block)) : Prop :=
  exists l, tag_laid h a t l rest.

(** Pointer [p] points to the frame [f] of the tag, the one whose identity in
    the value of the tag is [x]. *)
Definition frame_in (h : heap) (a : nat) (t : Tag) (x p : nat) (f : frame) : Prop :=
  exists l rest q, tag_laid h a t l rest /\ In q l /\ n_frame (p_node q) = Some (x, f) /\ l_self (p_lay q) = p.

(** The kind of a frame is the one its id stands for. *)
Definition kind_ok (f : frame) : Prop :=
  exists c r, fh_id (f_hdr f) = Some c :: r /\
  match f_data f with
  | DText _ => c = "T"%byte
  | DComment _ => c = "C"%byte
  | DApic _ => c = "A"%byte
  | DRaw _ => c <> "T"%byte /\ c <> "C"%byte /\ c <> "A"%byte
  end.

Definition kinds_ok (l : flist) : Prop :=
  Forall (fun n => match n_frame n with Some p => kind_ok (fp_frame p) | None => True end) l.

(** A text frame is only set under an id that starts with T. *)
Definition call_kind (c : call) : Prop :=
  match c with
  | SetTextFrame i => exists r, ti_id i = Some (Some "T"%byte :: r)
  | _ => True
  end.

(** ** Leaks: how many blocks nobody frees *)

(** ID3v2_Frame_free leaves the struct of a frame of unknown kind. *)
Definition frame_leak (f : frame) : nat := match f_data f with DRaw _ => 1 | _ => 0 end.

(** Those frames of the list that are found by walking over it: up to the
    first node without a frame. *)
Fixpoint visible (l : flist) : list frame :=
  match l with
  | [] => []
  | n :: rest => match n_frame n with Some p => fp_frame p :: visible rest | None => [] end
  end.

Fixpoint begins (m : mem) (s : list byte) : bool :=
  match s, m with
  | [], _ => true
  | b :: s, Some c :: m => beq c b && begins m s
  | _ :: _, _ => false
  end.

(** The number of frames that a lookup of all frames with an id finds. *)
Definition count_named (id : string) (l : flist) : nat :=
  length (filter (fun f => begins (fh_id (f_hdr f)) (lit id)) (visible l)).

(** The functions that delete the n-th comment or picture make a list of all
    of them (one empty node if there are none), and only unlink it from the
    n-th node on: the nodes before it, or all if there is no n-th, are lost. *)
Definition sublist_leak (index : Z) (n : nat) : nat :=
  let n := Nat.max 1 n in
  if (0 <=? index) && (index <? Z.of_nat n) then Z.to_nat index else n.

Definition node_leak (c : call) (l : flist) : nat :=
  match c with
  | DeleteCommentFrame i => sublist_leak i (count_named "COMM" l)
  | DeleteApicFrame i => sublist_leak i (count_named "APIC" l)
  | _ => 0
  end.

(** ID3v2_Tag_delete_frame frees the frame; only those with an id that starts
    with one of these letters are freed wholly. *)
Definition struct_leak (c : call) : nat :=
  match c with
  | DeleteFrame (Some (Some x :: _)) => if beq x "T" || beq x "C" || beq x "A" then 0 else 1
  | _ => 0
  end.

(** What a sequence of calls loses, one call after the other. *)
Fixpoint node_leaks (t : Tag) (cs : list call) : nat :=
  match cs with
  | [] => 0
  | c :: cs => (node_leak c (t_frames t) + match run_call t c with Ok t => node_leaks t cs | _ => 0 end)%nat
  end.
Fixpoint struct_leaks (cs : list call) : nat :=
  match cs with
  | [] => 0
  | c :: cs => (struct_leak c + struct_leaks cs)%nat
  end.

(** The same, in terms of the edits that the calls stand for. *)
Fixpoint edit_leaks (es : list edit) (fs : list frame) : nat :=
  match es with
  | [] => 0
  | e :: es =>
      (match e with RemoveNth id i => sublist_leak i (length (filter (named id) fs)) | _ => 0 end
       + edit_leaks es (apply_edit e fs))%nat
  end.

(** ID3v2_Tag_free frees all frames of the list. *)
Definition list_leak (l : flist) : nat :=
  list_sum (map (fun n => match n_frame n with Some p => frame_leak (fp_frame p) | None => 0%nat end) l).

(** ** Pointers to the frames of a tag *)

(** The tag [t] is at address [a]; its frames in order, each with the pointer
    to its struct, are [ps]. *)
Definition pointers (h : heap) (a : nat) (t : Tag) (ps : list (nat * frame)) : Prop :=
  tag_has t (map snd ps) /\
  exists l rest, tag_laid h a t l rest /\
    flat_map (fun q => match n_frame (p_node q) with Some e => [(l_self (p_lay q), fp_frame e)] | None => [] end) l = ps.

(** The edit, on such a list. *)
Definition edit_pointers (e : edit) (new : nat) (ps : list (nat * frame)) : list (nat * frame) :=
  match e with
  | Put f => put (fun p => named (frame_id f) (snd p)) (new, frame_of f) ps
  | Append f => ps ++ [(new, frame_of f)]
  | Remove id => remove_first (fun p => named id (snd p)) ps
  | RemoveNth id i => remove_nth (fun p => named id (snd p)) i ps
  end.

(** The frame id that an edit is about. *)
Definition edit_id (e : edit) : list byte :=
  match e with Put f | Append f => frame_id f | Remove id | RemoveNth id _ => id end.
