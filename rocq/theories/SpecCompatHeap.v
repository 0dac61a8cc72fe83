(** Specification of what the version 1 interface keeps in the heap. *)
From Verif Require Import Compat CompatHeap Spec SpecCompat SpecHeap.

(** A node, the addresses of its block, of the struct of its frame and of the
    data of that, and the address of the frame below that it points to. *)
Record cpnode := mkCP { c_addr : nat; c_self : nat; c_data : nat; c_points : nat; c_node : cnode }.

Definition c_frame (p : cpnode) : ptr :=
  match cn_frame (c_node p) with Some _ => Some (c_self p) | None => None end.

Definition c_frame_blocks (p : cpnode) : list (nat * block) :=
  match cn_frame (c_node p) with
  | Some f => [ (c_self p, BCFrame (cf_id f) (cf_size f) (cf_flags f) (Some (c_data p)) (Some (c_points p)));
                (c_data p, BBytes (cf_data f)) ]
  | None => []
  end.

Definition c_first (l : list cpnode) : ptr :=
  match l with [] => None | p :: _ => Some (c_addr p) end.

(** The nodes after the head: [last] is not assigned. *)
Fixpoint c_tail (head : nat) (l : list cpnode) : list (nat * block) :=
  match l with
  | [] => []
  | p :: rest =>
      (c_addr p, BCNode (c_frame p) (if cn_start (c_node p) then Some head else None) None (c_first rest))
      :: c_tail head rest
  end.

(** The nodes of a list; the head points to the last one. *)
Definition c_nodes (l : list cpnode) : list (nat * block) :=
  match l with
  | [] => []
  | p :: rest =>
      (c_addr p, if cn_start (c_node p)
                 then BCNode (c_frame p) (Some (c_addr p)) (Some (Some (c_addr (last rest p)))) (c_first rest)
                 else BCNode (c_frame p) None None (c_first rest))
      :: c_tail (c_addr p) rest
  end.

(** All blocks of the version 1 struct at [a] but for those of the tag below,
    which is at [ia]. *)
Definition compat_blocks (a ah ar ia : nat) (c : ctag) (l : list cpnode) : list (nat * block) :=
  (a, BCTag (match ct_raw c with Some _ => Some (Some ar) | None => None end) (Some ah) (c_first l) (Some ia))
  :: (ah, BCHeader (ct_header c))
  :: match ct_raw c with Some m => [(ar, BBytes m)] | None => [] end
  ++ c_nodes l ++ flat_map c_frame_blocks l.

(** The version 1 node shows the frame of the node of the tag below: it points
    to it, and has its id. *)
Definition linked (q : pnode) (p : cpnode) : Prop :=
  match n_frame (p_node q), cn_frame (c_node p) with
  | None, None => True
  | Some e, Some f =>
      cf_frame f = fp_addr e /\ c_points p = l_self (p_lay q)
      /\ cf_id f = firstn 4 (fh_id (f_hdr (fp_frame e))) /\ length (cf_id f) = 4%nat
  | _, _ => False
  end.

(** The version 1 tag [c] is at [a], and [rest] is all else that is allocated. *)
Definition ctag_laid (h : heap) (a : nat) (c : ctag) (pl : list pnode) (cl : list cpnode) (rest : list (nat * block)) : Prop :=
  exists ia ah ar,
    tag_laid h ia (ct_tag c) pl (compat_blocks a ah ar ia c cl ++ rest)
    /\ ct_frames c = map c_node cl /\ cl <> []
    /\ Forall2 linked pl cl /\ kinds_ok (t_frames (ct_tag c)).

Definition ctag_at (h : heap) (a : nat) (c : ctag) (rest : list (nat * block)) : Prop :=
  exists pl cl, ctag_laid h a c pl cl rest.

(** A version 1 tag was loaded; two blocks are lost for each frame of unknown
    kind. *)
Definition v1_loaded (m : list (nat * block)) (c : ctag) (r : nat * heap) : Prop :=
  exists lost, ctag_at (snd r) (fst r) c (lost ++ m) /\ length lost = (2 * list_leak (t_frames (ct_tag c)))%nat.

(** Pointer [p] points to the struct of the frame [f] of the list. *)
Definition c_pointer (cl : list cpnode) (f : option cframe) (p : ptr) : Prop :=
  match f with
  | None => p = None
  | Some f => exists q, In q cl /\ cn_frame (c_node q) = Some f /\ p = Some (c_self q)
  end.

(** The id of the frame of the node begins with these characters, or not. *)
Definition c_begins (s : list byte) (b : bool) (q : cpnode) : Prop :=
  exists g, cn_frame (c_node q) = Some g /\ begins (cf_id g) s = b.

(** A setter of the frame [s] was run: the first node with that id has another
    frame, whose old struct and data are freed; all the other nodes are as they
    were, nothing is lost, and [rest] is left alone. *)
Definition v1_set (s : list byte) (a : nat) (cl : list cpnode) (rest : list (nat * block)) (c c' : ctag) (h : heap) : Prop :=
  exists pl cl' u q w x, ctag_laid h a c' pl cl' rest
    /\ cl = u ++ q :: w /\ cl' = u ++ x :: w /\ c_begins s true q /\ c_begins s true x /\ Forall (c_begins s false) u
    /\ c_addr x = c_addr q
    /\ ~ In (c_self q) (map fst (live h)) /\ ~ In (c_data q) (map fst (live h))
    /\ list_leak (t_frames (ct_tag c')) = list_leak (t_frames (ct_tag c)).

(** The id of the frame that a setter sets. *)
Definition ccall_id (c : ccall) : list byte :=
  lit match c with
      | CTitle _ _ => "TIT2" | CArtist _ _ => "TPE1" | CAlbum _ _ => "TALB" | CAlbumArtist _ _ => "TPE2"
      | CGenre _ _ => "TCON" | CTrack _ _ => "TRCK" | CYear _ _ => "TYER" | CComment _ _ => "COMM"
      | CDiscNumber _ _ => "TPOS" | CComposer _ _ => "TCOM" | CCoverBytes _ _ _ | CCoverFile _ _ => "APIC"
      end.

(** The tag was saved: the file that is left is the same, the tag is where it
    was with all its parts, and [2 * k] blocks are lost. *)
Definition v1_saved (a : nat) (pl : list pnode) (cl : list cpnode) (f : file) (k : nat) (rest : list (nat * block))
  (v : file * ctag) (r : list file * heap) : Prop :=
  fst v = last (fst r) f /\ exists lost, ctag_laid (snd r) a (snd v) pl cl (lost ++ rest) /\ length lost = (2 * k)%nat.

(** The tag was freed: what is left is [rest] and the structs of the frames of
    unknown kinds; everything else is gone. *)
Definition v1_freed (h : heap) (k : nat) (rest : list (nat * block)) (h' : heap) : Prop :=
  exists lost, heap_is h' (lost ++ rest) /\ length lost = k
    /\ forall x b, load (Some x) h = Ok b -> ~ In x (map fst rest) ->
         match b with BFrame _ _ => True | _ => load (Some x) h' = Ub UseAfterFree end.

Definition saves (ops : list v1_op) : nat :=
  length (filter (fun o => match o with OpSave _ => true | OpSet _ => false end) ops).

(** The tag was used: the files are the same, the tag is where it was, and each
    time it was saved two blocks were lost for each frame of unknown kind, of
    which there are as many as before. *)
Definition v1_used (a : nat) (rest : list (nat * block)) (ops : list v1_op) (c : ctag) (v : list file * ctag) (r : list file * heap) : Prop :=
  fst v = fst r
  /\ exists lost, ctag_at (snd r) a (snd v) (lost ++ rest)
     /\ length lost = (2 * saves ops * list_leak (t_frames (ct_tag c)))%nat
     /\ list_leak (t_frames (ct_tag (snd v))) = list_leak (t_frames (ct_tag c)).

(** The tag was loaded, used and freed: the files are the same, and what is
    left but for what was there before is three blocks for each frame of
    unknown kind and two more each time the tag was saved. *)
Definition v1_ended (m : list (nat * block)) (ops : list v1_op) (v : list file * ctag) (r : list file * heap) : Prop :=
  fst v = fst r
  /\ exists lost, heap_is (snd r) (lost ++ m) /\ length lost = ((3 + 2 * saves ops) * list_leak (t_frames (ct_tag (snd v))))%nat.

(** The ids that the getters look for. *)
Definition v1_ids : list string :=
  ["TIT2"; "TPE1"; "TALB"; "TPE2"; "TCON"; "TRCK"; "TYER"; "COMM"; "TPOS"; "TCOM"; "APIC"]%string.

(** ** Contents *)

(** [x] is the address of a block of the tag. *)
Definition of_tag (h : heap) (rest : list (nat * block)) (x : nat) (b : block) : Prop :=
  load (Some x) h = Ok b /\ ~ In x (map fst rest).

(** The contents of a text frame are two blocks of their own. *)
Definition text_copied (a : nat) (c : ctag) (pl : list pnode) (cl : list cpnode) (rest : list (nat * block))
  (v : text_content) (r : nat * heap) : Prop :=
  exists d, ctag_laid (snd r) a c pl cl
    ((fst r, BTextContent (tc_size v) (tc_encoding v) (Some d)) :: (d, BBytes (tc_data v)) :: rest).

(** Those of a comment are two structs whose strings are those of the tag. *)
Definition comment_shared (a : nat) (c : ctag) (pl : list pnode) (cl : list cpnode) (rest : list (nat * block))
  (v : comment_content) (r : nat * heap) : Prop :=
  exists la sh t d, let rest := (fst r, BCommentContent (Some la) (Some sh) (Some t))
                       :: (t, BTextContent (tc_size (cc_text v)) (tc_encoding (cc_text v)) (Some d)) :: rest in
    ctag_laid (snd r) a c pl cl rest
    /\ (exists s e x y, of_tag (snd r) rest la (BComment s e (cc_language v) x y))
    /\ of_tag (snd r) rest sh (BBytes (cc_short v)) /\ of_tag (snd r) rest d (BBytes (tc_data (cc_text v))).

(** Those of a picture are one struct. *)
Definition apic_shared (a : nat) (c : ctag) (pl : list pnode) (cl : list cpnode) (rest : list (nat * block))
  (v : apic_content) (r : nat * heap) : Prop :=
  exists m d b, let rest := (fst r, BApicContent (ac_encoding v) (Some m) (ac_type v) (Some d) (ac_size v) (Some b)) :: rest in
    ctag_laid (snd r) a c pl cl rest
    /\ of_tag (snd r) rest m (BBytes (ac_mime v)) /\ of_tag (snd r) rest d (BBytes (ac_desc v))
    /\ of_tag (snd r) rest b (BBytes (ac_data v)).

(** After the tag was freed: the text is still there, the strings of comments
    and pictures are not. *)
Definition text_stays (h : heap) (p : nat) (v : text_content) : Prop :=
  exists d, load (Some p) h = Ok (BTextContent (tc_size v) (tc_encoding v) (Some d)) /\ load (Some d) h = Ok (BBytes (tc_data v)).

Definition comment_dangles (h : heap) (p : nat) : Prop :=
  exists la sh t s e d, load (Some p) h = Ok (BCommentContent (Some la) (Some sh) (Some t))
    /\ load (Some t) h = Ok (BTextContent s e (Some d))
    /\ load (Some la) h = Ub UseAfterFree /\ load (Some sh) h = Ub UseAfterFree /\ load (Some d) h = Ub UseAfterFree.

Definition apic_dangles (h : heap) (p : nat) : Prop :=
  exists e m t d s b, load (Some p) h = Ok (BApicContent e (Some m) t (Some d) s (Some b))
    /\ load (Some m) h = Ub UseAfterFree /\ load (Some d) h = Ub UseAfterFree /\ load (Some b) h = Ub UseAfterFree.
