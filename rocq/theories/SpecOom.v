(** What to expect of a call while memory may be refused. *)
From Verif Require Import Oom.

(** Every request was granted. *)
Definition granted (l : log) : bool := forallb snd l.

(** A request of this kind was refused. *)
Definition refused (p : request -> bool) (l : log) : bool :=
  existsb (fun q => negb (snd q) && p (fst q)) l.

Definition is_tag_header (r : request) : bool := match r with RTagHeader => true | _ => false end.
Definition is_node (r : request) : bool := match r with RNode => true | _ => false end.
Definition is_raw (r : request) : bool := match r with RRaw _ => true | _ => false end.
Definition is_file (r : request) : bool := match r with RFile _ => true | _ => false end.
Definition is_tag (r : request) : bool := match r with RTag => true | _ => false end.
Definition is_compat_node (r : request) : bool := match r with RCompatNode => true | _ => false end.

(** Only requests of this kind were refused. *)
Definition refused_only (p : request -> bool) (l : log) : bool := negb (refused (fun r => negb (p r)) l).

Definition undefined {A} (o : outcome A) : Prop := exists u, o = Ub u.

(** With any allocator, after any history: the call comes to [o] when every
    request it makes is granted, and otherwise what it comes to satisfies [Q],
    given the requests it has made. *)
Definition answers {A} (m : oom A) (o : outcome A) (Q : log -> outcome A -> Prop) : Prop :=
  forall M l, exists new, snd (m M l) = new ++ l
    /\ (granted new = true -> fst (m M l) = o)
    /\ (granted new = false -> Q new (fst (m M l))).

(** The same without an expectation. *)
Definition ends_in {A} (m : oom A) (Q : log -> outcome A -> Prop) : Prop :=
  forall M l, exists new, snd (m M l) = new ++ l /\ Q new (fst (m M l)).

(** One refused request and the behaviour is undefined. *)
Definition needs_all {A} (m : oom A) (o : outcome A) : Prop :=
  answers m o (fun _ r => undefined r).

(** The frame [f], or [f] without the pointer to its data, which is an unknown
    frame none of whose bytes were there. *)
Definition bereft (f f' : frame) : Prop :=
  f' = f
  \/ exists h, 0 < fh_size h
       /\ f = mkFrame h (DRaw (repeat None (Z.to_nat (fh_size h)))) /\ f' = mkFrame h (DRaw []).

Definition bereft_node (n n' : node) : Prop :=
  n_start n' = n_start n /\
  match n_frame n, n_frame n' with
  | Some p, Some p' => fp_addr p' = fp_addr p /\ bereft (fp_frame p) (fp_frame p')
  | None, None => True
  | _, _ => False
  end.

(** A frame of some size in a list, without the pointer to its data. *)
Definition lacking (n : node) : Prop :=
  match n_frame n with
  | Some p => 0 < fh_size (f_hdr (fp_frame p)) /\ f_data (fp_frame p) = DRaw []
  | None => False
  end.

(** The tag [t], with at least one frame that lacks its data. *)
Definition starved (t t' : Tag) : Prop :=
  t_header t' = t_header t /\ t_padding t' = t_padding t /\ t_fresh t' = t_fresh t
  /\ Forall2 bereft_node (t_frames t) (t_frames t') /\ Exists lacking (t_frames t').

(** A tag without frames. *)
Definition frameless (t : Tag) : bool :=
  match t_frames t with
  | [n] => match n_frame n with None => negb (n_start n) | Some _ => false end
  | _ => false
  end.

(** The same tag with a NULL pointer in place of its list of frames. *)
Definition unlisted (t : Tag) : Tag := mkTag (t_header t) [] (t_padding t) (t_fresh t).

(** Reading a header: [o] when the header was refused, which is then all that
    was. *)
Definition header_or_undefined {A} (o : outcome A) (new : log) (r : outcome A) : Prop :=
  if refused is_tag_header new then refused_only is_tag_header new = true /\ r = o else undefined r.

(** What comes of reading a tag, its header not refused, that is otherwise [o].
    A tag without frames has no list when only its list was refused.  Unless
    every frame is known to have bytes after its header ([s]), frames that have
    none may lose their data. *)
Definition tag_answer (s : bool) (o : outcome (option Tag)) (new : log) (r : outcome (option Tag)) : Prop :=
  match o with
  | Ok (Some t) =>
      if frameless t && refused_only is_node new then r = Ok (Some (unlisted t))
      else undefined r
           \/ s = false /\ refused_only is_raw new = true /\ exists t', r = Ok (Some t') /\ starved t t'
  | _ => undefined r
  end.

(** What comes of reading a file. *)
Definition file_answer (o : outcome (option Tag)) (new : log) (r : outcome (option Tag)) : Prop :=
  if refused is_tag_header new || refused is_file new then r = Ok None else tag_answer true o new r.

(** The list of frames of a new tag. *)
Definition tag_missing (new : log) : flist := if refused is_node new then [] else FrameList_new.

(** The calls that delete a frame by its index among its kind. *)
Definition by_index (c : call) : bool := match c with DeleteCommentFrame _ | DeleteApicFrame _ => true | _ => false end.

(** The list that such a call looks through. *)
Definition listing (t : Tag) (c : call) : outcome flist :=
  match c with DeleteApicFrame _ => ID3v2_Tag_get_apic_frames (Some t) | _ => ID3v2_Tag_get_comment_frames (Some t) end.

(** The bytes [old] after the file that a call left. *)
Definition with_old {A} (old : list byte) (r : outcome (file * A)) : outcome (file * A) :=
  let* (f, x) := r in Ok (option_map (fun b => b ++ old) f, x).

(** ** Version 1 *)

(** The header of a tag of version 1 that goes with a header. *)
Definition compat_header (h : TagHeader) : cheader :=
  mkCH (cells (th_identifier h)) (Some (th_major h)) (Some (th_minor h)) (Some (th_flags h))
       (Some (to_i32 (th_tag_size h))) (Some (to_i32 (th_ext_size h))).

(** Requests for lists, not for what is in them. *)
Definition lists (r : request) : bool := is_node r || is_compat_node r.

(** What comes of loading: a tag without frames can be loaded after all when its
    list was refused. *)
Definition load_answer (buffer : cptr) (n : Z) (new : log) (r : outcome ctag) : Prop :=
  match ID3v2_read_tag_from_buffer buffer n with
  | Ok (Some t) =>
      if frameless t && refused is_node new && refused_only lists new then
        exists raw, memcpy_from buffer n = Ok raw
          /\ r = Ok (mkCTag (Some raw) (compat_header (t_header t))
                            (if refused is_compat_node new then [] else new_frame_list) (unlisted t))
      else undefined r
  | _ => undefined r
  end.

Definition load_file_answer (f : file) (new : log) (r : outcome ctag) : Prop :=
  match f, ID3v2_read_tag_header f with
  | Some content, Ok (Some h) => load_answer (Some (fread_into content (declared_length h))) (declared_length h) new r
  | _, _ => undefined r
  end.

(** The list of frames of a new tag of version 1. *)
Definition compat_list (new : log) : clist := if refused is_compat_node new then [] else new_frame_list.

Definition is_compat_part (r : request) : bool :=
  match r with RCompatTag | RCompatHeader | RTag => true | _ => false end.

Definition empty_compat_header : cheader := mkCH (cells (lit "ID3")) None None None None None.
