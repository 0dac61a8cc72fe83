(** How many bytes a call asks for, from its result. *)
From Verif Require Import Spec SpecEdit SpecFile Oom SpecOom.

Section Sizes.
  (** The sizes of the structs.  The frames are structs of two pointers of whatever
      kind they are; the three structs with the contents of a frame differ. *)
  Context (sizeof : request -> Z).

  Definition bytes (r : request) : Z :=
    match r with
    | RUnicode n | RStreamBytes n | RString n | RPicture n | RRaw n | RFile n
    | RCompatData n | RCompatRaw n | RCompatFile n | RContentData n | RCover n => n
    | RInt => 4
    | _ => sizeof r
    end.

  (** What was handed out. *)
  Definition total (l : log) : Z := fold_right (fun (q : request * bool) n => (if snd q then bytes (fst q) else 0) + n) 0 l.

  (** An allocator that hands out [limit] bytes in all, and at least as many. *)
  Definition limited (limit : Z) : allocator := fun l r => total l + bytes r <=? limit.
  Definition supplies (limit : Z) (M : allocator) : Prop :=
    forall l r, total l + bytes r <= limit -> M l r = true.

  (** What a frame takes when it is read: three headers, two of which go to
      waste, or one. *)
  Definition data_bytes (d : fdata) : Z :=
    match d with
    | DText d => td_size d
    | DComment d => cd_size d + zlen (cd_short d)
    | DApic d => zlen (ad_mime d) + zlen (ad_desc d) + ad_picture_size d
    | DRaw m => zlen m
    end.
  Definition data_struct (d : fdata) : Z :=
    match d with
    | DText _ => sizeof RTextData
    | DComment _ => sizeof RCommentData
    | DApic _ => sizeof RApicData
    | DRaw _ => 0
    end.
  Definition frame_bytes (f : frame) : Z :=
    sizeof RFrame + data_struct (f_data f) + data_bytes (f_data f)
    + match f_data f with DRaw _ => sizeof RFrameHeader | _ => 3 * sizeof RFrameHeader end.

  (** A list of frames with its nodes. *)
  Definition list_bytes (l : flist) : Z :=
    fold_right (fun (n : node) k => sizeof RNode + match n_frame n with Some p => frame_bytes (fp_frame p) | None => 0 end + k) 0 l.

  (** A stream of [n] bytes. *)
  Definition stream_room (n : Z) : Z := sizeof RStream + n.

  (** A tag that is read from [n] bytes in memory. *)
  Definition tag_bytes_read (n : Z) (t : Tag) : Z :=
    stream_room n + sizeof RTagHeader + sizeof RTag + list_bytes (t_frames t).

  (** A tag that is read from a file: its header first, then the bytes that the
      header declares. *)
  Definition file_bytes_read (t : Tag) : Z :=
    let n := th_tag_size (t_header t) + 10 in
    stream_room 10 + sizeof RTagHeader + n + tag_bytes_read n t.

  (** A frame that is turned into bytes. *)
  Definition frame_bytes_written (f : frame) : Z :=
    stream_room 10 + 4 + stream_room (fh_size (f_hdr f) + 10).

  Definition list_bytes_written (l : flist) : Z :=
    fold_right (fun (n : node) k => match n_frame n with Some p => frame_bytes_written (fp_frame p) + k | None => 0 end) 0 l.

  (** Looking for the header of a tag. *)
  Definition header_bytes (h : option TagHeader) : Z := match h with Some _ => sizeof RTagHeader | None => 0 end.
  Definition look_bytes (content : list byte) (h : option TagHeader) : Z :=
    if zlen content <? 10 then 0 else stream_room 10 + header_bytes h.

  (** A tag that is written over a file in which this header was found. *)
  Definition write_bytes (content : list byte) (h : option TagHeader) (t : Tag) : Z :=
    look_bytes content h + stream_room (declared_length (t_header t)) + 4 + list_bytes_written (t_frames t).

  (** At most what the structs of one frame take, and those of a tag. *)
  Definition frame_structs : Z :=
    sizeof RNode + sizeof RFrame + Z.max (sizeof RTextData) (Z.max (sizeof RCommentData) (sizeof RApicData))
    + 3 * sizeof RFrameHeader.
  Definition tag_structs : Z := 2 * sizeof RStream + 2 * sizeof RTagHeader + sizeof RTag.

  (** The contents of a frame that is made from strings. *)
  Definition strings_bytes (f : fspec) : Z :=
    match f with
    | FText _ _ t => sizeof RTextData + zlen (text_image t)
    | FComment _ _ d c => sizeof RCommentData + zlen (text_image d) + zlen (text_image c)
    | FPicture _ m _ d pic => sizeof RApicData + zlen (text_image m) + zlen (text_image d) + zlen pic
    | FOther _ _ body => zlen body
    end.

  (** A frame that the library has written and that is read again. *)
  Definition spec_bytes (f : fspec) : Z :=
    sizeof RNode + sizeof RFrame
    + match f with FOther _ _ _ => sizeof RFrameHeader | _ => 3 * sizeof RFrameHeader end
    + strings_bytes f.
  Definition specs_bytes (fs : list fspec) : Z :=
    match fs with [] => sizeof RNode | _ => fold_right (fun f n => spec_bytes f + n) 0 fs end.

  (** A frame that is made from strings. *)
  Definition made_bytes (f : fspec) : Z := sizeof RFrame + sizeof RFrameHeader + strings_bytes f.

  (** The node for one more frame: the first frame goes into the node that an
      empty list has. *)
  Definition node_for (fs : list frame) : Z := match fs with [] => 0 | _ => sizeof RNode end.

  (** The node that takes the place of the last one when that is removed. *)
  Definition last_node (pos : option nat) (fs : list frame) : Z :=
    match pos with Some k => if (S k =? length fs)%nat then sizeof RNode else 0 | None => 0 end.

  (** An edit. Those by index make a list of the frames of that name first; it has
      a node even if there are none, and the number 0 of an empty tag is that
      empty node. *)
  Definition edit_bytes (e : edit) (fs : list frame) : Z :=
    match e with
    | Put f => made_bytes f + (if existsb (named (frame_id f)) fs then 0 else node_for fs)
    | Append f => made_bytes f + node_for fs
    | Remove _ => last_node (victim_pos e fs) fs
    | RemoveNth id i =>
        sizeof RNode * Z.max 1 (zlen (filter (named id) fs)) + last_node (victim_pos e fs) fs
        + (if (zlen fs =? 0) && (i =? 0) then sizeof RNode else 0)
    end.

  (** If [n] bytes can be had, the call comes to [o], it gets all it asks for, and
      that is [n] bytes; if fewer can be had, one of its requests is refused. *)
  Definition takes {A} (m : oom A) (o : outcome A) (n : Z) : Prop :=
    (forall M, supplies n M -> fst (m M []) = o /\ granted (snd (m M [])) = true /\ total (snd (m M [])) = n)
    /\ forall limit, 0 <= limit < n -> granted (snd (m (limited limit) [])) = false.
End Sizes.

(** A file of 21 bytes with one frame of unknown kind that claims [m] bytes. *)
Definition claiming_raw (m : Z) : list byte :=
  lit "ID3" ++ [x03; x00; x00] ++ synchsafe32 11 ++ lit "PRIV" ++ be32 m ++ [x00; x00] ++ lit "A".
