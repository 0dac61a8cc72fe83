(** Specification of sessions: a tagged file is read, edited and written.
    Uses no function of the model of the code, except that [run_session] calls
    the API. *)
From Verif Require Import File Calls Spec SpecEdit SpecFile.

(** A file with a tag of the given frames and [pad] bytes of padding, before
    its sound. *)
Definition tagged_file (major minor flags : byte) (fs : list fspec) (pad : Z) (sound : list byte) : list byte :=
  header_image major minor flags (frames_size fs + pad)
  ++ images (size_field_of major) fs ++ zeros pad ++ sound.

(** The edits of [SpecEdit], on frames as they are described. *)
Definition titled (id : list byte) (f : fspec) : bool := same_id (frame_id f) id.

Definition edited_once (e : edit) (fs : list fspec) : list fspec :=
  match e with
  | Put f => put (titled (frame_id f)) f fs
  | Append f => fs ++ [f]
  | Remove id => remove_first (titled id) fs
  | RemoveNth id i => remove_nth (titled id) i fs
  end.

Fixpoint edited (es : list edit) (fs : list fspec) : list fspec :=
  match es with
  | [] => fs
  | e :: es => edited es (edited_once e fs)
  end.

(** Edits that ask for nothing the library gets wrong: every frame is well
    formed, no frame is deleted that is not there, the last of several frames
    is not deleted (C19, C24). *)
Definition victim_of (e : edit) (fs : list fspec) : option nat :=
  match e with
  | Put _ | Append _ => None
  | Remove id => first_pos (titled id) fs
  | RemoveNth id i => nth_pos (titled id) i fs
  end.

Definition proper (e : edit) (fs : list fspec) : bool :=
  edit_ok e
  && match e, victim_of e fs with
     | (Put _ | Append _), _ => true
     | Remove _, None => false
     | RemoveNth _ _, None => true
     | _, Some n => (S n <? length fs)%nat || (length fs =? 1)%nat
     end.

Fixpoint all_proper (es : list edit) (fs : list fspec) : bool :=
  match es with
  | [] => true
  | e :: es => proper e fs && all_proper es (edited_once e fs)
  end.

(** What an edit does to the room left in the tag: a new frame takes the ten
    bytes of its header, which the library forgets to count; deleting by number
    gives back the whole frame, which the library forgets to subtract. *)
Definition room_change (e : edit) (fs : list fspec) : Z :=
  match e with
  | Put f => if existsb (titled (frame_id f)) fs then 0 else -10
  | Append _ => -10
  | Remove _ => 0
  | RemoveNth _ _ =>
      match victim_of e fs with
      | Some n => match nth_error fs n with Some f => 10 + body_size f | None => 0 end
      | None => 0
      end
  end.

Fixpoint room_left (es : list edit) (fs : list fspec) (room : Z) : Z :=
  match es with
  | [] => room
  | e :: es => room_left es (edited_once e fs) (room + room_change e fs)
  end.

(** A session with a file, as a client writes it: read the tag, make the calls,
    write the tag. *)
Definition run_session (cs : list call) (f : file) : outcome file :=
  let* t := ID3v2_read_tag f in
  match t with
  | None => Ok f
  | Some t =>
      let* t := run_calls t cs in
      let* (f, _) := ID3v2_write_tag f (Some t) in
      Ok f
  end.

Fixpoint run_sessions (css : list (list call)) (f : file) : outcome file :=
  match css with
  | [] => Ok f
  | cs :: css => let* f := run_session cs f in run_sessions css f
  end.

(** Frames and padding after sessions, when each leaves room and frames that
    are kept. *)
Fixpoint after_sessions (major : byte) (ess : list (list edit)) (fs : list fspec) (pad : Z) : option (list fspec * Z) :=
  match ess with
  | [] => Some (fs, pad)
  | es :: ess =>
      let fs' := edited es fs in
      let room := room_left es fs pad in
      if all_proper es fs && (0 <=? room) && (frames_size fs' + room <? 2 ^ 28) && forallb (survives major) fs'
      then after_sessions major ess fs' room else None
  end.
