(** Specification of lookups and edits: plain operations on a list of frames.
    Uses no function of the model of the code, except that [call] names the API
    functions and [getter_of] says which getter a setter is paired with. *)
From Verif Require Import File Calls Spec.

(** ** Frame ids *)

(** Ids are compared as C strings of at most four characters: up to the first
    zero byte (ids without zero bytes: all four characters). *)
Fixpoint id_key (l : list byte) : list byte :=
  match l with
  | [] => []
  | c :: l => if is_zero c then [] else c :: id_key l
  end.

Fixpoint bytes_eqb (a b : list byte) : bool :=
  match a, b with
  | [], [] => true
  | x :: a, y :: b => Byte.eqb x y && bytes_eqb a b
  | _, _ => false
  end.

Definition same_id (a b : list byte) : bool := bytes_eqb (id_key a) (id_key b).

(** The id in a frame's struct. *)
Definition id_bytes (f : frame) : list byte :=
  map (fun c => match c with Some b => b | None => x00 end) (fh_id (f_hdr f)).

Definition named (id : list byte) (f : frame) : bool := same_id (id_bytes f) id.

(** A frame whose id is four initialised bytes and whose size, with the
    header, is a non-negative int. *)
Definition sane (f : frame) : Prop :=
  (exists i, fh_id (f_hdr f) = cells i /\ length i = 4%nat) /\ 0 <= fh_size (f_hdr f) < 2 ^ 31 - 10.

(** ** Edits of a list *)

Section Lists.
  Context {A : Type} (p : A -> bool).

  (** Replace the first element that satisfies [p], or append. *)
  Fixpoint put (g : A) (l : list A) : list A :=
    match l with
    | [] => [g]
    | x :: l => if p x then g :: l else x :: put g l
    end.

  (** Remove the first element that satisfies [p]. *)
  Fixpoint remove_first (l : list A) : list A :=
    match l with
    | [] => []
    | x :: l => if p x then l else x :: remove_first l
    end.

  (** Remove the element number [i] (from 0) of those that satisfy [p]. *)
  Fixpoint remove_nth (i : Z) (l : list A) : list A :=
    match l with
    | [] => []
    | x :: l => if p x then if i =? 0 then l else x :: remove_nth (i - 1) l
                else x :: remove_nth i l
    end.

  (** Positions (from 0) of the elements the two functions remove. *)
  Fixpoint first_pos (l : list A) : option nat :=
    match l with
    | [] => None
    | x :: l => if p x then Some O else option_map S (first_pos l)
    end.
  Fixpoint nth_pos (i : Z) (l : list A) : option nat :=
    match l with
    | [] => None
    | x :: l => if p x then if i =? 0 then Some O else option_map S (nth_pos (i - 1) l)
                else option_map S (nth_pos i l)
    end.
End Lists.

Inductive edit :=
| Put (f : fspec)
| Append (f : fspec)
| Remove (id : list byte)
| RemoveNth (id : list byte) (index : Z).

Definition apply_edit (e : edit) (fs : list frame) : list frame :=
  match e with
  | Put f => put (named (frame_id f)) (frame_of f) fs
  | Append f => fs ++ [frame_of f]
  | Remove id => remove_first (named id) fs
  | RemoveNth id i => remove_nth (named id) i fs
  end.

(** What a call means, when its pointers point to well-formed strings. *)
Inductive means : call -> edit -> Prop :=
| MText id fl s i f t : points_to id i -> points_to fl f -> points_to s (text_image t) ->
    means (SetTextFrame (mkTextInput id fl s)) (Put (FText i f t))
| MArtist s t : points_to s (text_image t) -> means (SetArtist s) (Put (FText (lit "TPE1") [x00; x00] t))
| MAlbum s t : points_to s (text_image t) -> means (SetAlbum s) (Put (FText (lit "TALB") [x00; x00] t))
| MTitle s t : points_to s (text_image t) -> means (SetTitle s) (Put (FText (lit "TIT2") [x00; x00] t))
| MTrack s t : points_to s (text_image t) -> means (SetTrack s) (Put (FText (lit "TRCK") [x00; x00] t))
| MAlbumArtist s t : points_to s (text_image t) -> means (SetAlbumArtist s) (Put (FText (lit "TPE2") [x00; x00] t))
| MGenre s t : points_to s (text_image t) -> means (SetGenre s) (Put (FText (lit "TCON") [x00; x00] t))
| MYear s t : points_to s (text_image t) -> means (SetYear s) (Put (FText (lit "TYER") [x00; x00] t))
| MDiscNumber s t : points_to s (text_image t) -> means (SetDiscNumber s) (Put (FText (lit "TPOS") [x00; x00] t))
| MComposer s t : points_to s (text_image t) -> means (SetComposer s) (Put (FText (lit "TCOM") [x00; x00] t))
| MCommentFrame fl la sd co f l d c :
    points_to fl f -> points_to la l -> points_to sd (text_image d) -> points_to co (text_image c) ->
    means (SetCommentFrame (mkCommentInput fl la sd co)) (Put (FComment f l d c))
| MAddComment fl la sd co f l d c :
    points_to fl f -> points_to la l -> points_to sd (text_image d) -> points_to co (text_image c) ->
    means (AddCommentFrame (mkCommentInput fl la sd co)) (Append (FComment f l d c))
| MComment la co l c : points_to la l -> points_to co (text_image c) ->
    means (SetComment la co) (Put (FComment [x00; x00] l (Utf16 false []) c))
| MApicFrame fl mi de ty da f m d pic :
    points_to fl f -> points_to mi (text_image m) -> points_to de (text_image d) -> points_to da pic ->
    means (SetApicFrame (mkApicInput fl mi de ty (zlen pic) da)) (Put (FPicture f m ty d pic))
| MAddApic fl mi de ty da f m d pic :
    points_to fl f -> points_to mi (text_image m) -> points_to de (text_image d) -> points_to da pic ->
    means (AddApicFrame (mkApicInput fl mi de ty (zlen pic) da)) (Append (FPicture f m ty d pic))
| MAlbumCover mi da m pic : points_to mi (text_image m) -> points_to da pic ->
    means (SetAlbumCover mi (zlen pic) da) (Put (FPicture [x00; x00] m x03 (Utf16 false []) pic))
| MDelete id i : points_to id i -> length i = 4%nat -> means (DeleteFrame id) (Remove i)
| MDelArtist : means DeleteArtist (Remove (lit "TPE1"))
| MDelAlbum : means DeleteAlbum (Remove (lit "TALB"))
| MDelTitle : means DeleteTitle (Remove (lit "TIT2"))
| MDelTrack : means DeleteTrack (Remove (lit "TRCK"))
| MDelAlbumArtist : means DeleteAlbumArtist (Remove (lit "TPE2"))
| MDelGenre : means DeleteGenre (Remove (lit "TCON"))
| MDelYear : means DeleteYear (Remove (lit "TYER"))
| MDelDiscNumber : means DeleteDiscNumber (Remove (lit "TPOS"))
| MDelComposer : means DeleteComposer (Remove (lit "TCOM"))
| MDelComment : means DeleteComment (Remove (lit "COMM"))
| MDelAlbumCover : means DeleteAlbumCover (Remove (lit "APIC"))
| MDelCommentFrame i : means (DeleteCommentFrame i) (RemoveNth (lit "COMM") i)
| MDelApicFrame i : means (DeleteApicFrame i) (RemoveNth (lit "APIC") i).

(** The frame in a Put or Append is well formed. *)
Definition edit_ok (e : edit) : bool :=
  match e with
  | Put f | Append f => frame_ok f
  | Remove _ | RemoveNth _ _ => true
  end.

(** Position of the frame a delete removes. *)
Definition victim_pos (e : edit) (fs : list frame) : option nat :=
  match e with
  | Put _ | Append _ => None
  | Remove id => first_pos (named id) fs
  | RemoveNth id i => nth_pos (named id) i fs
  end.
Definition victim (e : edit) (fs : list frame) : option frame :=
  match victim_pos e fs with Some n => nth_error fs n | None => None end.

(** Removing position [n] does not remove the last of several frames. *)
Definition leaves_no_hole (n : nat) (fs : list frame) : bool :=
  (S n <? length fs)%nat || (length fs =? 1)%nat.

(** Edits that stay clear of the two defects of the delete functions: deleting
    an absent frame, and deleting the last of several frames. *)
Definition allowed (e : edit) (fs : list frame) : bool :=
  match e with
  | Put _ | Append _ => true
  | Remove _ => match victim_pos e fs with Some n => leaves_no_hole n fs | None => false end
  | RemoveNth _ _ => match victim_pos e fs with Some n => leaves_no_hole n fs | None => true end
  end.

(** ** Sequences of edits *)

Fixpoint apply_edits (es : list edit) (fs : list frame) : list frame :=
  match es with
  | [] => fs
  | e :: es => apply_edits es (apply_edit e fs)
  end.

Fixpoint all_allowed (es : list edit) (fs : list frame) : bool :=
  match es with
  | [] => true
  | e :: es => edit_ok e && allowed e fs && all_allowed es (apply_edit e fs)
  end.

(** ** Sizes *)

(** Bytes that a list of frames takes in a tag. *)
Definition bytes_needed (fs : list frame) : Z :=
  fold_right (fun f n => 10 + fh_size (f_hdr f) + n) 0 fs.

Definition size_of_opt (f : option frame) : Z :=
  match f with Some f => fh_size (f_hdr f) | None => 0 end.

(** By how much an edit changes the size recorded in the tag header. *)
Definition size_delta (e : edit) (fs : list frame) : Z :=
  match e with
  | Put f => body_size f - size_of_opt (find (named (frame_id f)) fs)
  | Append f => body_size f
  | Remove _ => - (10 + size_of_opt (victim e fs))
  | RemoveNth _ _ => 0
  end.

(** Room: recorded size minus bytes needed; by how much an edit changes it. *)
Definition room_delta (e : edit) (fs : list frame) : Z :=
  match e with
  | Put f => match find (named (frame_id f)) fs with Some _ => 0 | None => -10 end
  | Append _ => -10
  | Remove _ => 0
  | RemoveNth _ _ => match victim e fs with Some f => 10 + fh_size (f_hdr f) | None => 0 end
  end.

Fixpoint room_deltas (es : list edit) (fs : list frame) : Z :=
  match es with
  | [] => 0
  | e :: es => room_delta e fs + room_deltas es (apply_edit e fs)
  end.

(** The header with another size. *)
Definition sized (h : TagHeader) (n : Z) : TagHeader :=
  mkTH (th_identifier h) (th_major h) (th_minor h) (th_flags h) n (th_ext_size h).

(** The getter that belongs to a setter. *)
Definition getter_of (c : call) : option (option Tag -> outcome (option fptr)) :=
  match c with
  | SetTextFrame i => Some (fun t => ID3v2_Tag_get_frame t (ti_id i))
  | SetArtist _ => Some ID3v2_Tag_get_artist_frame
  | SetAlbum _ => Some ID3v2_Tag_get_album_frame
  | SetTitle _ => Some ID3v2_Tag_get_title_frame
  | SetTrack _ => Some ID3v2_Tag_get_track_frame
  | SetAlbumArtist _ => Some ID3v2_Tag_get_album_artist_frame
  | SetGenre _ => Some ID3v2_Tag_get_genre_frame
  | SetYear _ => Some ID3v2_Tag_get_year_frame
  | SetDiscNumber _ => Some ID3v2_Tag_get_disc_number_frame
  | SetComposer _ => Some ID3v2_Tag_get_composer_frame
  | SetCommentFrame _ | SetComment _ _ => Some ID3v2_Tag_get_comment_frame
  | SetApicFrame _ | SetAlbumCover _ _ _ => Some ID3v2_Tag_get_album_cover_frame
  | _ => None
  end.

(** The frames in the nodes of a list, holes left out. *)
Definition frames_in (l : flist) : list frame :=
  flat_map (fun n => match n_frame n with Some p => [fp_frame p] | None => [] end) l.

(** Edits that set or add. *)
Definition is_set (e : edit) : bool :=
  match e with Put _ | Append _ => true | Remove _ | RemoveNth _ _ => false end.

Definition is_comment (f : fspec) : bool := match f with FComment _ _ _ _ => true | _ => false end.
