(** Specification of the version 1 interface: what its structs show.  Uses no
    function of the model of the code; [ccall] names the setters. *)
From Verif Require Import Compat Calls Spec SpecEdit.

(** The struct that shows the frame [f] whose underlying frame is at address
    [a]: id, size, the first flag byte (the second is not assigned), body. *)
Definition compat_of (a : nat) (f : fspec) : cframe :=
  mkCFrame (cells (frame_id f)) (body_size f)
           (match frame_flags f with x :: _ => [Some x; None] | [] => [] end)
           (cells (frame_body f)) a.

(** The list of nodes with these frames. *)
Definition clist_of (fs : list cframe) : clist :=
  match fs with
  | [] => [mkCNode None false]
  | _ => map (fun f => mkCNode (Some f) true) fs
  end.

(** A frame together with the address of the struct that shows it. *)
Definition placed := (nat * fspec)%type.

(** The tag and the version 1 list on top of it show the same frames, in the
    same order, and each node of the latter points to the frame it shows. *)
Definition mirrored (c : ctag) (afs : list placed) : Prop :=
  t_frames (ct_tag c) = list_of (map (fun af => (fst af, frame_of (snd af))) afs)
  /\ ct_frames c = clist_of (map (fun af => compat_of (fst af) (snd af)) afs)
  /\ NoDup (map fst afs) /\ Forall (fun a => (a < t_fresh (ct_tag c))%nat) (map fst afs)
  /\ Forall (fun f => frame_ok f = true) (map snd afs).
Definition mirrors (c : ctag) (fs : list fspec) : Prop :=
  exists afs, mirrored c afs /\ map snd afs = fs.

Definition has_id (id : list byte) (f : fspec) : bool := same_id (frame_id f) id.

(** The setters as data. *)
Inductive ccall :=
| CTitle (s : cptr) (encoding : byte) | CArtist (s : cptr) (encoding : byte)
| CAlbum (s : cptr) (encoding : byte) | CAlbumArtist (s : cptr) (encoding : byte)
| CGenre (s : cptr) (encoding : byte) | CTrack (s : cptr) (encoding : byte)
| CYear (s : cptr) (encoding : byte) | CComment (s : cptr) (encoding : byte)
| CDiscNumber (s : cptr) (encoding : byte) | CComposer (s : cptr) (encoding : byte)
| CCoverBytes (bytes mime : cptr) (size : Z)
| CCoverFile (name : cptr) (picture : file).

Definition run_ccall (c : ccall) (t : option ctag) : outcome ctag :=
  match c with
  | CTitle s e => tag_set_title s e t
  | CArtist s e => tag_set_artist s e t
  | CAlbum s e => tag_set_album s e t
  | CAlbumArtist s e => tag_set_album_artist s e t
  | CGenre s e => tag_set_genre s e t
  | CTrack s e => tag_set_track s e t
  | CYear s e => tag_set_year s e t
  | CComment s e => tag_set_comment s e t
  | CDiscNumber s e => tag_set_disc_number s e t
  | CComposer s e => tag_set_composer s e t
  | CCoverBytes b m n => tag_set_album_cover_from_bytes b m n t
  | CCoverFile name f => tag_set_album_cover name f t
  end.

Fixpoint run_ccalls (cs : list ccall) (t : ctag) : outcome ctag :=
  match cs with
  | [] => Ok t
  | c :: cs => let* t := run_ccall c (Some t) in run_ccalls cs t
  end.

(** The part of a file name after its last dot. *)
Fixpoint extension (name : list byte) : option (list byte) :=
  match name with
  | [] => None
  | c :: rest =>
      match extension rest with
      | Some e => Some e
      | None => if Byte.eqb c "." then Some rest else None
      end
  end.

Definition mime_of (name : list byte) : option text :=
  match extension name with
  | None => None
  | Some e => Some (Iso (if bytes_eqb e (lit "png") then lit "image/png" else lit "image/jpeg"))
  end.

(** What a setter means: the frame it stores. *)
Inductive cmeans : ccall -> fspec -> Prop :=
| KTitle s e t : points_to s (text_image t) -> cmeans (CTitle s e) (FText (lit "TIT2") [x00; x00] t)
| KArtist s e t : points_to s (text_image t) -> cmeans (CArtist s e) (FText (lit "TPE1") [x00; x00] t)
| KAlbum s e t : points_to s (text_image t) -> cmeans (CAlbum s e) (FText (lit "TALB") [x00; x00] t)
| KAlbumArtist s e t : points_to s (text_image t) -> cmeans (CAlbumArtist s e) (FText (lit "TPE2") [x00; x00] t)
| KGenre s e t : points_to s (text_image t) -> cmeans (CGenre s e) (FText (lit "TCON") [x00; x00] t)
| KTrack s e t : points_to s (text_image t) -> cmeans (CTrack s e) (FText (lit "TRCK") [x00; x00] t)
| KYear s e t : points_to s (text_image t) -> cmeans (CYear s e) (FText (lit "TYER") [x00; x00] t)
| KComment s e t : points_to s (text_image t) ->
    cmeans (CComment s e) (FComment [x00; x00] (lit "eng") (Utf16 false []) t)
| KDiscNumber s e t : points_to s (text_image t) -> cmeans (CDiscNumber s e) (FText (lit "TPOS") [x00; x00] t)
| KComposer s e t : points_to s (text_image t) -> cmeans (CComposer s e) (FText (lit "TCOM") [x00; x00] t)
| KCoverBytes b m pic mime : points_to b pic -> points_to m (text_image mime) ->
    cmeans (CCoverBytes b m (zlen pic)) (FPicture [x00; x00] mime x03 (Utf16 false []) pic)
| KCoverFile p name pic mime : points_to p (text_image (Iso name)) -> mime_of name = Some mime ->
    forallb (fun c => negb (is_zero c)) name = true ->
    cmeans (CCoverFile p (Some pic)) (FPicture [x00; x00] mime x03 (Utf16 false []) pic).

(** Replace the first frame with the id of [f]. *)
Definition put_frame (f : fspec) (fs : list fspec) : list fspec := put (has_id (frame_id f)) f fs.

(** Setting the frames one after the other, each of which has to be there. *)
Fixpoint put_frames (gs fs : list fspec) : option (list fspec) :=
  match gs with
  | [] => Some fs
  | g :: gs =>
      if frame_ok g && existsb (has_id (frame_id g)) fs then put_frames gs (put_frame g fs) else None
  end.

(** The header struct that shows a header. *)
Definition compat_header (major minor flags : byte) (size : Z) : cheader :=
  mkCH (cells (lit "ID3")) (Some major) (Some minor) (Some flags) (Some size) (Some 0).
