(** Property of streams, other files and temporary files: C62. *)
From Coq Require Import List ZArith Lia.
From Verif Require Import File Compat Stdio Spec SpecFile SpecStdio SysFacts Samples.
Import ListNotations.
Open Scope Z_scope.

(** ** C62 *)

(** Reading touches no file, not for a moment, and closes what it opens,
    whatever the system refuses.  When it refuses nothing, the result is that
    of the other claims; a header that is found in any case is the file's. *)
Theorem C62_header : forall n s, sound s ->
  exists s' f, ID3v2_read_tag_header_s n s = (ID3v2_read_tag_header f, s') /\ untouched s s' /\ tidy s s' /\
  (f = None \/ exists c j, s_disk s (Named n) = Some c /\ f = Some (firstn j c)) /\
  (calm s -> ID3v2_read_tag_header f = ID3v2_read_tag_header (s_disk s (Named n))).
Proof. exact read_header_s. Qed.
Print Assumptions C62_header.

Theorem C62_read : forall n s, sound s ->
  exists s' o, ID3v2_read_tag_s n s = (o, s') /\ untouched s s' /\ tidy s s' /\
  (calm s -> o = ID3v2_read_tag (s_disk s (Named n))) /\
  (forall t, o = Ok (Some t) -> exists c h j, s_disk s (Named n) = Some c /\
     ID3v2_read_tag_header (Some c) = Ok (Some h) /\
     ID3v2_read_tag_from_buffer (Some (buffer_of (firstn j c) (declared_length h))) (declared_length h) = Ok (Some t)).
Proof. exact read_tag_sys. Qed.
Print Assumptions C62_read.

(** The older interface leaves its stream open where it uses a null pointer.
    What it returns it has from the bytes of the file. *)
Theorem C62_load : forall n s, sound s ->
  exists s' o, load_tag_s n s = (o, s') /\ untouched s s' /\ (forall t, o = Ok t -> tidy s s') /\
  (calm s -> o = load_tag (s_disk s (Named n))) /\
  (forall t, o = Ok t -> exists c h j, s_disk s (Named n) = Some c /\
     ID3v2_read_tag_header (Some c) = Ok (Some h) /\
     load_tag_with_buffer (Some (buffer_of (firstn j c) (declared_length h))) (declared_length h) = Ok t).
Proof. exact load_tag_sys. Qed.
Print Assumptions C62_load.

Theorem C62_cover : forall filename n tag s, sound s ->
  exists s' o, tag_set_album_cover_s filename n tag s = (o, s') /\ untouched s s' /\
  (forall t, o = Ok t -> tidy s s') /\
  (calm s -> o = tag_set_album_cover filename (s_disk s (Named n)) tag) /\
  (forall t, o = Ok t -> exists c j size mimetype, s_disk s (Named n) = Some c /\
     (size = 0 \/ size = to_i32 (zlen c)) /\
     (mimetype = ID3v2_MIME_TYPE_PNG \/ mimetype = ID3v2_MIME_TYPE_JPG) /\
     tag_set_album_cover_from_bytes (Some (buffer_of (firstn j c) size)) mimetype size tag = Ok t).
Proof. exact cover_sys. Qed.
Print Assumptions C62_cover.

(** Writing changes no other file; at every moment the file is what it was or a
    beginning of what it becomes, however the output is buffered.  When the call
    returns, its streams are closed and its temporary file is gone; when it does
    not, the file is what it was.  When nothing is refused the file becomes what
    the other claims say; otherwise it is that with bytes missing, after a tag
    whose bytes are those written to an empty file, possibly with the old tag
    still between the new one and the audio. *)
Theorem C62_write : forall n tagp s, sound s ->
  exists s' o, ID3v2_write_tag_s n tagp s = (o, s') /\ careful n s s' /\
  (forall r, o = Ok r -> tidy s s') /\
  ((forall r, o <> Ok r) -> s_disk s' (Named n) = s_disk s (Named n)) /\
  (calm s -> match ID3v2_write_tag (s_disk s (Named n)) tagp with
             | Ok (f, t) => o = Ok t /\ s_disk s' (Named n) = f
             | Ub u => o = Ub u
             | Exit x => o = Exit x
             | NoFuel => o = NoFuel
             end) /\
  (forall t, o = Ok (Some t) -> exists c bytes i f, s_disk s (Named n) = Some c /\
     ID3v2_write_tag (Some []) tagp = Ok (Some bytes, Some t) /\
     (i = 0 \/ exists h, ID3v2_read_tag_header (Some c) = Ok (Some h) /\ i = declared_length h) /\
     s_disk s' (Named n) = Some f /\ part_of f (bytes ++ skipn (Z.to_nat i) c)).
Proof. exact write_sys. Qed.
Print Assumptions C62_write.

(** Deleting, in the same way; but a call that does not return may have emptied
    the file. *)
Theorem C62_delete : forall n s, sound s ->
  exists s' o, ID3v2_delete_tag_s n s = (o, s') /\ careful n s s' /\
  (o = Ok tt -> tidy s s') /\
  (o <> Ok tt -> s_disk s' (Named n) = s_disk s (Named n) \/ s_disk s' (Named n) = Some []) /\
  (calm s -> match ID3v2_delete_tag (s_disk s (Named n)) with
             | Ok f => o = Ok tt /\ s_disk s' (Named n) = f
             | Ub u => o = Ub u /\ s_disk s' (Named n) = s_disk s (Named n)
             | Exit x => o = Exit x /\ s_disk s' (Named n) = s_disk s (Named n)
             | NoFuel => o = NoFuel /\ s_disk s' (Named n) = s_disk s (Named n)
             end) /\
  (o = Ok tt -> s_disk s' (Named n) = s_disk s (Named n) \/
     exists c h i f, s_disk s (Named n) = Some c /\ ID3v2_read_tag_header (Some c) = Ok (Some h) /\
     (i = 0 \/ i = declared_length h) /\ s_disk s' (Named n) = Some f /\ part_of f (skipn (Z.to_nat i) c)).
Proof. exact delete_sys. Qed.
Print Assumptions C62_delete.

Theorem C62_set_tag : forall n tagp s, sound s ->
  exists s' o, set_tag_s n tagp s = (o, s') /\ careful n s s' /\
  (forall r, o = Ok r -> tidy s s') /\
  ((forall r, o <> Ok r) -> s_disk s' (Named n) = s_disk s (Named n)) /\
  (calm s -> match set_tag (s_disk s (Named n)) tagp with
             | Ok (f, t) => o = Ok t /\ s_disk s' (Named n) = f
             | Ub u => o = Ub u
             | Exit x => o = Exit x
             | NoFuel => o = NoFuel
             end) /\
  (forall t, o = Ok t -> exists t0 c bytes i f, tagp = Some t0 /\ s_disk s (Named n) = Some c /\
     ID3v2_write_tag (Some []) (Some (ct_tag t0)) = Ok (Some bytes, Some (ct_tag t)) /\
     t = mkCTag (ct_raw t0) (ct_header t0) (ct_frames t0) (ct_tag t) /\
     (i = 0 \/ exists h, ID3v2_read_tag_header (Some c) = Ok (Some h) /\ i = declared_length h) /\
     s_disk s' (Named n) = Some f /\ part_of f (bytes ++ skipn (Z.to_nat i) c)).
Proof. exact set_tag_sys. Qed.
Print Assumptions C62_set_tag.

(** Any number of calls, in any order, on any files, whatever is refused: a file
    that no call is to change is never changed, not even for a moment and not
    even when a call goes wrong; and when all return, no stream is left open and
    no temporary file is left. *)
Theorem C62_session : forall l s s' o, sound s -> call_files l s = (o, s') ->
  (forall m, (forall c, In c l -> ~ changes c m) ->
     exists h, since s s' h /\ forall d, In d (s_disk s' :: h) -> d (Named m) = s_disk s (Named m))
  /\ (o = Ok tt -> tidy s s').
Proof. exact session_sys. Qed.
Print Assumptions C62_session.

(** A system with two files and a stream that is open on one of them.  The file
    is written with output kept back as long as possible and with every byte
    written at once; with the first fopen refused, the old tag stays; with the
    last bytes refused, they are missing and the call returns all the same. *)
Definition old_file := tag_bytes x04 x00 x00 30 [artist] ++ [xff; xfb; x90].
Definition two_files (answers : list answer) : sys :=
  mkSys (fun t => match t with
                  | Named n => if list_eq_dec Byte.byte_eq_dec n (lit "a.mp3") then Some old_file
                               else if list_eq_dec Byte.byte_eq_dec n (lit "b.mp3") then Some [x01] else None
                  | Temp _ => None
                  end)
        (fun k => match k with O => Some (mkStream (Named (lit "b.mp3")) 1 [x02]) | _ => None end)
        1 answers [].

Example C62_applies :
  (forall answers, sound (two_files answers))
  /\ calm (two_files (repeat Late 300)) /\ calm (two_files [])
  /\ let write answers :=
       let '(o, s') := ID3v2_write_tag_s (lit "a.mp3") (Some (tag_with [artist] 30)) (two_files answers) in
       (match o with Ok _ => true | _ => false end, s_disk s' (Named (lit "a.mp3")), length (s_log s')) in
     let new := tag_bytes x03 x00 x00 30 [artist] in
     write (repeat Late 300) = (true, Some (new ++ [xff; xfb; x90]), 5%nat)
     /\ write [] = (true, Some (new ++ [xff; xfb; x90]), 89%nat)
     /\ write [Refuse 0] = (true, Some (new ++ old_file), 169%nat)
     /\ write (repeat Late 153 ++ [Refuse 7]) = (true, Some (firstn 7 new), 5%nat).
Proof.
  split; [|split; [|split]].
  - intros answers [|k] L; [cbn in L; lia|]. split; reflexivity.
  - intros n I. apply repeat_spec in I. discriminate I.
  - intros n [].
  - vm_compute. repeat split.
Qed.
