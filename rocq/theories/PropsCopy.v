(** Tags copied from file to file: C95. *)
From Verif Require Import File Calls Spec SpecEdit SpecFile SpecCopy CopyFacts Samples.
From Coq Require Import Lia.

(** Whatever the tag: what is put in front does not depend on the file, nor does
    what goes wrong; only an extended header in the file does more harm. *)
Theorem C95_front : forall t, exists r : outcome (list byte * Tag), forall c,
  ID3v2_write_tag (Some c) (Some t)
  = if announces_extended c then Ub UninitRead
    else let* (front, u) := r in Ok (Some (front ++ audio c), Some u).
Proof. exact write_front. Qed.
Print Assumptions C95_front.

(** A tag that the library has written is copied byte by byte, *)
Theorem C95_copy : forall l s c, saved l -> announces_extended c = false ->
  copy_tag (Some (l ++ s)) (Some c) = Ok (Some (l ++ audio c)).
Proof. exact copy_saved. Qed.
Print Assumptions C95_copy.

(** and copies of copies are the same, *)
Theorem C95_copies : forall l, saved l -> forall cs s, Forall (fun c => announces_extended c = false) cs ->
  copy_along (Some (l ++ s)) (map Some cs) = Ok (map (fun c => Some (l ++ audio c)) cs).
Proof. exact copy_chain. Qed.
Print Assumptions C95_copies.

(** and two files whose tags are exchanged twice are what they were. *)
Theorem C95_swap : forall l m s r, saved l -> saved m ->
  swap_tags (Some (l ++ s)) (Some (m ++ r)) = Ok (Some (m ++ s), Some (l ++ r)).
Proof. exact swap_saved. Qed.
Print Assumptions C95_swap.

Theorem C95_swap_twice : forall l m s r, saved l -> saved m ->
  (let* (a, b) := swap_tags (Some (l ++ s)) (Some (m ++ r)) in swap_tags a b) = Ok (Some (l ++ s), Some (m ++ r)).
Proof. exact swap_twice. Qed.
Print Assumptions C95_swap_twice.

(** No tag to copy: the other file keeps the one it has. *)
Theorem C95_none : forall a b, ID3v2_read_tag a = Ok None -> copy_tag a b = Ok b.
Proof. exact copy_none. Qed.
Print Assumptions C95_none.

(** What the library writes is of that form. *)
Theorem C95_saved : forall c t fs maj mi fl n ext,
  announces_extended c = false -> known_version maj = true -> has_extended_header fl = false ->
  tag_has t (map frame_of fs) -> Forall (fun f => survives maj f = true) fs ->
  t_header t = mkTH (lit "ID3") maj mi fl n ext -> frames_size fs <= n -> n < 2 ^ 28 ->
  2048 - 2 ^ 31 < t_padding t < 2 ^ 31 ->
  exists l u, saved l /\ ID3v2_write_tag (Some c) (Some t) = Ok (Some (l ++ audio c), u).
Proof. exact written_saved. Qed.
Print Assumptions C95_saved.

(** A v2.3 and a v2.4 tag, exchanged and copied; a file without tag. *)
Example C95_applies :
  let l := tag_bytes x03 x00 x00 300 [title; comment1; private; cover] in
  let m := tag_bytes x04 x00 x00 30 [artist] in
  saved l /\ saved m
  /\ swap_tags (Some (l ++ [xff; xfb])) (Some m) = Ok (Some (m ++ [xff; xfb]), Some l)
  /\ copy_along (Some l) [Some m; Some []; Some [xff]] = Ok [Some l; Some l; Some (l ++ [xff])]
  /\ ID3v2_read_tag (Some [xff; xfb]) = Ok None /\ copy_tag (Some [xff; xfb]) (Some m) = Ok (Some m)
  /\ tag_has (tag_with samples 300) (map frame_of samples) /\ forallb (survives x03) samples = true
  /\ frames_size samples <= 300.
Proof.
  split; [exists x03, x00, x00, 300, [title; comment1; private; cover]; repeat split; repeat constructor; vm_compute; discriminate|].
  split; [exists x04, x00, x00, 30, [artist]; repeat split; repeat constructor; vm_compute; discriminate|].
  do 4 (split; [vm_compute; reflexivity|]).
  split; [apply tag_with_has|]. split; [reflexivity|]. vm_compute; discriminate.
Qed.

(** A tag that cannot be written: the same happens whatever the file. *)
Example C95_applies_front :
  ID3v2_write_tag (Some []) (Some (tag_with [title] 5)) = ID3v2_write_tag (Some [xff]) (Some (tag_with [title] 5))
  /\ (forall r, ID3v2_write_tag (Some [xff]) (Some (tag_with [title] 5)) <> Ok r).
Proof. split; [vm_compute; reflexivity|]. intros r. vm_compute. discriminate. Qed.
