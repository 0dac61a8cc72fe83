(** Several tags in one file: C93. *)
From Verif Require Import File Calls Spec SpecEdit SpecFile SpecSession SpecStack StackFacts Samples.
From Coq Require Import Lia.

(** Only the first tag is seen, *)
Theorem C93_read : forall l r, whole l -> ID3v2_read_tag (Some (l ++ r)) = ID3v2_read_tag (Some l).
Proof. exact stack_read. Qed.
Print Assumptions C93_read.

(** only the first tag is changed by a session, whatever it does, *)
Theorem C93_session : forall cs l r, whole l ->
  run_session cs (Some (l ++ r)) = let* f := run_session cs (Some l) in Ok (followed f r).
Proof. exact stack_session. Qed.
Print Assumptions C93_session.

(** and only the first one is deleted. *)
Theorem C93_delete : forall sound ps k, Forall whole ps -> (k <= length ps)%nat ->
  delete_times k (Some (concat ps ++ sound)) = Ok (Some (concat (skipn k ps) ++ sound)).
Proof. exact stack_delete. Qed.
Print Assumptions C93_delete.

(** What the second tag says comes back when the tag is deleted. *)
Theorem C93_reveal : forall cs l w q r,
  whole l -> whole q -> run_session cs (Some l) = Ok (Some w) -> whole w ->
  exists f g, run_session cs (Some (l ++ q ++ r)) = Ok f /\ ID3v2_delete_tag f = Ok g
    /\ ID3v2_read_tag f = ID3v2_read_tag (Some w) /\ ID3v2_read_tag g = ID3v2_read_tag (Some q).
Proof. exact stack_reveal. Qed.
Print Assumptions C93_reveal.

(** Every tag that the library lays out is one. *)
Theorem C93_whole : forall maj mi fl n fs,
  known_version maj = true -> has_extended_header fl = false -> Forall (fun f => frame_ok f = true) fs ->
  frames_size fs <= n -> n < 2 ^ 28 -> whole (tag_bytes maj mi fl n fs).
Proof. exact tag_bytes_whole. Qed.
Print Assumptions C93_whole.

(** Any file: each deletion takes at least ten bytes off the front, until no tag
    is left or one with an extended header stops everything. *)
Theorem C93_ends : forall content, exists n front left, content = front ++ left /\ 10 * Z.of_nat n <= zlen front
  /\ (forall k, (k < n)%nat -> exists l, delete_times k (Some content) = Ok (Some l)
        /\ announces_extended l = false /\ tag_length l <> None)
  /\ delete_times n (Some content) = Ok (Some left)
  /\ ((announces_extended left = true /\ forall m, (n < m)%nat -> delete_times m (Some content) = Ub UninitRead)
      \/ (announces_extended left = false /\ tag_length left = None
          /\ forall m, (n <= m)%nat -> delete_times m (Some content) = Ok (Some left))).
Proof. exact delete_ends. Qed.
Print Assumptions C93_ends.

(** Two tags; the title of the first one is deleted, then its tag: there is the
    artist of the second. *)
Example C93_applies :
  let l := tag_bytes x03 x00 x00 200 [title; private] in
  let q := tag_bytes x04 x00 x00 30 [artist] in
  whole l /\ whole q
  /\ run_session [DeleteTitle] (Some l) = Ok (Some (tag_bytes x03 x00 x00 (200 - 10 - body_size title) [private]))
  /\ whole (tag_bytes x03 x00 x00 (200 - 10 - body_size title) [private])
  /\ delete_times 2 (Some (l ++ q ++ [xff; xfb])) = Ok (Some [xff; xfb])
  /\ exists t, ID3v2_read_tag (Some q) = Ok (Some t) /\ ID3v2_read_tag (Some (l ++ q)) <> Ok (Some t).
Proof.
  split; [split; vm_compute; reflexivity|]. split; [split; vm_compute; reflexivity|].
  split; [vm_compute; reflexivity|]. split; [split; vm_compute; reflexivity|]. split; [vm_compute; reflexivity|].
  eexists. split; [vm_compute; reflexivity|]. vm_compute. discriminate.
Qed.
