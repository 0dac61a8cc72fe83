(** Files that another process replaces while a call works on them: C90. *)
From Verif Require Import File Compat Stdio Threads Race Spec SpecEdit SpecFile SpecRead SpecSaves SpecStdio SpecThreads SpecRace RaceFacts Samples.

(** ** C90 *)

(** When nobody interferes these are the functions of the other claims. *)
Theorem C90_alone : forall f,
  ID3v2_read_tag f = ID3v2_read_tag_r f f
  /\ (forall t, ID3v2_write_tag f (Some t)
        = let* (stored, t') := ID3v2_write_tag_r f f t in Ok (Some stored, Some t'))
  /\ ID3v2_delete_tag f
     = let* stored := ID3v2_delete_tag_r f f in Ok (match stored with Some l => Some l | None => f end).
Proof. exact alone. Qed.
Print Assumptions C90_alone.

(** Reading takes as many bytes of the second file as the first declares, and
    gives what the grammar of C53 says about them.  When the file is gone, the
    call is undefined. *)
Theorem C90_read : forall c1 f2, announces_extended c1 = false ->
  match tag_length c1, f2 with
  | None, _ => ID3v2_read_tag_r (Some c1) f2 = Ok None
  | Some _, None => ID3v2_read_tag_r (Some c1) f2 = Ub NullDeref
  | Some n, Some c2 =>
      (exists r t, tag_read (firstn (Z.to_nat n) c2) (Z.to_nat n - length c2) r
         /\ ID3v2_read_tag_r (Some c1) f2 = Ok t /\ shows_read r t)
      \/ ((forall r, ~ tag_read (firstn (Z.to_nat n) c2) (Z.to_nat n - length c2) r)
          /\ exists u, ID3v2_read_tag_r (Some c1) f2 = Ub u)
  end.
Proof. exact read_two. Qed.
Print Assumptions C90_read.

(** Saving cuts the tag length of the first file off the second one. *)
Theorem C90_write : forall c1 f2 t, announces_extended c1 = false ->
  match ID3v2_write_tag (Some []) (Some t) with
  | Ok (Some bytes, Some t') => ID3v2_write_tag_r (Some c1) f2 t
      = match f2 with Some c2 => Ok (bytes ++ skipn (Z.to_nat (skipped c1)) c2, t') | None => Ub NullDeref end
  | Ok _ => False
  | Ub u => ID3v2_write_tag_r (Some c1) f2 t = Ub u
  | Exit n => ID3v2_write_tag_r (Some c1) f2 t = Exit n
  | NoFuel => False
  end.
Proof. exact write_two. Qed.
Print Assumptions C90_write.

(** So the sound of the second file is kept exactly if the tags of both are
    equally long, or nothing is left of it either way. *)
Theorem C90_kept : forall c1 c2 t stored t', announces_extended c1 = false ->
  ID3v2_write_tag_r (Some c1) (Some c2) t = Ok (stored, t') ->
  exists bytes, (ID3v2_write_tag (Some []) (Some t) = Ok (Some bytes, Some t'))
    /\ (stored = bytes ++ audio c2
        <-> skipped c1 = skipped c2 \/ (zlen c2 <= skipped c1 /\ zlen c2 <= skipped c2)).
Proof. exact sound_kept. Qed.
Print Assumptions C90_kept.

(** Deleting does the same, unless the first file has no tag. *)
Theorem C90_delete : forall c1 f2, announces_extended c1 = false ->
  ID3v2_delete_tag_r (Some c1) f2
  = match tag_length c1, f2 with
    | None, _ => Ok None
    | Some _, None => Ub NullDeref
    | Some n, Some c2 => Ok (Some (skipn (Z.to_nat n) c2))
    end.
Proof. exact delete_two. Qed.
Print Assumptions C90_delete.

(** Any number of processes that save tags of the length of the one in the
    file, in whatever order they come to their calls of fopen: none crashes;
    what each is about to store is what it would have stored alone; and the
    file is the original, or what one of those that are done made of it. *)
Theorem C90_saves : forall tags content n schedule,
  announces_extended content = false -> tag_length content = Some (10 + n) ->
  (forall i, can_be_saved (tags i) /\ th_tag_size (t_header (tags i)) = n) ->
  let (st, f) := race tags (Some content) schedule in
  (forall i, st i <> Crashed)
  /\ (forall i temp, st i = Fetched temp -> exists t', ID3v2_write_tag (Some content) (Some (tags i)) = Ok (Some temp, t'))
  /\ ((f = Some content /\ forall i, st i <> Done)
      \/ exists i t', st i = Done /\ ID3v2_write_tag (Some content) (Some (tags i)) = Ok (f, t')).
Proof. exact racing_saves. Qed.
Print Assumptions C90_saves.

(** Two tags of the same length that say different things, saved at once. *)
Definition in_file : list byte := tag_bytes x03 x00 x00 30 [artist] ++ lit "sound".
Definition other : fspec := FText (lit "TPE1") [x00; x00] (Iso (lit "B")).
Definition both (i : nat) : Tag := if Nat.even i then tag_with [artist] 30 else tag_with [other] 30.

Example C90_applies :
  announces_extended in_file = false /\ tag_length in_file = Some (10 + 30)
  /\ (forall i, can_be_saved (both i) /\ th_tag_size (t_header (both i)) = 30)
  /\ (let (st, f) := race both (Some in_file) [0; 1; 1; 0; 1; 0; 3; 3]%nat in
      st 0%nat = Done /\ st 1%nat = Done /\ st 2%nat = Unstarted
      /\ f = Some (tag_bytes x03 x00 x00 30 [artist] ++ lit "sound"))
  /\ (let (st, f) := race both (Some in_file) [0; 1; 1; 0; 0; 1]%nat in
      f = Some (tag_bytes x03 x00 x00 30 [other] ++ lit "sound")).
Proof.
  split; [reflexivity|]. split; [reflexivity|]. split; [|split; vm_compute; repeat split].
  intros i. unfold both. destruct (Nat.even i); (split; [|reflexivity]);
    (split; [repeat split; vm_compute; congruence|eexists; vm_compute; reflexivity]).
Qed.

(** Of different lengths: the shorter one goes in while the other process has
    looked at the file already, and ten bytes of sound are lost; the other way
    round, rests of the tag get in front of the sound.  Or the file is deleted. *)
Example C90_lengths :
  let long := tag_bytes x03 x00 x00 40 [artist] ++ lit "a long sound" in
  let short := tag_bytes x03 x00 x00 30 [artist] ++ lit "a long sound" in
  (exists bytes t', ID3v2_write_tag_r (Some long) (Some short) (tag_with [other] 40) = Ok (bytes ++ lit "nd", t') /\ zlen bytes = 50)
  /\ (exists bytes t', ID3v2_write_tag_r (Some short) (Some long) (tag_with [other] 30) = Ok (bytes ++ repeat x00 10 ++ lit "a long sound", t') /\ zlen bytes = 40)
  /\ ID3v2_write_tag_r (Some short) None (tag_with [other] 30) = Ub NullDeref
  /\ ID3v2_delete_tag_r (Some short) None = Ub NullDeref
  /\ ID3v2_delete_tag_r (Some long) (Some (lit "a sound without any tag in front of it, fifty bytes and more")) = Ok (Some (lit "s and more"))
  /\ ID3v2_read_tag_r (Some short) None = Ub NullDeref
  /\ (exists t, ID3v2_read_tag_r (Some long) (Some short) = Ok (Some t))
  /\ ID3v2_read_tag_r (Some short) (Some (lit "no tag here, and more than forty bytes of it")) = Ok None.
Proof.
  split; [exists (tag_bytes x03 x00 x00 40 [other]); eexists; split; vm_compute; reflexivity|].
  split; [exists (tag_bytes x03 x00 x00 30 [other]); eexists; split; vm_compute; reflexivity|].
  do 4 (split; [vm_compute; reflexivity|]). split; [eexists; vm_compute; reflexivity|]. vm_compute. reflexivity.
Qed.

(** Call by call of stdio (Threads.v) more can happen, even if the tags are
    equal: a process that copies the file just after another has opened it for
    writing loses the sound, and one that looks at it then keeps the old tag
    behind its own. *)
Example C90_finer :
  let file_a : shared := fun n => if list_eq_dec Byte.byte_eq_dec n (lit "a") then Some in_file else None in
  let alone (_ : nat) := mkSys (fun _ => None) (fun _ => None) 0 [] [] in
  let calls i := match i with O | S O => [WriteTag (lit "a") (Some (tag_with [artist] 30))] | _ => [] end in
  let ends k := fst (turns (file_a, fun i => (results_p (calls i), alone i))
    (repeat 1%nat 6 ++ repeat 0%nat 71 ++ repeat 1%nat k ++ repeat 0%nat 400 ++ repeat 1%nat 400)) (lit "a") in
  ends 48%nat = Some (tag_bytes x03 x00 x00 30 [artist])
  /\ ends 20%nat = Some (tag_bytes x03 x00 x00 30 [artist] ++ in_file).
Proof. vm_compute. split; reflexivity. Qed.
