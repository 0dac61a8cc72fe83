(** What is seen of a tag of 2^29 bytes and more: C97. *)
From Verif Require Import File Calls Spec SpecFile SpecRead SpecSession SpecBig SpecBigRead Platform SpecPlatform BigReadFacts BigStackFacts Samples BaseFacts.
From Coq Require Import Lia.

(** The recorded size is that of the tag modulo 2^29.  If the frames are not
    within it, it ends between two frames or within the header of one, within
    its texts, or within a picture or the body of an unknown frame. *)
Theorem C97_cases : forall r all, Forall (fun f => frame_ok f = true) all -> 0 <= r < frames_size all ->
  exists fs f fs2, all = fs ++ f :: fs2
    /\ (frames_size fs <= r <= frames_size fs + 10
        \/ (10 + frames_size fs < r /\ in_text f (r - frames_size fs))
        \/ (10 + frames_size fs < r /\ 0 <= r - frames_size fs - part_before f < part_length f)).
Proof. exact ends_somewhere. Qed.
Print Assumptions C97_cases.

(** Between: the frames that follow are not seen, *)
Theorem C97_between : forall mi fl n fs fs2 s,
  has_extended_header fl = false -> Forall (fun f => frame_ok f = true /\ readable f = true) fs ->
  Forall (fun f => frame_ok f = true) fs2 -> frames_size (fs ++ fs2) <= n -> n + 10 < 2 ^ 31 ->
  let r := n mod 2 ^ 29 in
  frames_size fs <= r <= frames_size fs + 10 ->
  exists t, ID3v2_read_tag (Some (big_bytes x03 mi fl n (fs ++ fs2) ++ s)) = Ok (Some t)
    /\ t_header t = mkTH (lit "ID3") x03 mi fl r 0 /\ tag_has t (map frame_of fs) /\ t_padding t = r - frames_size fs.
Proof. exact read_between. Qed.
Print Assumptions C97_between.

(** and become part of the sound when the tag is saved. *)
Theorem C97_lost : forall mi fl n fs fs2 s,
  has_extended_header fl = false -> Forall (fun f => frame_ok f = true /\ readable f = true) fs ->
  Forall (fun f => frame_ok f = true) fs2 -> frames_size (fs ++ fs2) <= n -> n + 10 < 2 ^ 31 ->
  let r := n mod 2 ^ 29 in
  frames_size fs <= r <= frames_size fs + 10 ->
  run_session [] (Some (big_bytes x03 mi fl n (fs ++ fs2) ++ s))
  = Ok (Some (big_bytes x03 mi fl r fs ++ left_over x03 mi fl n (fs ++ fs2) ++ s)).
Proof. exact big_lost. Qed.
Print Assumptions C97_lost.

(** Within the texts of a frame: undefined behaviour. *)
Theorem C97_text : forall mi fl n fs f fs2 s,
  has_extended_header fl = false -> Forall (fun f => frame_ok f = true /\ readable f = true) fs ->
  frame_ok f = true -> Forall (fun f => frame_ok f = true) fs2 ->
  frames_size (fs ++ f :: fs2) <= n -> n + 10 < 2 ^ 31 ->
  let r := n mod 2 ^ 29 in
  10 + frames_size fs < r -> in_text f (r - frames_size fs) ->
  exists u, ID3v2_read_tag (Some (big_bytes x03 mi fl n (fs ++ f :: fs2) ++ s)) = Ub u.
Proof. exact big_text. Qed.
Print Assumptions C97_text.

(** Within a picture or an unknown frame: it is seen with its full size, but
    only its first bytes are those that were written; the rest was never
    written to.  Saving the tag is undefined. *)
Theorem C97_within : forall mi fl n fs f fs2 s,
  has_extended_header fl = false -> Forall (fun f => frame_ok f = true /\ readable f = true) fs ->
  frame_ok f = true -> Forall (fun f => frame_ok f = true) fs2 ->
  frames_size (fs ++ f :: fs2) <= n -> n + 10 < 2 ^ 31 ->
  let r := n mod 2 ^ 29 in
  let known := r - frames_size fs - part_before f in
  10 + frames_size fs < r -> 0 <= known < part_length f ->
  (exists t, ID3v2_read_tag (Some (big_bytes x03 mi fl n (fs ++ f :: fs2) ++ s)) = Ok (Some t)
    /\ t_header t = mkTH (lit "ID3") x03 mi fl r 0 /\ tag_has t (map frame_of fs ++ [cut_short known f]) /\ t_padding t = 0)
  /\ exists u, run_session [] (Some (big_bytes x03 mi fl n (fs ++ f :: fs2) ++ s)) = Ub u.
Proof. exact read_within. Qed.
Print Assumptions C97_within.

(** The frame that is cut off still takes all of its size on the stack. *)
Theorem C97_stack : forall P mi fl n fs f fs2 s,
  has_extended_header fl = false -> Forall (fun f => frame_ok f = true /\ readable f = true) fs ->
  frame_ok f = true -> Forall (fun f => frame_ok f = true) fs2 ->
  frames_size (fs ++ f :: fs2) <= n -> n + 10 < 2 ^ 31 ->
  let r := n mod 2 ^ 29 in
  let known := r - frames_size fs - part_before f in
  10 + frames_size fs < r -> 0 <= known < part_length f ->
  let content := big_bytes x03 mi fl n (fs ++ f :: fs2) ++ s in
  ID3v2_read_tag_on P (Some content)
  = if holds P (arrays_bytes (fs ++ [f])) then ID3v2_read_tag (Some content) else Ub StackOverflow.
Proof. exact stack_within. Qed.
Print Assumptions C97_stack.

(** The three cases: a title and then a picture of about 2^29 bytes, after which
    the size is 60, 19 and 15. *)
Example C97_applies :
  let cover p := FPicture [x00; x00] (Iso (lit "image/png")) x03 (Utf16 false []) (repeat x01 (Z.to_nat p)) in
  frame_ok title && readable title = true /\ frames_size [title] = 19
  /\ (forall p, 0 <= p -> frames_size ([title] ++ [cover p]) = 45 + p)
  /\ (forall p, 0 <= p < 2 ^ 30 -> frame_ok (cover p) = true)
  /\ (forall p, 0 <= p -> part_before (cover p) = 26 /\ part_length (cover p) = p)
  /\ (let n := 2 ^ 29 + 60 in
      45 + 2 ^ 29 <= n /\ n + 10 < 2 ^ 31 /\ 10 + 19 < n mod 2 ^ 29 /\ 0 <= n mod 2 ^ 29 - 19 - 26 < 2 ^ 29)
  /\ holds (mkPlatform false false (Some 8388608%N)) (arrays_bytes ([title] ++ [cover (2 ^ 29)])) = false
  /\ (let n := 2 ^ 29 + 19 in 45 + (2 ^ 29 - 26) <= n /\ n + 10 < 2 ^ 31 /\ 19 <= n mod 2 ^ 29 <= 19 + 10)
  /\ (let n := 2 ^ 29 + 15 in
      45 + (2 ^ 29 - 30) <= n /\ n + 10 < 2 ^ 31 /\ 10 + 0 < n mod 2 ^ 29 /\ in_text title (n mod 2 ^ 29 - 0)).
Proof.
  intros cover.
  assert (B : forall p, 0 <= p -> body_size (cover p) = 16 + p).
  { intros p P. unfold body_size, frame_body, cover. cbn [frame_encoding body_with]. rewrite !zlen_app, zlen_repeat, Z2Nat.id by exact P.
    change (zlen [_]) with 1. change (zlen (text_image (Iso (lit "image/png")))) with 10.
    change (zlen (text_image (Utf16 false []))) with 4. lia. }
  split; [reflexivity|]. split; [reflexivity|]. split; [|split; [|split; [|split; [|split; [|split]]]]].
  - intros p P. change (frames_size ([title] ++ [cover p])) with (10 + body_size title + (10 + body_size (cover p) + 0)).
    rewrite B by exact P. change (body_size title) with 9. lia.
  - intros p P. unfold frame_ok. rewrite B by lia.
    replace (16 + p + 10 <? 2 ^ 31) with true; [reflexivity|]. symmetry. apply Z.ltb_lt.
    change (2 ^ 31) with 2147483648. change (2 ^ 30) with 1073741824 in P. lia.
  - intros p P. split; [reflexivity|]. cbn [cover part_length]. rewrite zlen_repeat, Z2Nat.id by exact P. reflexivity.
  - vm_compute. repeat split; discriminate.
  - change (arrays_bytes ([title] ++ [cover (2 ^ 29)]))
      with (Z.max 8 (Z.max (10 + 4 + zlen (repeat x01 (Z.to_nat (2 ^ 29)))) 0)).
    rewrite zlen_repeat, Z2Nat.id by discriminate. reflexivity.
  - vm_compute. repeat split; discriminate.
  - vm_compute. repeat split; discriminate.
Qed.
