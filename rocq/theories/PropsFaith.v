(** A written file determines what is in it: C94. *)
From Verif Require Import File Calls Spec SpecEdit SpecFile FaithFacts Samples.
From Coq Require Import Lia.

(** Two files that were written are the same exactly if the headers, the frames
    and what follows the tags are. *)
Theorem C94_faithful : forall c t fs maj mi fl n ext c' t' fs' maj' mi' fl' n' ext',
  announces_extended c = false -> announces_extended c' = false ->
  tag_has t (map frame_of fs) -> tag_has t' (map frame_of fs') ->
  Forall (fun f => frame_ok f = true) fs ->
  Forall (fun f => frame_ok f = true) fs' ->
  t_header t = mkTH (lit "ID3") maj mi fl n ext -> t_header t' = mkTH (lit "ID3") maj' mi' fl' n' ext' ->
  frames_size fs <= n -> n < 2 ^ 28 -> frames_size fs' <= n' -> n' < 2 ^ 28 ->
  2048 - 2 ^ 31 < t_padding t < 2 ^ 31 -> 2048 - 2 ^ 31 < t_padding t' < 2 ^ 31 ->
  exists w w' u u', ID3v2_write_tag (Some c) (Some t) = Ok (Some w, u) /\ ID3v2_write_tag (Some c') (Some t') = Ok (Some w', u')
    /\ (w = w' <-> (maj, mi, fl, n) = (maj', mi', fl', n') /\ map frame_of fs = map frame_of fs' /\ audio c = audio c').
Proof. exact write_same. Qed.
Print Assumptions C94_faithful.

(** Two tags that differ in the language of a comment only, written to the same
    file; one of them written to a file that has a tag already; and one with a
    frame that cannot be read back. *)
Example C94_applies :
  let french := FComment [x00; x00] (lit "fra") (Utf16 false []) (Iso (lit "nice")) in
  let bare := FOther (lit "PRIV") [x00; x00] [] in
  let c := [xff; xfb] in
  let c' := tag_bytes x03 x00 x00 40 [artist] ++ c in
  let t := tag_with [title; comment1] 300 in
  let t' := tag_with [title; french] 300 in
  let t'' := tag_with [title; bare] 300 in
  let file c t := match ID3v2_write_tag (Some c) (Some t) with Ok (w, _) => w | _ => None end in
  announces_extended c = false /\ announces_extended c' = false /\ audio c' = audio c
  /\ tag_has t (map frame_of [title; comment1]) /\ tag_has t' (map frame_of [title; french])
  /\ tag_has t'' (map frame_of [title; bare])
  /\ forallb (fun f => frame_ok f) [title; comment1; french; bare] = true
  /\ frames_size [title; comment1] <= 300 /\ frames_size [title; french] <= 300 /\ frames_size [title; bare] <= 300
  /\ file c t <> None /\ file c t <> file c t' /\ file c (tag_with [title] 300) <> file c t'' /\ file c' t = file c t.
Proof.
  do 3 (split; [vm_compute; reflexivity|]).
  do 3 (split; [eexists; split; [reflexivity|]; split; [reflexivity|]; repeat constructor; cbn; intuition lia|]).
  do 4 (split; [vm_compute; (reflexivity || discriminate)|]).
  do 3 (split; [vm_compute; discriminate|]). vm_compute; reflexivity.
Qed.
