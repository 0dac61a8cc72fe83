(** Properties of the functions of the tests that print frames and save
    pictures: C77, C78. *)
From Verif Require Import TestUtils Spec SpecEdit SpecFile SpecRead SpecSession SpecTests SpecPrint.
From Verif Require Import ClaimFacts TestMainFacts PrintFacts.
From Coq Require Import Lia.

(** C77: what is printed *)

Theorem C77_text : forall i flags t, text_ok t = true ->
  print_text_frame (Some (frame_of (FText i flags t))) = Ok (line_of t).
Proof. exact print_text_is. Qed.
Print Assumptions C77_text.

Theorem C77_comment : forall flags lang d t, text_ok t = true ->
  print_comment_frame (Some (frame_of (FComment flags lang d t))) = Ok (line_of t).
Proof. exact print_comment_is. Qed.
Print Assumptions C77_comment.

Theorem C77_confused : forall x, frame_ok x = true ->
  (match x with FText _ _ _ => True | _ => print_text_frame (Some (frame_of x)) = Ub TypeConfusion end)
  /\ (match x with FComment _ _ _ _ => True | _ => print_comment_frame (Some (frame_of x)) = Ub TypeConfusion end).
Proof. exact print_confused. Qed.
Print Assumptions C77_confused.

Theorem C77_order : forall t, line_of t = line_meant t <-> symmetric t.
Proof. exact line_right. Qed.
Print Assumptions C77_order.

Theorem C77_file_texts : forall content h gs pad get id,
  file_read content (Some (h, gs, pad)) -> Forall sane gs -> In (get, id) text_getters ->
  exists out, (let* tag := ID3v2_read_tag (Some content) in
               let* p := get tag in
               print_text_frame (the_frame p)) = Ok out /\ first_line (text_in id) id gs out.
Proof. exact printed_texts. Qed.
Print Assumptions C77_file_texts.

Theorem C77_file_comment : forall content h gs pad,
  file_read content (Some (h, gs, pad)) -> Forall sane gs ->
  exists out, (let* tag := ID3v2_read_tag (Some content) in
               let* p := ID3v2_Tag_get_comment_frame tag in
               print_comment_frame (the_frame p)) = Ok out /\ first_line comment_in (lit "COMM") gs out.
Proof. exact printed_comment. Qed.
Print Assumptions C77_file_comment.

Theorem C77_file_comments : forall content h gs pad,
  file_read content (Some (h, gs, pad)) -> Forall sane gs ->
  exists out, (let* tag := ID3v2_read_tag (Some content) in
               let* l := ID3v2_Tag_get_comment_frames tag in
               print_comment_frames l) = Ok out
    /\ match filter (named (lit "COMM")) gs with
       | [] => out = none_line
       | cs => exists ts, Forall2 comment_in cs ts /\ out = flat_map line_of ts
       end.
Proof. exact printed_comments. Qed.
Print Assumptions C77_file_comments.

Theorem C77_unicode : forall p, test_to_unicode p = ID3v2_to_unicode p.
Proof. exact unicode_same. Qed.
Print Assumptions C77_unicode.

(** The same letters, in either byte order, and a letter of two equal bytes. *)
Example C77_applies :
  let be := Utf16 true [(x00, "H"%byte); (x00, "i"%byte)] in
  let le := Utf16 false [("H"%byte, x00); ("i"%byte, x00)] in
  print_text_frame (Some (frame_of (plain_text "TIT2" le))) = Ok [WideChar 72; WideChar 105; Chars [newline]]
  /\ print_text_frame (Some (frame_of (plain_text "TIT2" be))) = Ok [WideChar 18432; WideChar 26880; Chars [newline]]
  /\ line_meant be = line_of le /\ ~ symmetric be /\ symmetric (Utf16 true [(x21, x21)])
  /\ print_text_frame (Some (frame_of (plain_text "TIT2" (narrow "Hi")))) = Ok [Chars (lit "Hi" ++ [newline])].
Proof.
  cbn zeta. split; [vm_compute; reflexivity|]. split; [vm_compute; reflexivity|]. split; [vm_compute; reflexivity|].
  split; [|split; [repeat constructor|vm_compute; reflexivity]].
  intros S. cbn [symmetric] in S. inversion S as [|? ? E]. discriminate E.
Qed.

(** Two comments and a title, read from a file. *)
Example C77_file_applies :
  let fs := [new_comment; plain_text "TIT2" (narrow "Hi"); english (wide "b") (narrow "Yo")] in
  let content := tagged_file x03 x00 x00 fs 12 [xff; xfb] in
  (exists h, file_read content (Some (h, map frame_of fs, 12))) /\ Forall sane (map frame_of fs)
  /\ (let* tag := ID3v2_read_tag (Some content) in
      let* l := ID3v2_Tag_get_comment_frames tag in
      print_comment_frames l)
     = Ok (line_of (wide "Comment") ++ [Chars (lit "Yo" ++ [newline])])
  /\ (let* tag := ID3v2_read_tag (Some content) in
      let* p := ID3v2_Tag_get_title_frame tag in
      print_text_frame (the_frame p)) = Ok [Chars (lit "Hi" ++ [newline])]
  /\ (let* tag := ID3v2_read_tag (Some content) in
      let* p := ID3v2_Tag_get_artist_frame tag in
      print_text_frame (the_frame p)) = Ok none_line.
Proof.
  cbn zeta. set (fs := [_; _; _]).
  assert (S : Forall (fun f => frame_ok f = true /\ readable f = true) fs).
  { repeat (apply Forall_cons; [split; vm_compute; reflexivity|]). apply Forall_nil. }
  split.
  { eexists. apply tagged_file_read; [reflexivity|reflexivity|exact S|lia|vm_compute; reflexivity]. }
  split.
  { apply Forall_map. revert S. apply Forall_impl. intros f [K _]. now apply frame_of_sane. }
  split; [vm_compute; reflexivity|]. split; vm_compute; reflexivity.
Qed.

(** C78: no picture is saved *)

Theorem C78_never : forall g dir, exists u, save_apic_frame (Some g) dir = Ub u.
Proof. exact save_never. Qed.
Print Assumptions C78_never.

Theorem C78_file : forall content h gs pad dp dir,
  file_read content (Some (h, gs, pad)) -> Forall sane gs ->
  points_to dp (dir ++ [x00]) -> forallb (fun c => negb (is_zero c)) dir = true -> zlen dir < 2 ^ 31 - 17 ->
  (let* tag := ID3v2_read_tag (Some content) in
   let* p := ID3v2_Tag_get_album_cover_frame tag in
   save_apic_frame (the_frame p) dp)
  = if existsb (named (lit "APIC")) gs then Ub OobWrite else Ok (None, none_line).
Proof. exact saved_cover. Qed.
Print Assumptions C78_file.

Example C78_applies :
  let save fs :=
    let* tag := ID3v2_read_tag (Some (tagged_file x03 x00 x00 fs 12 [xff; xfb])) in
    let* p := ID3v2_Tag_get_album_cover_frame tag in
    save_apic_frame (the_frame p) (clit "/tmp") in
  let one := plain_text "TIT2" (narrow "Hi") in
  let two := png x03 (wide "a") (lit "PNG") in
  frame_ok two = true /\ readable two = true
  /\ save [one] = Ok (None, none_line) /\ save [one; two] = Ub OobWrite.
Proof.
  cbn zeta. split; [vm_compute; reflexivity|]. split; [vm_compute; reflexivity|]. split; vm_compute; reflexivity.
Qed.
