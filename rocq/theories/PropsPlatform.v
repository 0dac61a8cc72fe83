(** Properties of other machines: C64 and C65. *)
From Coq Require Import List ZArith Lia.
From Verif Require Import File Compat Calls Spec SpecEdit SpecFile SpecRead SpecRewrite Platform SpecPlatform.
From Verif Require Import PlatformFacts PlatformWriteFacts FileFacts ReadFacts Samples.
Import ListNotations.
Open Scope Z_scope.

(** ** C64 *)

(** Whether [char] is signed and which byte of an int comes first makes no
    difference to what is read: neither to the result nor to whether there is one. *)
Theorem C64_read : forall P, p_stack P = None ->
  (forall f, ID3v2_read_tag_on P f = ID3v2_read_tag f)
  /\ (forall p n, ID3v2_read_tag_from_buffer_on P p n = ID3v2_read_tag_from_buffer p n)
  /\ (forall f, load_tag_on P f = load_tag f)
  /\ (forall p n, load_tag_with_buffer_on P p n = load_tag_with_buffer p n).
Proof. exact same_reads. Qed.
Print Assumptions C64_read.

(** Headers are read alike and tags are deleted alike on every machine. *)
Theorem C64_header : forall P,
  (forall f, ID3v2_read_tag_header_on P f = ID3v2_read_tag_header f)
  /\ (forall p, ID3v2_read_tag_header_from_buffer_on P p = ID3v2_read_tag_header_from_buffer p)
  /\ (forall f, ID3v2_delete_tag_on P f = ID3v2_delete_tag f)
  /\ (forall f, remove_tag_on P f = remove_tag f).
Proof. exact same_headers. Qed.
Print Assumptions C64_header.

(** Tags are written alike wherever the least significant byte comes first. *)
Theorem C64_write : forall P f, p_big_endian P = false ->
  (forall t, ID3v2_write_tag_on P f t = ID3v2_write_tag f t) /\ (forall t, set_tag_on P f t = set_tag f t).
Proof. exact same_writes. Qed.
Print Assumptions C64_write.

(** Elsewhere every number comes out with its bytes reversed. *)
Theorem C64_big_endian : forall P content t fs maj mi fl n ext, p_big_endian P = true ->
  announces_extended content = false ->
  tag_has t (map frame_of fs) -> Forall (fun f => frame_ok f = true) fs ->
  t_header t = mkTH (lit "ID3") maj mi fl n ext ->
  frames_size fs <= n -> n < 2 ^ 28 -> 2048 - 2 ^ 31 < t_padding t < 2 ^ 31 ->
  ID3v2_write_tag_on P (Some content) (Some t)
  = Ok (Some (reversed_tag maj mi fl n fs ++ audio content), Some (padded t)).
Proof. intros P content t fs maj mi fl n ext B. exact (write_big_endian P B content t fs maj mi fl n ext). Qed.
Print Assumptions C64_big_endian.

(** So the tag is found to be as long as it is only if its size is the same in
    both directions; *)
Theorem C64_tag_size : forall P t fs maj mi fl n ext content out, p_big_endian P = true ->
  announces_extended content = false -> known_version maj = true -> has_extended_header fl = false ->
  tag_has t (map frame_of fs) -> Forall (fun f => frame_ok f = true) fs ->
  t_header t = mkTH (lit "ID3") maj mi fl n ext ->
  frames_size fs <= n -> n < 2 ^ 28 -> 2048 - 2 ^ 31 < t_padding t < 2 ^ 31 ->
  ID3v2_write_tag_on P (Some content) (Some t) = Ok (Some out, Some (padded t)) ->
  (tag_length out = Some (10 + n) <-> rev (synchsafe32 n) = synchsafe32 n).
Proof. exact big_endian_tag_size. Qed.
Print Assumptions C64_tag_size.

(** the same of the size of a frame in a tag of version 3, which no size from 1
    to 65535 is; *)
Theorem C64_frame_size : forall n, 0 <= n < 2 ^ 31 ->
  (declared_size 3 (rev (be32 n)) = n <-> rev (be32 n) = be32 n)
  /\ (0 < n < 2 ^ 16 -> declared_size 3 (rev (be32 n)) <> n).
Proof. exact reversed_frame_size. Qed.
Print Assumptions C64_frame_size.

(** and a tag of less than 16 KiB is found to be longer than it is: whoever deletes
    it, on whatever machine, deletes the start of the audio with it. *)
Theorem C64_delete : forall P Q content t fs maj mi fl n ext, p_big_endian P = true ->
  announces_extended content = false -> known_version maj = true -> has_extended_header fl = false ->
  tag_has t (map frame_of fs) -> Forall (fun f => frame_ok f = true) fs ->
  t_header t = mkTH (lit "ID3") maj mi fl n ext ->
  frames_size fs <= n -> 0 < n < 2 ^ 14 -> 2048 - 2 ^ 31 < t_padding t < 2 ^ 31 ->
  exists out m, n < m /\ ID3v2_write_tag_on P (Some content) (Some t) = Ok (Some out, Some (padded t))
    /\ ID3v2_read_tag_header_on Q (Some out) = Ok (Some (mkTH (lit "ID3") maj mi fl m 0))
    /\ ID3v2_delete_tag_on Q (Some out) = Ok (Some (skipn (Z.to_nat (m - n)) (audio content))).
Proof. exact delete_big. Qed.
Print Assumptions C64_delete.

(** A tag of 40 bytes, two bytes of audio. *)
Example C64_applies :
  let big := mkPlatform true true None in
  let t := tag_with [artist] 30 in
  let bytes := lit "ID3" ++ [x03; x00; x00] ++ [x1e; x00; x00; x00] ++ lit "TPE1" ++ [x09; x00; x00; x00] ++ [x00; x00]
               ++ frame_body artist ++ zeros 11 in
  announces_extended [xff; xfb] = false /\ tag_has t (map frame_of [artist]) /\ frame_ok artist = true
  /\ t_header t = mkTH (lit "ID3") x03 x00 x00 30 0 /\ frames_size [artist] = 19
  /\ 2048 - 2 ^ 31 < t_padding t < 2 ^ 31
  /\ reversed_tag x03 x00 x00 30 [artist] = bytes
  /\ ID3v2_write_tag_on big (Some [xff; xfb]) (Some t) = Ok (Some (bytes ++ [xff; xfb]), Some (padded t))
  /\ tag_length (bytes ++ [xff; xfb]) = Some (10 + 30 * 2 ^ 21)
  /\ ID3v2_delete_tag_on big (Some (bytes ++ [xff; xfb])) = Ok (Some []).
Proof.
  split; [reflexivity|]. split; [exists [(0%nat, frame_of artist)]; repeat split; repeat constructor; auto|].
  do 3 (split; [reflexivity|]). split; [vm_compute; split; congruence|].
  do 3 (split; [vm_compute; reflexivity|]). vm_compute. reflexivity.
Qed.

(** A tag with values from 128 up in its header, where [char] is unsigned. *)
Example C64_read_applies :
  let file := tag_bytes x03 xff x9f 30 [artist] in
  let P := mkPlatform true true None in
  (exists t, ID3v2_read_tag_on P (Some file) = Ok (Some t)
     /\ t_header t = mkTH (lit "ID3") x03 xff x9f 30 0 /\ tag_has t [frame_of artist])
  /\ (exists cs, CharStream_getc_on P (mkCS 0 1 (cells [xff])) = Ok (255, cs))
  /\ (exists cs, CharStream_getc (mkCS 0 1 (cells [xff])) = Ok (-1, cs)).
Proof.
  split; [|split; eexists; vm_compute; reflexivity].
  eexists. split; [vm_compute; reflexivity|]. split; [reflexivity|].
  exists [(0%nat, frame_of artist)]. repeat split; repeat constructor; auto.
Qed.

(** ** C65 *)

(** On a machine with a limited stack every call that reads does what it does
    elsewhere, or the stack overflows. *)
Theorem C65_any : forall P,
  (forall f, ID3v2_read_tag_on P f = ID3v2_read_tag f \/ ID3v2_read_tag_on P f = Ub StackOverflow)
  /\ (forall p n, ID3v2_read_tag_from_buffer_on P p n = ID3v2_read_tag_from_buffer p n
                  \/ ID3v2_read_tag_from_buffer_on P p n = Ub StackOverflow)
  /\ (forall f, load_tag_on P f = load_tag f \/ load_tag_on P f = Ub StackOverflow)
  /\ (forall p n, load_tag_with_buffer_on P p n = load_tag_with_buffer p n
                  \/ load_tag_with_buffer_on P p n = Ub StackOverflow).
Proof. exact same_or_overflow. Qed.
Print Assumptions C65_any.

(** Every buffer: if it can be read at all, it needs some amount of stack, and is
    read exactly where there is as much. *)
Theorem C65_buffer : forall l unknown p, points_to_part p l unknown -> zlen l + Z.of_nat unknown < 2 ^ 31 ->
  let size := zlen l + Z.of_nat unknown in
  (exists r t n, tag_read l unknown r /\ shows_read r t /\ tag_need l unknown n
     /\ forall P, ID3v2_read_tag_from_buffer_on P p size = if holds P n then Ok t else Ub StackOverflow)
  \/ ((forall r, ~ tag_read l unknown r) /\ forall P, exists u, ID3v2_read_tag_from_buffer_on P p size = Ub u).
Proof. exact buffer_on_stack. Qed.
Print Assumptions C65_buffer.

(** Every file. *)
Theorem C65_file : forall content,
  (exists r t n, file_read content r /\ shows_read r t /\ file_need content n
     /\ forall P, ID3v2_read_tag_on P (Some content) = if holds P n then Ok t else Ub StackOverflow)
  \/ ((forall r, ~ file_read content r) /\ forall P, exists u, ID3v2_read_tag_on P (Some content) = Ub u).
Proof. exact file_on_stack. Qed.
Print Assumptions C65_file.

(** The same with the version 1 interface. *)
Theorem C65_load : forall P content n, announces_extended content = false -> file_need content n ->
  load_tag_on P (Some content) = if holds P n then load_tag (Some content) else Ub StackOverflow.
Proof. exact load_need. Qed.
Print Assumptions C65_load.

(** A stack that holds 2^31 - 2 bytes suffices for every file. *)
Theorem C65_bound : forall content n, file_need content n -> 0 <= n <= 2 ^ 31 - 2.
Proof. exact file_need_bound. Qed.
Print Assumptions C65_bound.

(** Nothing less does: the need does not depend on the length of the file.  There is
    a file of 23 bytes with any need from 2 bytes to the maximum, in which the same
    short text is read whenever the stack suffices. *)
Theorem C65_small_file : forall m, 2 <= m <= 2 ^ 31 - 2 ->
  zlen (claiming m) = 23 /\ file_need (claiming m) m
  /\ exists t, t_header t = mkTH (lit "ID3") x03 x00 x00 13 0 /\ t_padding t = 0
       /\ tag_has t [frame_of (FText (lit "TIT2") [x00; x00] (Iso (lit "A")))]
       /\ forall P, ID3v2_read_tag_on P (Some (claiming m)) = if holds P m then Ok (Some t) else Ub StackOverflow.
Proof. exact small_file. Qed.
Print Assumptions C65_small_file.

(** Files with a tag that the library wrote need what the texts and pictures of their
    largest frame take. *)
Theorem C65_written : forall P maj mi fl n fs sound,
  known_version maj = true -> has_extended_header fl = false ->
  Forall (fun f => frame_ok f = true) fs -> (forall fl m ty d, ~ In (FPicture fl m ty d []) fs) ->
  Forall (fun f => size_kept maj (frame_of f)) fs ->
  (forall a f b, fs = a ++ f :: b -> 10 + frames_size a < n) -> frames_size fs <= n -> n < 2 ^ 28 ->
  let content := tag_bytes maj mi fl n fs ++ sound in
  file_need content (arrays_bytes fs)
  /\ ID3v2_read_tag_on P (Some content)
     = if holds P (arrays_bytes fs) then ID3v2_read_tag (Some content) else Ub StackOverflow.
Proof. exact written_on_stack. Qed.
Print Assumptions C65_written.

(** A text, a comment, a picture: 8, 9 and 17 bytes of arrays; a stack of 17 bytes
    suffices, one of 16 does not. *)
Example C65_applies :
  let fs := [artist; comment1; cover] in
  let file := tag_bytes x03 x00 x00 100 fs ++ lit "sound" in
  Forall (fun f => frame_ok f = true) fs /\ (forall fl m ty d, ~ In (FPicture fl m ty d []) fs)
  /\ Forall (fun f => size_kept x03 (frame_of f)) fs
  /\ (forall a f b, fs = a ++ f :: b -> 10 + frames_size a < 100) /\ frames_size fs <= 100
  /\ map array_bytes fs = [8; 9; 17] /\ arrays_bytes fs = 17
  /\ (exists t, ID3v2_read_tag (Some file) = Ok (Some t) /\ tag_has t (map frame_of fs))
  /\ ID3v2_read_tag_on (mkPlatform false false (Some 17%N)) (Some file) = ID3v2_read_tag (Some file)
  /\ ID3v2_read_tag_on (mkPlatform false false (Some 16%N)) (Some file) = Ub StackOverflow.
Proof.
  cbv zeta. split; [repeat constructor|]. split; [intros fl m ty d [E|[E|[E|E]]]; try discriminate E; contradiction|].
  split; [repeat constructor; now left|]. split.
  { intros a f b E. destruct a as [|x [|y [|z [|? ?]]]]; injection E; intros; subst; try (vm_compute; reflexivity); discriminate. }
  split; [vm_compute; discriminate|]. do 2 (split; [vm_compute; reflexivity|]).
  split; [|split; vm_compute; reflexivity]. eexists. split; [vm_compute; reflexivity|].
  exists (combine (seq 0 3) (map frame_of [artist; comment1; cover])). repeat split; repeat constructor; auto; cbn; intuition discriminate.
Qed.

(** 23 bytes that need 100 bytes of stack, and read in both interfaces. *)
Example C65_small_applies :
  claiming 100 = lit "ID3" ++ [x03; x00; x00] ++ [x00; x00; x00; x0d] ++ lit "TIT2" ++ [x00; x00; x00; x65] ++ [x00; x00]
                 ++ [x00] ++ lit "A" ++ [x00]
  /\ ID3v2_read_tag_on (mkPlatform false false (Some 100%N)) (Some (claiming 100)) = ID3v2_read_tag (Some (claiming 100))
  /\ ID3v2_read_tag_on (mkPlatform false false (Some 99%N)) (Some (claiming 100)) = Ub StackOverflow
  /\ load_tag_on (mkPlatform false false (Some 99%N)) (Some (claiming 100)) = Ub StackOverflow
  /\ (exists t, load_tag (Some (claiming 100)) = Ok t)
  /\ (exists p, points_to_part p (claiming 100) 0).
Proof.
  do 4 (split; [vm_compute; reflexivity|]). split; [eexists; vm_compute; reflexivity|]. exists (Some (cells (claiming 100))).
  exists []. vm_compute. reflexivity.
Qed.
