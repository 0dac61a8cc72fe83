(** Reading described exactly: C53. *)
From Verif Require Import File Calls Spec SpecEdit SpecFile SpecRead ReadFacts Samples.
From Coq Require Import Lia.

(** Every frame that is accepted, wherever it stands and whatever follows, and
    only those; the reader moves by exactly the bytes described.  Ahead of the
    reader are the bytes [l] and then [unknown] bytes that were never written. *)
Theorem C53_frame : forall ver l unknown pre r cs,
  fits pre (ahead l unknown) ->
  (Frame_parse (at_pos pre (ahead l unknown)) ver = Ok (r, cs)
   <-> exists used gap rest, l = used ++ rest
         /\ cs = at_pos (pre ++ ahead used (Nat.min gap unknown)) (ahead rest (unknown - gap))
         /\ frame_read ver used gap rest r).
Proof. exact frame_read_iff. Qed.
Print Assumptions C53_frame.

(** Every buffer: read as described, or undefined behaviour. *)
Theorem C53_buffer : forall l unknown p,
  points_to_part p l unknown -> zlen l + Z.of_nat unknown < 2 ^ 31 ->
  let size := zlen l + Z.of_nat unknown in
  (exists r t, tag_read l unknown r /\ ID3v2_read_tag_from_buffer p size = Ok t /\ shows_read r t)
  \/ ((forall r, ~ tag_read l unknown r) /\ exists u, ID3v2_read_tag_from_buffer p size = Ub u).
Proof. exact read_exactly. Qed.
Print Assumptions C53_buffer.

(** The description leaves no choice. *)
Theorem C53_unique : forall l unknown r r', zlen l + Z.of_nat unknown < 2 ^ 31 ->
  tag_read l unknown r -> tag_read l unknown r' -> r = r'.
Proof. exact read_once. Qed.
Print Assumptions C53_unique.

(** Every file, also one that ends before its tag does. *)
Theorem C53_file : forall content,
  (exists r t, file_read content r /\ ID3v2_read_tag (Some content) = Ok t /\ shows_read r t)
  \/ ((forall r, ~ file_read content r) /\ exists u, ID3v2_read_tag (Some content) = Ub u).
Proof. exact read_file_exactly. Qed.
Print Assumptions C53_file.

(** A text frame with rubbish after its terminator, a chapter frame that is
    taken for a comment, and an unknown frame that is cut off. *)
Definition odd_buffer : list byte :=
  lit "ID3" ++ [x03; x00; x00] ++ [x00; x00; x00; x2c]
  ++ (lit "TXXX" ++ [x00; x00; x00; x06] ++ [x00; x00] ++ [x03] ++ lit "k" ++ [x00] ++ lit "val")
  ++ (lit "CTOC" ++ [x00; x00; x00; x00] ++ [x00; x00] ++ lit "t" ++ lit "oc1" ++ [x00] ++ lit "x" ++ [x00])
  ++ (lit "PRIV" ++ [x00; x00; x00; x04] ++ [x00; x00] ++ lit "a").

(** A file that ends within the data of its last frame, seven bytes before the
    end of its tag. *)
Definition cut_file : list byte :=
  lit "ID3" ++ [x03; x00; x00] ++ [x00; x00; x00; x1f]
  ++ (lit "TIT2" ++ [x00; x00; x00; x03] ++ [x00; x00] ++ [x00] ++ lit "k" ++ [x00])
  ++ (lit "PRIV" ++ [x00; x00; x00; x10] ++ [x00; x00] ++ lit "a").

Example C53_applies :
  zlen odd_buffer + Z.of_nat 0 < 2 ^ 31 /\ points_to_part (Some (ahead odd_buffer 0)) odd_buffer 0
  /\ (exists fs, length fs = 3%nat
      /\ tag_read odd_buffer 0 (Some (mkTH (lit "ID3") x03 x00 x00 44 0, fs, 0)))
  /\ (forall r, ~ tag_read (lit "ID3" ++ [x03; x00; x00] ++ [x00; x00; x00; x64] ++ lit "TIT2") 0 r).
Proof.
  split; [reflexivity|]. split; [apply points_to_part_exact|].
  split.
  { destruct (C53_buffer odd_buffer 0 _ (points_to_part_exact _ _) eq_refl) as [(r & t & R & E & S)|[_ (u & E)]];
      vm_compute in E; [|discriminate E]. injection E as <-.
    destruct r as [[[h fs] pad]|]; [|contradiction]. destruct S as (<- & H & <-).
    exists fs. split; [|exact R]. destruct H as (ps & E & <- & _).
    destruct ps as [|p1 [|p2 [|p3 [|p4 ps]]]]; try discriminate E. reflexivity. }
  intros r R. set (l := _ ++ _) in R.
  destruct (C53_buffer l 0 _ (points_to_part_exact _ _) eq_refl) as [(r' & t & _ & E & _)|[N _]].
  - vm_compute in E. discriminate E.
  - now apply N in R.
Qed.

Example C53_file_applies :
  zlen cut_file = 34 /\ tag_length cut_file = Some 41
  /\ (exists fs, length fs = 2%nat /\ file_read cut_file (Some (mkTH (lit "ID3") x03 x00 x00 31 0, fs, 0)))
  /\ (forall r, ~ file_read (firstn 30 cut_file) r)
  /\ (exists fs, length fs = 3%nat
      /\ file_read (odd_buffer ++ repeat x41 20) (Some (mkTH (lit "ID3") x03 x00 x00 44 0, fs, 0)))
  /\ file_read (repeat x41 20) None.
Proof.
  split; [reflexivity|]. split; [reflexivity|]. split.
  { destruct (C53_file cut_file) as [(r & t & R & E & S)|[_ (u & E)]]; vm_compute in E; [|discriminate E]. injection E as <-.
    destruct r as [[[h fs] pad]|]; [|contradiction]. destruct S as (<- & H & <-).
    exists fs. split; [|exact R]. destruct H as (ps & E & <- & _).
    destruct ps as [|p1 [|p2 [|p3 ps]]]; try discriminate E. reflexivity. }
  split.
  { intros r R. destruct (C53_file (firstn 30 cut_file)) as [(r' & t & _ & E & _)|[N _]].
    - vm_compute in E. discriminate E.
    - now apply N in R. }
  split; [|split; reflexivity].
  destruct (C53_file (odd_buffer ++ repeat x41 20)) as [(r & t & R & E & S)|[_ (u & E)]]; vm_compute in E; [|discriminate E]. injection E as <-.
  destruct r as [[[h fs] pad]|]; [|contradiction]. destruct S as (<- & H & <-).
  exists fs. split; [|exact R]. destruct H as (ps & E & <- & _).
  destruct ps as [|p1 [|p2 [|p3 [|p4 ps]]]]; try discriminate E. reflexivity.
Qed.
