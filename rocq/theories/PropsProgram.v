(** Properties of reading and writing in memory, and of whole programs: C49 to C52. *)
From Verif Require Import File Calls Spec SpecEdit SpecFile Heap HeapIO SpecHeap Program SpecHeapIO
  HeapReadFacts HeapWriteFacts ProgramFacts Samples.
From Coq Require Import Lia.

(** ** C49 *)

(** Reading does on the heap what its description on values says.  The tag it
    returns is all that it leaves allocated; when it returns NULL, nothing. *)
Theorem C49_file : forall h m f,
  heap_is h m -> agrees (loaded m) (ID3v2_read_tag f) (ID3v2_read_tag_h f h).
Proof. exact read_tag_is. Qed.
Print Assumptions C49_file.

Theorem C49_buffer : forall h m p n,
  heap_is h m -> agrees (loaded m) (ID3v2_read_tag_from_buffer p n) (ID3v2_read_tag_from_buffer_h p n h).
Proof. exact read_buffer_is. Qed.
Print Assumptions C49_buffer.

Theorem C49_header_file : forall h m f,
  heap_is h m -> agrees (header_loaded m) (ID3v2_read_tag_header f) (ID3v2_read_tag_header_h f h).
Proof. exact header_file_loaded. Qed.
Print Assumptions C49_header_file.

Theorem C49_header_buffer : forall h m p,
  heap_is h m ->
  agrees (header_loaded m) (ID3v2_read_tag_header_from_buffer p) (ID3v2_read_tag_header_from_buffer_h p h).
Proof. exact header_buffer_loaded. Qed.
Print Assumptions C49_header_buffer.

(** The kind of every frame read fits its id, whatever the bytes, as the
    theorems about calls and about ID3v2_Tag_free require. *)
Theorem C49_kinds_file : forall f t, ID3v2_read_tag f = Ok (Some t) -> kinds_ok (t_frames t).
Proof. exact read_tag_kinds. Qed.
Print Assumptions C49_kinds_file.

Theorem C49_kinds_buffer : forall p n t,
  n < 2 ^ 31 -> ID3v2_read_tag_from_buffer p n = Ok (Some t) -> kinds_ok (t_frames t).
Proof. exact read_buffer_kinds. Qed.
Print Assumptions C49_kinds_buffer.

Definition song : list byte := tag_bytes x03 x00 x00 130 samples ++ [xff; xfb; x90].
Definition heap1 : heap := mkHeap [(7%nat, BBytes (cells (lit "someone else's")))] 8.

(** Tag, tag header, five nodes and the blocks of five frames are allocated,
    those of the streams and the buffer are gone. *)
Example C49_applies :
  heap_is heap1 (live heap1)
  /\ (exists t, ID3v2_read_tag (Some song) = Ok (Some t) /\ length (t_frames t) = 5%nat)
  /\ (exists a h, ID3v2_read_tag_h (Some song) heap1 = Ok (Some a, h)
      /\ length (live h) = (1 + (2 + 5) + (4 + 5 + 3 + 5 + 6))%nat)
  /\ ID3v2_read_tag (Some (lit "no tag at all")) = Ok None
  /\ (exists h, ID3v2_read_tag_h (Some (lit "no tag at all")) heap1 = Ok (None, h) /\ live h = live heap1).
Proof.
  split; [repeat split; repeat constructor; cbn; auto|].
  split; [eexists; split; vm_compute; reflexivity|].
  split; [eexists _, _; split; vm_compute; reflexivity|].
  split; [vm_compute; reflexivity|]. eexists. split; vm_compute; reflexivity.
Qed.

(** ** C50 *)

(** ID3v2_write_tag leaves the tag where it is, with the same nodes, frames and
    strings at the same addresses ([pl]); it loses two blocks per frame of an
    unknown kind. *)
Theorem C50_write : forall h a t pl rest f,
  tag_laid h a t pl rest -> kinds_ok (t_frames t) ->
  agrees (stored a pl (written_leak (t_frames t)) rest)
    (ID3v2_write_tag_states f (Some t)) (ID3v2_write_tag_h f (Some a) h).
Proof. exact write_tag_is. Qed.
Print Assumptions C50_write.

Example C50_applies :
  exists a h t pl, ID3v2_read_tag_h (Some song) heap1 = Ok (Some a, h) /\ ID3v2_read_tag (Some song) = Ok (Some t)
    /\ tag_laid h a t pl (live heap1) /\ kinds_ok (t_frames t) /\ written_leak (t_frames t) = 1%nat
    /\ (exists sv, ID3v2_write_tag_states (Some song) (Some t) = Ok sv /\ last (fst sv) None = Some song)
    /\ exists st h', ID3v2_write_tag_h (Some song) (Some a) h = Ok (st, h')
       /\ length (live h') = (length (live h) + 2)%nat.
Proof.
  assert (H : heap_is heap1 (live heap1)) by (repeat split; repeat constructor; cbn; auto).
  assert (A := C49_file heap1 _ (Some song) H).
  destruct (ID3v2_read_tag (Some song)) as [[t|]| | |] eqn:E; try (vm_compute in E; discriminate E).
  assert (K := C49_kinds_file _ _ E).
  destruct A as ((p & h) & Eh & a & Ea & pl & T). cbn [fst snd] in *. subst p.
  vm_compute in E. injection E as <-. vm_compute in Eh. injection Eh as <- <-.
  eexists _, _, _, pl. split; [vm_compute; reflexivity|]. split; [reflexivity|]. split; [exact T|]. split; [exact K|].
  split; [vm_compute; reflexivity|].
  split; [eexists; split; vm_compute; reflexivity|]. eexists _, _. split; vm_compute; reflexivity.
Qed.

(** ** C51 *)

(** ID3v2_delete_tag leaves nothing allocated. *)
Theorem C51_delete : forall h m f,
  heap_is h m ->
  agrees (fun v r => v = fst r /\ heap_is (snd r) m) (ID3v2_delete_tag_states f) (ID3v2_delete_tag_h f h).
Proof. exact delete_tag_is. Qed.
Print Assumptions C51_delete.

Example C51_applies :
  heap_is heap1 (live heap1)
  /\ exists st h, ID3v2_delete_tag_h (Some song) heap1 = Ok (st, h) /\ live h = live heap1
     /\ last st None = Some [xff; xfb; x90].
Proof.
  split; [repeat split; repeat constructor; cbn; auto|]. eexists _, _. split; [vm_compute; reflexivity|].
  split; vm_compute; reflexivity.
Qed.

(** ** C52 *)

(** A program with any number of tags and files does on the heap what it does
    on values: same outcome, same files, and every tag it holds is in the heap
    with blocks of its own.  [leaks] is computed from the values alone. *)
Theorem C52_program : forall prog w x m,
  shows_world w x m -> Forall step_ok prog ->
  agrees (fun w' x' => exists lost, length lost = leaks w prog /\ shows_world w' x' (lost ++ m))
    (run w prog) (run_h x prog).
Proof. exact run_is. Qed.
Print Assumptions C52_program.

(** It never uses or frees what it has freed, nor takes a block for one of
    another type, whatever is in the files and buffers. *)
Theorem C52_tidy : forall prog w x m,
  shows_world w x m -> Forall step_ok prog -> tidy (run_h x prog).
Proof. exact run_tidy. Qed.
Print Assumptions C52_tidy.

(** When it has freed all its tags, only the lost blocks are left. *)
Theorem C52_end : forall prog w x m w',
  shows_world w x m -> Forall step_ok prog ->
  run w prog = Ok w' -> Forall (fun t => t = None) (w_tags w') ->
  exists x' lost, run_h x prog = Ok x' /\ m_disk x' = w_disk w' /\ heap_is (m_heap x') (lost ++ m)
    /\ length lost = leaks w prog.
Proof. exact run_ends. Qed.
Print Assumptions C52_end.

(** Two tags at once: one from a file with a frame of an unknown kind, one
    new; the second comment is deleted, both are written, both are freed.
    One node, two streams' worth of blocks and one struct are lost. *)
Definition disk0 : disk := fun n => match n with 0%nat => Some song | 1%nat => Some [xff; xfb] | _ => None end.
Definition program : list step :=
  [ ReadTag 0; NewTag; ReadTag 2; ReadHeader 0; GetFrame 0 (clit "TIT2");
    Call 0 (SetTitle (Some (cells (text_image (Iso (lit "Other"))))));
    Call 1 (SetArtist (Some (cells (text_image (Iso (lit "Someone"))))));
    Call 0 (DeleteCommentFrame 1); Call 2 DeleteArtist; GetFrames 0 (clit "COMM"); WriteTag 0 1; FreeTag 0; DeleteTag 0; FreeTag 1; FreeTag 1 ].

Example C52_applies :
  shows_world (mkWorld disk0 []) (mkMachine disk0 [] heap1) (live heap1) /\ Forall step_ok program
  /\ leaks (mkWorld disk0 []) program = 4%nat
  /\ match run (mkWorld disk0 []) program with
     | Ok w' => w_tags w' = [None; None; None] /\ w_disk w' 0%nat = Some [xff; xfb; x90]
                /\ match w_disk w' 1%nat with
                   | Some b => firstn 3 b = lit "ID3" /\ audio b = [xff; xfb]
                   | None => False
                   end
     | _ => False
     end
  /\ match run_h (mkMachine disk0 [] heap1) program with
     | Ok x' => m_tags x' = [None; None; None] /\ length (live (m_heap x')) = 5%nat
     | _ => False
     end.
Proof.
  split. { split; [reflexivity|]. exists []. split; [constructor|]. repeat split; repeat constructor; cbn; auto. }
  split; [repeat constructor|]. split; [vm_compute; reflexivity|].
  split; [vm_compute; repeat split; reflexivity|]. vm_compute. split; reflexivity.
Qed.
