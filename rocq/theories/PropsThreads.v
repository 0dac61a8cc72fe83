(** Property of threads that use the library at the same time: C63. *)
From Coq Require Import List ZArith Lia.
From Verif Require Import File Compat Stdio Threads Spec SpecFile SpecStdio SpecThreads ThreadFacts Samples.
Import ListNotations.
Open Scope Z_scope.

(** ** C63 *)

(** The programs whose calls are interleaved are the functions of the other
    claims. *)
Theorem C63_same : forall c s, perform (result_p c) s = result_s c s.
Proof. exact same_result. Qed.
Print Assumptions C63_same.

(** Any number of threads, whatever they do with the library and with stdio and
    however their calls are interleaved: when no thread changes a file that
    another one opens, each is at any time where it would be had it been left
    alone for as many calls, its files hold what they would hold, and a file
    that nobody changes stays as it is.  Threads may read the same file. *)
Theorem C63_threads : forall A (g : shared) (ts : nat -> prog A * sys) (R W : nat -> list byte -> Prop),
  (forall i j n, i <> j -> W i n -> ~ R j n) ->
  (forall i, opens (R i) (fst (ts i)) /\ owns (R i) (snd (ts i)) /\
             changes_only (W i) (fst (ts i)) (view g (snd (ts i)))) ->
  forall schedule,
  let w := turns (g, ts) schedule in
  (forall i, let x := alone (turns_of i schedule) (fst (ts i), view g (snd (ts i))) in
     fst (snd w i) = fst x /\ agree (R i) (view (fst w) (snd (snd w i))) (snd x)) /\
  (forall n, (forall i, ~ W i n) -> fst w n = g n).
Proof. exact threads_apart. Qed.
Print Assumptions C63_threads.

(** Threads that call the functions of this library on files: when no thread
    writes a tag to a file that another one uses, or deletes its tag, every
    thread gets, from some number of its turns on, what its calls return one after
    the other without other threads, and its files are left as they leave them. *)
Theorem C63_calls : forall (g : shared) (ls : nat -> list file_call) (locals : nat -> sys),
  (forall i j c c' n, i <> j -> In c (ls i) -> changes c n -> In c' (ls j) -> ~ uses c' n) ->
  (forall i, sound (locals i) /\ owns (any uses (ls i)) (locals i)) ->
  (forall schedule n, (forall i c, In c (ls i) -> ~ changes c n) ->
     fst (turns (g, fun i => (results_p (ls i), locals i)) schedule) n = g n) /\
  (forall i, exists o s' k, results_s (ls i) (view g (locals i)) = (o, s') /\
     (forall r, o = Ok r -> tidy (view g (locals i)) s') /\
     forall schedule,
     let w := turns (g, fun i => (results_p (ls i), locals i)) schedule in
     (forall o', fst (snd w i) = Stop o' -> o' = o) /\
     ((k <= turns_of i schedule)%nat ->
      fst (snd w i) = Stop o /\ agree (any uses (ls i)) (view (fst w) (snd (snd w i))) s')).
Proof. exact threads_calls. Qed.
Print Assumptions C63_calls.

(** Two threads that read the same file; then one writes a second file while the
    other deletes the tag of a third, call by call in turn. *)
Definition tagged := tag_bytes x04 x00 x00 30 [artist] ++ [xff; xfb; x90].
Definition three_files : shared := fun n =>
  if list_eq_dec Byte.byte_eq_dec n (lit "a") then Some tagged
  else if list_eq_dec Byte.byte_eq_dec n (lit "b") then Some (tagged ++ [x07])
  else if list_eq_dec Byte.byte_eq_dec n (lit "c") then Some tagged else None.
Definition nothing_open (_ : nat) : sys := mkSys (fun _ => None) (fun _ => None) 0 [] [].
Definition two_lists (i : nat) : list file_call :=
  match i with
  | O => [ReadTag (lit "c"); WriteTag (lit "a") (Some (tag_with [artist] 30))]
  | S O => [ReadTag (lit "c"); DeleteTag (lit "b")]
  | _ => []
  end.
Definition in_turn := concat (repeat [0%nat; 1%nat] 500).

Example C63_applies :
  (forall i j c c' n, i <> j -> In c (two_lists i) -> changes c n -> In c' (two_lists j) -> ~ uses c' n)
  /\ (forall i, sound (nothing_open i) /\ owns (any uses (two_lists i)) (nothing_open i))
  /\ let '(g, ts) := turns (three_files, fun i => (results_p (two_lists i), nothing_open i)) in_turn in
     match fst (ts 0%nat), fst (ts 1%nat) with
     | Stop (Ok [RTag (Some t); RTag (Some _)]), Stop (Ok [RTag (Some u); RNothing]) =>
         t = u /\ g (lit "a") = Some (tag_bytes x03 x00 x00 30 [artist] ++ [xff; xfb; x90])
         /\ g (lit "b") = Some [xff; xfb; x90; x07] /\ g (lit "c") = Some tagged
     | _, _ => False
     end.
Proof.
  split; [|split].
  - intros [|[|i]] [|[|j]] c c' n N I C J U; try congruence; cbn [two_lists] in I, J;
      repeat match goal with
      | H : In _ [] |- _ => destruct H
      | H : In _ (_ :: _) |- _ => destruct H as [<-|H]
      end; cbn [changes uses] in C, U; try contradiction; subst; try discriminate U; congruence.
  - intros i. split; [intros k _; split; reflexivity|discriminate].
  - vm_compute. repeat split.
Qed.

(** Without the condition this is not so: a thread that reads the file just
    after another one has opened it for writing finds no tag, although there is
    one before and after. *)
Example C63_condition :
  let calls i := match i with
    | O => [WriteTag (lit "a") (Some (tag_with [artist] 30))] | S O => [ReadTag (lit "a")] | _ => [] end in
  let w := turns (three_files, fun i => (results_p (calls i), nothing_open i))
             (repeat 0%nat 67 ++ repeat 1%nat 100 ++ repeat 0%nat 300) in
  fst (snd w 1%nat) = Stop (Ok [RTag None])
  /\ fst w (lit "a") = Some (tag_bytes x03 x00 x00 30 [artist] ++ [xff; xfb; x90])
  /\ match ID3v2_read_tag (three_files (lit "a")), ID3v2_read_tag (fst w (lit "a")) with
     | Ok (Some _), Ok (Some _) => True
     | _, _ => False
     end.
Proof. vm_compute. repeat split. Qed.
