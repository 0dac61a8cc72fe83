(** Properties of threads that share a tag: C68. *)
From Verif Require Import Calls Spec SpecEdit Heap SpecHeap HistFacts HeapTagFacts HeapLifeFacts HeapEditFacts HeapPtrFacts Shared SpecShared SharedRunFacts SharedThreadFacts Samples.
From Coq Require Import Lia.

(** ** The programs *)

(** A thread that is left alone does what the functions on the heap do. *)
Theorem C68_same_call : forall tag c h,
  run_call_h tag c h <> NoFuel ->
  exists n0, forall n, (n0 <= n)%nat -> comes_to (run_call_p n tag c, h) (let* h' := run_call_h tag c h in Ok (tt, h')).
Proof. exact same_call. Qed.
Print Assumptions C68_same_call.

Theorem C68_same_get : forall tag id h,
  ID3v2_Tag_get_frame_h tag id h <> NoFuel ->
  exists n0, forall n, (n0 <= n)%nat ->
    comes_to (ID3v2_Tag_get_frame_p n tag id, h) (let* p := ID3v2_Tag_get_frame_h tag id h in Ok (p, h)).
Proof. exact same_get. Qed.
Print Assumptions C68_same_get.

Theorem C68_same_all : forall tag id h,
  ID3v2_Tag_get_frames_h tag id h <> NoFuel ->
  exists n0, forall n, (n0 <= n)%nat -> comes_to (ID3v2_Tag_get_frames_p n tag id, h) (ID3v2_Tag_get_frames_h tag id h).
Proof. exact same_all. Qed.
Print Assumptions C68_same_all.

Theorem C68_same_free : forall tag h,
  ID3v2_Tag_free tag h <> NoFuel ->
  exists n0, forall n, (n0 <= n)%nat -> comes_to (ID3v2_Tag_free_p n tag, h) (let* h' := ID3v2_Tag_free tag h in Ok (tt, h')).
Proof. exact same_free. Qed.
Print Assumptions C68_same_free.

(** ** Any threads *)

(** Threads can race exactly when two of them, each left alone, would make
    accesses that clash. *)
Theorem C68_race_iff : forall A (w : world A),
  apart w -> (forall i, fine (start w i)) ->
  can_race w <-> exists i j x y, i <> j /\ touches (start w i) x /\ touches (start w j) y /\ clash x y.
Proof. exact @race_exactly. Qed.
Print Assumptions C68_race_iff.

(** Otherwise each thread does what it would do alone, in every schedule ... *)
Theorem C68_as_if_alone : forall A (w : world A),
  apart w -> (forall i, fine (start w i)) ->
  (forall i j x y, i <> j -> touches (start w i) x -> touches (start w j) y -> ~ clash x y) ->
  forall schedule i, of_thread (turns w schedule) i = fst (alone (turns_of i schedule) (start w i)).
Proof. exact @quiet_alone. Qed.
Print Assumptions C68_as_if_alone.

(** ... and memory that the other threads do not change holds what this thread
    alone would leave there. *)
Theorem C68_memory : forall A (w : world A),
  apart w -> (forall i, fine (start w i)) ->
  (forall i j x y, i <> j -> touches (start w i) x -> touches (start w j) y -> ~ clash x y) ->
  forall schedule i a f,
    (forall j, j <> i -> ~ allocates (start w j) a) -> (forall j x, j <> i -> touches (start w j) x -> ~ changes x a f) ->
    cell (fst (turns w schedule)) a f = cell (live (snd (alone (turns_of i schedule) (start w i)))) a f.
Proof. exact @quiet_memory. Qed.
Print Assumptions C68_memory.

(** ** Threads on one tag *)

(** Any number of threads may read one tag at once, as often as they like:
    there is no race, and whatever the schedule, each thread gets the replies
    that the frames of the tag say. *)
Theorem C68_readers : forall (w : world (list reply)) a t ps n rs os,
  apart w -> pointers (snd (start w O)) a t ps -> Forall sane (map snd ps) -> Forall kind_ok (map snd ps) ->
  (length ps + 3 <= n)%nat ->
  (forall i, of_thread w i = requests_p n (rs i) /\ Forall2 (asks a t ps) (rs i) (os i) /\ forallb reads_only (os i) = true) ->
  ~ can_race w
  /\ forall i, exists m, forall schedule, (m <= turns_of i schedule)%nat ->
       of_thread (turns w schedule) i = Stop (Ok (map (answer ps) (os i))).
Proof. exact readers. Qed.
Print Assumptions C68_readers.

(** Threads with one request each race exactly when two of the requests are in
    conflict. *)
Theorem C68_table : forall (w : world reply) a t ps n os,
  apart w -> pointers (snd (start w O)) a t ps -> Forall sane (map snd ps) -> Forall kind_ok (map snd ps) ->
  (length ps + 3 <= n)%nat -> each_asks n a t ps w os ->
  can_race w <-> exists i j o o', i <> j /\ os i = Some o /\ os j = Some o' /\ conflict (map snd ps) o o'.
Proof. exact race_table. Qed.
Print Assumptions C68_table.

(** If none are, each thread ends as it would alone, with the reply that the
    frames of the tag say, whatever the schedule. *)
Theorem C68_no_conflict : forall (w : world reply) a t ps n os,
  apart w -> pointers (snd (start w O)) a t ps -> Forall sane (map snd ps) -> Forall kind_ok (map snd ps) ->
  (length ps + 3 <= n)%nat -> each_asks n a t ps w os ->
  (forall i j o o', i <> j -> os i = Some o -> os j = Some o' -> ~ conflict (map snd ps) o o') ->
  forall i, exists x m, match os i with Some o => x = answer ps o | None => of_thread w i = Stop (Ok x) end
    /\ ends (start w i) (Ok x)
    /\ forall schedule, (m <= turns_of i schedule)%nat -> of_thread (turns w schedule) i = Stop (Ok x).
Proof. exact table_alone. Qed.
Print Assumptions C68_no_conflict.

(** ** A tag with an artist, a comment and a picture *)

Definition some_comment : CommentFrameInput :=
  mkCommentInput NO_FLAGS (clit "eng") EMPTY_UNICODE_STR (Some (cells (text_image (Iso (lit "nice"))))).
Definition calls3 : list call :=
  [ SetArtist (Some (cells (text_image (Iso (lit "Someone"))))); AddCommentFrame some_comment;
    SetAlbumCover (clit "image/png") 3 (Some (cells [x00; x00; xff])) ].
Definition edits3 : list edit := [ Put artist; Append comment1; Put cover ].
Definition frames3 : list frame := map frame_of [artist; comment1; cover].
Definition tag3 : nat := fst (ID3v2_Tag_new_empty_h (mkHeap [] 8)).
Definition heap3 : heap :=
  match run_calls_h (Some tag3) calls3 (snd (ID3v2_Tag_new_empty_h (mkHeap [] 8))) with Ok h => h | _ => mkHeap [] 0 end.
Definition artist_at : nat :=
  match ID3v2_Tag_get_frame_h (Some tag3) (clit "TPE1") heap3 with Ok (Some p) => p | _ => O end.

Lemma means3 : Forall2 means calls3 edits3.
Proof.
  constructor; [apply MArtist, points_to_exact|]. constructor.
  { apply (MAddComment NO_FLAGS (clit "eng") EMPTY_UNICODE_STR);
      [exists [Some x00]; reflexivity|exists [Some x00]; reflexivity|exists [Some x00]; reflexivity|apply points_to_exact]. }
  constructor; [|constructor].
  apply (MAlbumCover (clit "image/png") (Some (cells [x00; x00; xff])) (Iso (lit "image/png")) [x00; x00; xff]);
    [exists []; reflexivity|exists []; reflexivity].
Qed.

(** The tag is in the heap; the frames do not depend on the next address. *)
Lemma there3 : exists t ps, pointers heap3 tag3 t ps /\ map snd ps = frames3 /\ nth_error ps 0 = Some (artist_at, frame_of artist)
  /\ Forall sane (map snd ps) /\ Forall kind_ok (map snd ps).
Proof.
  assert (H : heap_is (mkHeap [] 8) (live (mkHeap [] 8))) by (repeat split; repeat constructor).
  assert (K : Forall call_kind calls3) by repeat constructor.
  destruct (new_is _ _ H) as (a & h1 & E1 & T1 & K1).
  destruct (edit_steps calls3 ID3v2_Tag_new_empty [] edits3 new_empty_has (Forall_nil _)) as (t & E & Th & S & Hd & _);
    [cbn; lia|exact means3|reflexivity|].
  assert (Si := calls_are calls3 h1 a _ _ T1 K1 K). rewrite E in Si. destruct Si as (h2 & E2 & lost & _ & T2 & K2 & _).
  destruct (pointers_exist h2 a t _ _ T2 Th) as (ps & Ep & P).
  assert (Ea : apply_edits edits3 [] = frames3) by reflexivity. rewrite Ea in *.
  assert (a = tag3 /\ h2 = heap3) as (-> & ->).
  { unfold heap3, tag3. rewrite E1. cbn [fst snd]. rewrite E2. split; reflexivity. }
  exists t, ps. split; [exact P|]. split; [exact Ep|]. split; [|rewrite Ep; split; [exact S|repeat constructor; eexists _, _; split; reflexivity]].
  rewrite <- Ep in S. unfold artist_at. rewrite (get_in_pointers _ _ _ _ (clit "TPE1") (lit "TPE1") P S (ex_intro _ [Some x00] eq_refl) eq_refl).
  destruct ps as [|[p f] ps]; [discriminate Ep|]. cbn [map snd frames3] in Ep. injection Ep as Ef Ep. subst f. cbn [find snd].
  replace (named (lit "TPE1") (frame_of artist)) with true by reflexivity. reflexivity.
Qed.

Example C68_same_applies :
  run_call_h (Some tag3) (DeleteCommentFrame 0) heap3 <> NoFuel /\ ID3v2_Tag_get_frame_h (Some tag3) (clit "COMM") heap3 <> NoFuel
  /\ ID3v2_Tag_get_frames_h (Some tag3) (clit "COMM") heap3 <> NoFuel /\ ID3v2_Tag_free (Some tag3) heap3 <> NoFuel.
Proof. repeat split; vm_compute; discriminate. Qed.

(** Two threads, that both have room for 50 blocks; the others have ended. *)
Definition two_on {A} (h : heap) (x : A) (p q : prog A) : world A :=
  (live h, fun i => match i with O => (p, next h) | S O => (q, (next h + 50)%nat) | _ => (Stop (Ok x), next h) end).
Definition two {A} : A -> prog A -> prog A -> world A := two_on heap3.

Lemma heap_eta (h : heap) : mkHeap (live h) (next h) = h.
Proof. now destruct h. Qed.
Lemma two_on_apart A h0 (x : A) p q a h b h' :
  NoDup (map fst (live h0)) -> Forall (fun a => (a < next h0)%nat) (map fst (live h0)) ->
  run p h0 = Ok (a, h) -> run q (mkHeap (live h0) (next h0 + 50)) = Ok (b, h') ->
  Nat.leb (next h) (next h0 + 50) = true -> apart (two_on h0 x p q).
Proof.
  intros D F Rp Rq L. apply Nat.leb_le in L. split; [|split].
  - exact D.
  - intros [|[|i]]; unfold start, two_on; cbn [fst snd next]; try exact F. eapply Forall_impl; [|exact F]. cbv beta. intros. lia.
  - assert (R0 : forall z, allocates (start (two_on h0 x p q) 0) z -> (z < next h0 + 50)%nat).
    { intros z Z. unfold start, two_on in Z. cbn [fst snd] in Z. rewrite (heap_eta h0) in Z. apply (run_allocates _ _ _ _ z Rp) in Z. lia. }
    assert (R1 : forall z, allocates (start (two_on h0 x p q) 1) z -> (next h0 + 50 <= z)%nat).
    { intros z Z. unfold start, two_on in Z. cbn [fst snd] in Z. apply (run_allocates _ _ _ _ z Rq) in Z. cbn [next] in Z. lia. }
    assert (R2 : forall i z, ~ allocates (start (two_on h0 x p q) (S (S i))) z).
    { intros i z Z. unfold start, two_on in Z. cbn [fst snd] in Z.
      assert (Rs : run (Stop (Ok x)) (mkHeap (live h0) (next h0)) = Ok (x, mkHeap (live h0) (next h0))) by reflexivity.
      apply (run_allocates _ _ _ _ z Rs) in Z. lia. }
    intros [|[|i]] j z N Ai Aj; [| |exact (R2 _ _ Ai)]; (destruct j as [|[|j]]; [| |exact (R2 _ _ Aj)]).
    + exact (N eq_refl).
    + apply R0 in Ai. apply R1 in Aj. lia.
    + apply R1 in Ai. apply R0 in Aj. lia.
    + exact (N eq_refl).
Qed.
Lemma two_apart A (x : A) p q a h b h' :
  run p heap3 = Ok (a, h) -> run q (mkHeap (live heap3) (next heap3 + 50)) = Ok (b, h') ->
  Nat.leb (next h) (next heap3 + 50) = true -> apart (two x p q).
Proof.
  apply two_on_apart; [|vm_compute; repeat constructor]. vm_compute. repeat constructor; cbn; intuition discriminate.
Qed.

(** One thread gets all comments and the picture, the other one reads the text
    of the artist and gets all pictures. *)
Definition reading (i : nat) : list request :=
  match i with
  | O => [GetAll (Some tag3) (clit "COMM"); Get (Some tag3) (clit "APIC")]
  | S O => [Text (Some artist_at); GetAll (Some tag3) (clit "APIC")]
  | _ => []
  end.
Definition read (i : nat) : list op :=
  match i with
  | O => [OGetAll (lit "COMM"); OGet (lit "APIC")]
  | S O => [OText 0; OGetAll (lit "APIC")]
  | _ => []
  end.
Definition readers3 : world (list reply) := two [] (requests_p 10 (reading 0)) (requests_p 10 (reading 1)).

Lemma arg4 (s : String.string) : points_to (clit s) (lit s).
Proof. exists [Some x00]. unfold clit, cells. now rewrite map_app. Qed.

Example C68_readers_applies :
  apart readers3
  /\ (exists t ps, pointers (snd (start readers3 O)) tag3 t ps /\ map snd ps = frames3
        /\ Forall sane (map snd ps) /\ Forall kind_ok (map snd ps) /\ (length ps + 3 <= 10)%nat
        /\ forall i, of_thread readers3 i = requests_p 10 (reading i) /\ Forall2 (asks tag3 t ps) (reading i) (read i)
                     /\ forallb reads_only (read i) = true)
  /\ exists p q, of_thread (turns readers3 (concat (repeat [0; 1; 1] 50)%nat)) 0 = Stop (Ok [FoundAll [Some p]; Found (Some q)])
     /\ of_thread (turns readers3 (concat (repeat [0; 1; 1] 50)%nat)) 1
        = Stop (Ok [TextIs (cells (text_image (Iso (lit "Someone")))); FoundAll [Some q]]).
Proof.
  split; [eapply two_apart; vm_compute; reflexivity|]. split.
  - destruct there3 as (t & ps & P & Ep & N0 & S & K). exists t, ps. split; [unfold start, readers3, two, two_on; cbn [fst snd]; now rewrite heap_eta|]. split; [exact Ep|]. split; [exact S|]. split; [exact K|].
    split; [rewrite <- (map_length snd ps), Ep; cbn; lia|].
    intros [|[|i]]; (split; [reflexivity|split; [|reflexivity]]); cbn [reading read]; repeat constructor; try apply arg4.
    eapply AText; [exact N0|reflexivity].
  - eexists _, _. split; vm_compute; reflexivity.
Qed.

(** One thread adds a comment, the other one gets the picture: no conflict, and
    the comment is there in the end. *)
Definition adding : request := Edit (Some tag3) (AddCommentFrame some_comment).
Definition getting (id : String.string) : request := Get (Some tag3) (clit id).
Definition one_each (r r' : request) : world reply := two Nothing (request_p 10 r) (request_p 10 r').
Definition ops (o o' : op) (i : nat) : option op := match i with O => Some o | S O => Some o' | _ => None end.

Lemma each_two t ps r r' o o' : asks tag3 t ps r o -> asks tag3 t ps r' o' -> each_asks 10 tag3 t ps (one_each r r') (ops o o').
Proof. intros A A' [|[|i]]; cbn [ops]; [exists r; auto|exists r'; auto|now exists Nothing]. Qed.
Lemma adding_asks t ps : asks tag3 t ps adding (OEdit (Append comment1)).
Proof.
  constructor; [|reflexivity|exact I].
  apply (MAddComment NO_FLAGS (clit "eng") EMPTY_UNICODE_STR);
    [exists [Some x00]; reflexivity|exists [Some x00]; reflexivity|exists [Some x00]; reflexivity|apply points_to_exact].
Qed.

Example C68_table_applies :
  apart (one_each adding (getting "APIC")) /\ apart (one_each adding (getting "TIT2"))
  /\ exists t ps, pointers heap3 tag3 t ps /\ map snd ps = frames3
     /\ Forall sane (map snd ps) /\ Forall kind_ok (map snd ps) /\ (length ps + 3 <= 10)%nat
     /\ each_asks 10 tag3 t ps (one_each adding (getting "APIC")) (ops (OEdit (Append comment1)) (OGet (lit "APIC")))
     /\ each_asks 10 tag3 t ps (one_each adding (getting "TIT2")) (ops (OEdit (Append comment1)) (OGet (lit "TIT2")))
     /\ ~ conflict frames3 (OEdit (Append comment1)) (OGet (lit "APIC"))
     /\ conflict frames3 (OEdit (Append comment1)) (OGet (lit "TIT2"))
     /\ conflict frames3 (OEdit (Put artist)) (OText 0) /\ ~ conflict frames3 (OEdit (Put artist)) (OText 1).
Proof.
  split; [eapply two_apart; vm_compute; reflexivity|]. split; [eapply two_apart; vm_compute; reflexivity|].
  destruct there3 as (t & ps & P & Ep & N0 & S & K). exists t, ps. split; [exact P|]. split; [exact Ep|]. split; [exact S|]. split; [exact K|].
  split; [rewrite <- (map_length snd ps), Ep; cbn; lia|].
  split; [apply each_two; [apply adding_asks|constructor; [apply arg4|reflexivity]]|].
  split; [apply each_two; [apply adding_asks|constructor; [apply arg4|reflexivity]]|].
  split; [intros (p & E & L); vm_compute in E; injection E as <-; vm_compute in L; lia|].
  split; [exists 3%nat; split; [reflexivity|vm_compute; lia]|]. split; [reflexivity|]. intros E. vm_compute in E. discriminate E.
Qed.

(** The race: one thread is about to read the pointer to the next node, the
    other one to write it. *)
Example C68_race_happens :
  exists a, let w := turns (one_each adding (getting "TIT2")) (repeat 0 16 ++ repeat 1 15)%nat in
    pending (of_thread w 0) = Some (Writes a NodeNext) /\ pending (of_thread w 1) = Some (Reads a NodeNext).
Proof. eexists. split; vm_compute; reflexivity. Qed.

(** What may come of it: two threads add a comment each to the one that is
    there; both calls return, one of the new comments is lost. *)
Example C68_lost_comment :
  let w := turns (one_each adding adding) (repeat 0 16 ++ repeat 1 22 ++ repeat 0 6)%nat in
  of_thread w 0 = Stop (Ok Nothing) /\ of_thread w 1 = Stop (Ok Nothing)
  /\ exists p q, fst (alone 100 (request_p 10 (GetAll (Some tag3) (clit "COMM")), mkHeap (fst w) 200)) = Stop (Ok (FoundAll [Some p; Some q])).
Proof. split; [vm_compute; reflexivity|]. split; [vm_compute; reflexivity|]. eexists _, _. vm_compute. reflexivity. Qed.
