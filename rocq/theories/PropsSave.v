(** Properties of threads that share a tag while one of them saves it: C71. *)
From Verif Require Import Calls Spec SpecEdit Heap File HeapIO SpecHeap HeapFacts HeapTagFacts HeapReadFacts HeapPtrFacts Shared SpecShared SharedRunFacts SharedThreadFacts Samples PropsShared.
From Coq Require Import Lia.

(** A thread that saves and is left alone does what the function on files does,
    whatever comes of it, and leaves the tag that the function leaves. *)
Theorem C71_same : forall h a t ps n f,
  pointers h a t ps -> Forall sane (map snd ps) -> Forall kind_ok (map snd ps) -> (length ps + 3 <= n)%nat ->
  match ID3v2_write_tag f (Some t) with
  | Ok (f', t') => exists h' t1, t' = Some t1 /\ comes_to (write_tag_p n f (Some a), h) (Ok (f', h')) /\ pointers h' a t1 ps
  | Ub u => comes_to (write_tag_p n f (Some a), h) (Ub u)
  | Exit k => comes_to (write_tag_p n f (Some a), h) (Exit k)
  | NoFuel => comes_to (write_tag_p n f (Some a), h) NoFuel
  end.
Proof. exact save_alone. Qed.
Print Assumptions C71_same.

(** One thread may save the tag, as often as it likes and to any files, while
    any number of threads read it: there is no race, and whatever the schedule,
    the files are those that the same calls leave without other threads, and the
    readers get the replies that the frames of the tag say. *)
Theorem C71_one_saver : forall (w : world (list reply)) a t ps n saver rs os,
  apart w -> pointers (snd (start w O)) a t ps -> Forall sane (map snd ps) -> Forall kind_ok (map snd ps) ->
  (length ps + 3 <= n)%nat ->
  (forall i, of_thread w i = requests_p n (rs i) /\ asks_all a ps t (rs i) (os i) /\ (i <> saver -> forallb reads_only (os i) = true)) ->
  ~ can_race w
  /\ forall i, exists m, forall schedule, (m <= turns_of i schedule)%nat ->
       of_thread (turns w schedule) i = Stop (Ok (map (answer ps) (os i))).
Proof. exact one_saver. Qed.
Print Assumptions C71_one_saver.

(** Two threads that save one tag race, even if they write different files. *)
Theorem C71_savers_race : forall (w : world reply) a t ps n os i j f f',
  apart w -> pointers (snd (start w O)) a t ps -> Forall sane (map snd ps) -> Forall kind_ok (map snd ps) ->
  (length ps + 3 <= n)%nat -> each_asks n a t ps w os ->
  i <> j -> os i = Some (OSave f) -> os j = Some (OSave f') -> can_race w.
Proof. exact savers_race. Qed.
Print Assumptions C71_savers_race.

(** Saving races with an edit by another thread, unless the edit is the deletion
    of an n-th comment or picture that is not there. *)
Theorem C71_save_edit : forall (w : world reply) a t ps n os i j f e,
  apart w -> pointers (snd (start w O)) a t ps -> Forall sane (map snd ps) -> Forall kind_ok (map snd ps) ->
  (length ps + 3 <= n)%nat -> each_asks n a t ps w os ->
  i <> j -> os i = Some (OSave f) -> os j = Some (OEdit e) -> (forall k, k <> i -> k <> j -> os k = None) ->
  can_race w <-> place e (map snd ps) <> None.
Proof. exact save_edit. Qed.
Print Assumptions C71_save_edit.

(** ** A tag with an artist, a comment and a picture, read from a file *)

Definition frames4 : list fspec := [artist; comment1; cover].
Definition music : file := Some [xff; xfb; x90; x00].
Definition other : file := Some [x01; x02].
Definition saved (f : file) (t : Tag) : file * option Tag := match ID3v2_write_tag f (Some t) with Ok r => r | _ => (None, None) end.
Definition shelf : file := fst (saved music (tag_with frames4 200)).
Definition tag4_is : Tag := match ID3v2_read_tag shelf with Ok (Some t) => t | _ => ID3v2_Tag_new_empty end.
Definition read4 : ptr * heap := match ID3v2_read_tag_h shelf (mkHeap [] 8) with Ok r => r | _ => (None, mkHeap [] 8) end.
Definition tag4 : nat := match fst read4 with Some a => a | None => O end.
Definition heap4 : heap := snd read4.
Definition artist4 : nat := match ID3v2_Tag_get_frame_h (Some tag4) (clit "TPE1") heap4 with Ok (Some p) => p | _ => O end.
Definition later : Tag := match snd (saved music tag4_is) with Some t => t | None => tag4_is end.

Lemma there4 : exists ps, pointers heap4 tag4 tag4_is ps /\ map snd ps = map frame_of frames4 /\ nth_error ps 0 = Some (artist4, frame_of artist)
  /\ Forall sane (map snd ps) /\ Forall kind_ok (map snd ps) /\ (length ps + 3 <= 10)%nat.
Proof.
  assert (H : heap_is (mkHeap [] 8) (live (mkHeap [] 8))) by (repeat split; repeat constructor).
  assert (E : ID3v2_read_tag shelf = Ok (Some tag4_is)) by (vm_compute; reflexivity).
  pose proof (read_tag_is _ _ shelf H) as R. rewrite E in R. destruct R as ([p h] & E2 & a & Ea & T). cbn [fst snd] in Ea, T. subst p.
  assert (Eh : read4 = (Some a, h)) by (unfold read4; now rewrite E2). unfold heap4, tag4. rewrite Eh. cbn [fst snd].
  assert (Th : tag_has tag4_is (map frame_of frames4)).
  { exists (combine (seq 0 3) (map frame_of frames4)). split; [vm_compute; reflexivity|]. split; [reflexivity|]. split.
    - change (NoDup (seq 0 3)). apply seq_NoDup.
    - vm_compute. repeat constructor. }
  destruct (pointers_exist h a _ _ _ T Th) as (ps & Ep & P). exists ps. split; [exact P|]. split; [exact Ep|].
  assert (S : Forall sane (map snd ps)).
  { rewrite Ep. assert (Hs : forall i n, length i = 4%nat -> (0 <=? n) && (n <? 2 ^ 31 - 10) = true -> forall fl d, sane (mkFrame (mkFH (cells i) n fl) d)).
    { intros i n L B fl d. apply andb_true_iff in B. rewrite Z.leb_le, Z.ltb_lt in B. split; [exists i; auto|exact B]. }
    repeat constructor; apply Hs; reflexivity. }
  split; [|split; [exact S|split; [rewrite Ep; repeat constructor; eexists _, _; split; reflexivity|rewrite <- (map_length snd ps), Ep; cbn; lia]]].
  unfold artist4, heap4, tag4. rewrite Eh. cbn [fst snd]. rewrite (get_in_pointers _ _ _ _ (clit "TPE1") (lit "TPE1") P S (ex_intro _ [Some x00] eq_refl) eq_refl).
  destruct ps as [|[p f] ps]; [discriminate Ep|]. cbn [map snd frames4] in Ep. injection Ep as Ef Ep. subst f. cbn [find snd].
  replace (named (lit "TPE1") (frame_of artist)) with true by reflexivity. reflexivity.
Qed.

Lemma apart4 A (x : A) p q a h b h' :
  run p heap4 = Ok (a, h) -> run q (mkHeap (live heap4) (next heap4 + 50)) = Ok (b, h') ->
  Nat.leb (next h) (next heap4 + 50) = true -> apart (two_on heap4 x p q).
Proof.
  apply two_on_apart; [|vm_compute; repeat constructor]. vm_compute. repeat constructor; cbn; intuition discriminate.
Qed.

Definition saving (f : file) : request := Save (Some tag4) f.

Example C71_same_applies : exists ps, pointers heap4 tag4 tag4_is ps /\ Forall sane (map snd ps) /\ Forall kind_ok (map snd ps)
  /\ (length ps + 3 <= 10)%nat /\ ID3v2_write_tag music (Some tag4_is) = Ok (fst (saved music tag4_is), Some later)
  /\ ID3v2_write_tag None (Some tag4_is) = Ub NullDeref.
Proof.
  destruct there4 as (ps & P & Ep & N0 & S & K & L). exists ps. split; [exact P|]. split; [exact S|]. split; [exact K|]. split; [exact L|].
  split; vm_compute; reflexivity.
Qed.

(** One thread saves to two files, the other one reads the text of the artist
    and gets all pictures. *)
Definition acting (i : nat) : list request :=
  match i with
  | O => [saving music; saving other]
  | S O => [Text (Some artist4); GetAll (Some tag4) (clit "APIC")]
  | _ => []
  end.
Definition acted (i : nat) : list op :=
  match i with
  | O => [OSave (fst (saved music tag4_is)); OSave (fst (saved other later))]
  | S O => [OText 0; OGetAll (lit "APIC")]
  | _ => []
  end.
Definition saver4 : world (list reply) := two_on heap4 [] (requests_p 10 (acting 0)) (requests_p 10 (acting 1)).
Definition by_turns : list nat := concat (repeat [0; 1; 0]%nat 200).

Example C71_one_saver_applies :
  apart saver4
  /\ (exists ps, pointers (snd (start saver4 O)) tag4 tag4_is ps
        /\ Forall sane (map snd ps) /\ Forall kind_ok (map snd ps) /\ (length ps + 3 <= 10)%nat
        /\ forall i, of_thread saver4 i = requests_p 10 (acting i) /\ asks_all tag4 ps tag4_is (acting i) (acted i)
                     /\ (i <> 0%nat -> forallb reads_only (acted i) = true))
  /\ exists q, of_thread (turns saver4 by_turns) 0
       = Stop (Ok [Saved (fst (saved music tag4_is)); Saved (fst (saved other later))])
     /\ of_thread (turns saver4 by_turns) 1
        = Stop (Ok [TextIs (cells (text_image (Iso (lit "Someone")))); FoundAll [Some q]]).
Proof.
  split; [eapply apart4; vm_compute; reflexivity|]. split.
  - destruct there4 as (ps & P & Ep & N0 & S & K & L). exists ps. split; [unfold start, saver4, two_on; cbn [fst snd]; now rewrite heap_eta|].
    split; [exact S|]. split; [exact K|]. split; [exact L|].
    intros [|[|i]]; (split; [reflexivity|]); cbn [acting acted].
    + split; [|congruence]. eapply AWrite with (t' := later); [vm_compute; reflexivity|]. eapply AWrite with (t' := later); [vm_compute; reflexivity|constructor].
    + split; [|reflexivity]. constructor; [eapply AText; [exact N0|reflexivity]|reflexivity|]. constructor; [constructor; [apply arg4|reflexivity]|reflexivity|constructor].
    + split; [constructor|reflexivity].
  - eexists. split; vm_compute; reflexivity.
Qed.

(** The files: the tag of 200 bytes and its header, then what was there. *)
Example C71_files :
  option_map (skipn 210) (fst (saved music tag4_is)) = music /\ option_map (skipn 210) (fst (saved other later)) = other
  /\ option_map (firstn 210) (fst (saved music tag4_is)) = option_map (firstn 210) (fst (saved other later))
  /\ option_map (firstn 3) (fst (saved music tag4_is)) = Some (lit "ID3").
Proof. repeat (split; [vm_compute; reflexivity|]). vm_compute; reflexivity. Qed.

Definition each (r r' : request) : world reply := two_on heap4 Nothing (request_p 10 r) (request_p 10 r').
Definition adding4 : request := Edit (Some tag4) (AddCommentFrame some_comment).
Definition no_comment : request := Edit (Some tag4) (DeleteCommentFrame 1).

Lemma saving_asks ps f : ID3v2_write_tag f (Some tag4_is) = Ok (saved f tag4_is) -> asks tag4 tag4_is ps (saving f) (OSave (fst (saved f tag4_is))).
Proof. intros E. destruct (saved f tag4_is) as [f' t'] eqn:Es. econstructor. exact E. Qed.
Lemma each4 ps r r' o o' : asks tag4 tag4_is ps r o -> asks tag4 tag4_is ps r' o' -> each_asks 10 tag4 tag4_is ps (each r r') (ops o o').
Proof. intros A A' [|[|i]]; cbn [ops]; [exists r; auto|exists r'; auto|now exists Nothing]. Qed.

Example C71_races_apply :
  apart (each (saving music) (saving other)) /\ apart (each (saving music) adding4) /\ apart (each (saving music) no_comment)
  /\ exists ps, pointers heap4 tag4 tag4_is ps /\ Forall sane (map snd ps) /\ Forall kind_ok (map snd ps) /\ (length ps + 3 <= 10)%nat
     /\ each_asks 10 tag4 tag4_is ps (each (saving music) (saving other)) (ops (OSave (fst (saved music tag4_is))) (OSave (fst (saved other tag4_is))))
     /\ each_asks 10 tag4 tag4_is ps (each (saving music) adding4) (ops (OSave (fst (saved music tag4_is))) (OEdit (Append comment1)))
     /\ each_asks 10 tag4 tag4_is ps (each (saving music) no_comment) (ops (OSave (fst (saved music tag4_is))) (OEdit (RemoveNth (lit "COMM") 1)))
     /\ place (Append comment1) (map snd ps) = Some 3%nat /\ place (RemoveNth (lit "COMM") 1) (map snd ps) = None.
Proof.
  do 3 (split; [eapply apart4; vm_compute; reflexivity|]).
  destruct there4 as (ps & P & Ep & N0 & S & K & L). exists ps. split; [exact P|]. split; [exact S|]. split; [exact K|]. split; [exact L|].
  assert (Sm : asks tag4 tag4_is ps (saving music) (OSave (fst (saved music tag4_is)))) by (apply saving_asks; vm_compute; reflexivity).
  split; [apply each4; [exact Sm|apply saving_asks; vm_compute; reflexivity]|].
  split; [apply each4; [exact Sm|constructor; [|reflexivity|exact I]; apply (MAddComment NO_FLAGS (clit "eng") EMPTY_UNICODE_STR);
    [exists [Some x00]; reflexivity|exists [Some x00]; reflexivity|exists [Some x00]; reflexivity|apply points_to_exact]]|].
  split; [apply each4; [exact Sm|]|rewrite Ep; split; vm_compute; reflexivity].
  constructor; [constructor|reflexivity|]. exact I.
Qed.

(** What may come of two threads that save: both read the padding of the tag as
    it was, and both add what is missing. *)
Example C71_padding_twice :
  let w := turns (each (saving music) (saving other)) ([1; 0; 0; 0; 1; 1] ++ repeat 0 300 ++ repeat 1 300)%nat in
  of_thread w 0 = Stop (Ok (Saved (fst (saved music tag4_is)))) /\ of_thread w 1 = Stop (Ok (Saved (fst (saved other tag4_is))))
  /\ t_padding later = 2048 /\ exists n, cell (fst w) tag4 TagPadding = Some (Some (VInt n)) /\ 2048 < n.
Proof. do 3 (split; [vm_compute; reflexivity|]). eexists. split; vm_compute; reflexivity. Qed.
