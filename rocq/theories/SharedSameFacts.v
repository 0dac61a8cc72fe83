(** The programs of Shared.v, left alone, do what the functions of Heap.v do. *)
From Verif Require Import BaseFacts HeapFacts SpecShared SharedFacts SharedRunFacts.
From Coq Require Import Lia.

(** A function that returns no heap leaves it as it is; one that returns
    nothing else returns [tt]. *)
Definition keeping {A} (h : heap) (o : outcome A) : outcome (A * heap) := let* a := o in Ok (a, h).
Definition only (o : outcome heap) : outcome (unit * heap) := let* h := o in Ok (tt, h).

Lemma keeping_ok {A} h (a : A) : keeping h (Ok a) = Ok (a, h).
Proof. reflexivity. Qed.

Lemma s_stop {A} (o : outcome A) h : run (Stop o) h = keeping h o.
Proof. reflexivity. Qed.
Lemma s_ret {A} (a : A) h : run (retp a) h = Ok (a, h).
Proof. reflexivity. Qed.
Lemma s_make x h : run (make x) h = Ok (malloc x h).
Proof. reflexivity. Qed.
Lemma s_drop p h : run (drop p) h = only (free p h).
Proof. cbn. destruct (free p h); reflexivity. Qed.

Ltac byblock := unfold load_node, load_frame, load_frame_header, load_text, load_comment, load_apic, load_tag_header, load_tag_block;
  match goal with |- context [load ?p ?h] => destruct (load p h) as [[]| | |] end; reflexivity.

Lemma s_node_frame p h : run (look_ptr p NodeFrame) h = keeping h (let* (f, _, _) := load_node p h in Ok f).
Proof. cbn. byblock. Qed.
Lemma s_node_start p h : run (look_ptr p NodeStart) h = keeping h (let* (_, s, _) := load_node p h in Ok s).
Proof. cbn. byblock. Qed.
Lemma s_node_next p h : run (look_ptr p NodeNext) h = keeping h (let* (_, _, n) := load_node p h in Ok n).
Proof. cbn. byblock. Qed.
Lemma s_frame_head p h : run (look_ptr p FrameHead) h = keeping h (let* (hd, _) := load_frame p h in Ok hd).
Proof. cbn. byblock. Qed.
Lemma s_frame_data p h : run (look_ptr p FrameData) h = keeping h (let* (_, d) := load_frame p h in Ok d).
Proof. cbn. byblock. Qed.
Lemma s_head_id p h : run (look_chars p HeadId) h = keeping h (let* hd := load_frame_header p h in Ok (fh_id hd)).
Proof. cbn. byblock. Qed.
Lemma s_head_size p h : run (look_int p HeadSize) h = keeping h (let* hd := load_frame_header p h in Ok (fh_size hd)).
Proof. cbn. byblock. Qed.
Lemma s_text p h : run (look_ptr p TextText) h = keeping h (load_text p h).
Proof. cbn. byblock. Qed.
Lemma s_short p h : run (look_ptr p CommentShort) h = keeping h (let* (s, _) := load_comment p h in Ok s).
Proof. cbn. byblock. Qed.
Lemma s_comment p h : run (look_ptr p CommentText) h = keeping h (let* (_, c) := load_comment p h in Ok c).
Proof. cbn. byblock. Qed.
Lemma s_mime p h : run (look_ptr p ApicMime) h = keeping h (let* (m, _, _) := load_apic p h in Ok m).
Proof. cbn. byblock. Qed.
Lemma s_desc p h : run (look_ptr p ApicDesc) h = keeping h (let* (_, d, _) := load_apic p h in Ok d).
Proof. cbn. byblock. Qed.
Lemma s_picture p h : run (look_ptr p ApicPicture) h = keeping h (let* (_, _, b) := load_apic p h in Ok b).
Proof. cbn. byblock. Qed.
Lemma s_tag_head p h : run (look_ptr p TagHead) h = keeping h (let* (hd, _, _) := load_tag_block p h in Ok hd).
Proof. cbn. byblock. Qed.
Lemma s_tag_frames p h : run (look_ptr p TagFrames) h = keeping h (frames_of p h).
Proof. cbn. unfold frames_of. byblock. Qed.
Lemma s_tag_size p h : run (look_int p TagSize) h = keeping h (let* th := load_tag_header p h in Ok (th_tag_size th)).
Proof. cbn. byblock. Qed.

Ltac reads1 := rewrite ?s_stop, ?s_ret, ?s_make, ?s_drop, ?s_node_frame, ?s_node_start, ?s_node_next, ?s_frame_head, ?s_frame_data,
  ?s_head_id, ?s_head_size, ?s_text, ?s_short, ?s_comment, ?s_mime, ?s_desc, ?s_picture, ?s_tag_head, ?s_tag_frames, ?s_tag_size.
(** One step of both sides. *)
Ltac head o :=
  match o with
  | bind ?o' _ => head o'
  | keeping _ ?o' => head o'
  | only ?o' => head o'
  | _ => destruct o eqn:?
  end.
Ltac pairs := repeat match goal with x : _ * _ |- _ => destruct x end.
Ltac sm := rewrite ?run_bind; reads1; unfold keeping, only; cbn [bind];
  try reflexivity.
Ltac step :=
  match goal with
  | |- bind ?o _ = _ => head o
  | |- _ = bind ?o _ => head o
  end; pairs; cbn [bind] in *; try discriminate; try reflexivity.
Ltac again := repeat match goal with E : ?x = Ok _ |- context [?x] => rewrite E; cbn [bind] end.
Ltac both := repeat (rewrite ?run_bind; reads1; unfold keeping, only; cbn [bind]; again; try reflexivity; step).

(** ** Frames *)

Lemma s_alive p h : run (alive p) h = keeping h (usable p h).
Proof. destruct p as [a|]; [|reflexivity]. cbn. destruct (lookup a (live h)); reflexivity. Qed.
Lemma s_same_pointer p q h : run (same_pointer_p p q) h = keeping h (same_pointer p q h).
Proof.
  unfold same_pointer_p, same_pointer. rewrite run_bind, s_alive. unfold keeping. destruct (usable p h); cbn [bind]; try reflexivity.
  rewrite run_bind, s_alive. unfold keeping. destruct (usable q h); reflexivity.
Qed.

Lemma s_id_of p h : run (id_of p) h = keeping h (let* hd := header_of p h in Ok (fh_id hd)).
Proof. unfold id_of, header_of. both. Qed.
Lemma s_size_of p h : run (size_of p) h = keeping h (let* hd := header_of p h in Ok (fh_size hd)).
Proof. unfold size_of, header_of. both. Qed.

Lemma s_FrameHeader_new id flags size h : run (FrameHeader_new_p id flags size) h = FrameHeader_new_h id flags size h.
Proof. unfold FrameHeader_new_p, FrameHeader_new_h. both. Qed.

Ltac new1 := rewrite ?run_bind, ?bind_assoc; reads1; unfold keeping; cbn [bind malloc].
Ltac new2 := match goal with |- bind ?o _ = bind ?o _ => destruct o; try reflexivity; cbn [bind] end.
Ltac new3 := repeat (new1; try new2).

Lemma s_TextFrame_new id flags text h : run (TextFrame_new_p id flags text) h = TextFrame_new_h id flags text h.
Proof.
  unfold TextFrame_new_p, TextFrame_new_h, TextFrameData_new_p, TextFrameData_new_h.
  do 8 (new1; try new2). rewrite s_FrameHeader_new. destruct (FrameHeader_new_h _ _ _ _) as [[]| | |]; reflexivity.
Qed.

Lemma s_CommentFrame_new flags lang sd co h : run (CommentFrame_new_p flags lang sd co) h = CommentFrame_new_h flags lang sd co h.
Proof.
  unfold CommentFrame_new_p, CommentFrame_new_h, CommentFrameData_new_p, CommentFrameData_new_h.
  do 18 (new1; try new2). rewrite s_FrameHeader_new. destruct (FrameHeader_new_h _ _ _ _) as [[]| | |]; reflexivity.
Qed.

Lemma s_ApicFrame_new flags de ty mi n da h : run (ApicFrame_new_p flags de ty mi n da) h = ApicFrame_new_h flags de ty mi n da h.
Proof.
  unfold ApicFrame_new_p, ApicFrame_new_h, ApicFrameData_new_p, ApicFrameData_new_h.
  do 20 (new1; try new2). rewrite s_FrameHeader_new. destruct (FrameHeader_new_h _ _ _ _) as [[]| | |]; reflexivity.
Qed.

Lemma s_TextFrame_free p h : run (TextFrame_free_p p) h = only (TextFrame_free p h).
Proof. unfold TextFrame_free_p, TextFrame_free. both. Qed.
Lemma s_CommentFrame_free p h : run (CommentFrame_free_p p) h = only (CommentFrame_free p h).
Proof. unfold CommentFrame_free_p, CommentFrame_free. both. Qed.
Lemma s_ApicFrame_free p h : run (ApicFrame_free_p p) h = only (ApicFrame_free p h).
Proof. unfold ApicFrame_free_p, ApicFrame_free. both. Qed.

Lemma s_Frame_free p h : run (ID3v2_Frame_free_p p) h = only (ID3v2_Frame_free p h).
Proof.
  destruct p as [a|]; [|reflexivity]. unfold ID3v2_Frame_free_p, ID3v2_Frame_free.
  rewrite run_bind, s_id_of. unfold keeping. destruct (header_of (Some a) h) as [hd| | |]; try reflexivity. cbn [bind].
  rewrite run_bind. reads1. change (FrameHeader_isTextFrame (mkFH (fh_id hd) 0 [])) with (FrameHeader_isTextFrame hd).
  change (FrameHeader_isCommentFrame (mkFH (fh_id hd) 0 [])) with (FrameHeader_isCommentFrame hd).
  change (FrameHeader_isApicFrame (mkFH (fh_id hd) 0 [])) with (FrameHeader_isApicFrame hd). unfold keeping.
  destruct (FrameHeader_isTextFrame hd) as [b1| | |]; try reflexivity. cbn [bind]. rewrite run_bind. reads1. unfold keeping.
  destruct (FrameHeader_isCommentFrame hd) as [b2| | |]; try reflexivity. cbn [bind]. rewrite run_bind. reads1. unfold keeping.
  destruct (FrameHeader_isApicFrame hd) as [b3| | |]; try reflexivity. cbn [bind].
  destruct b1; [apply s_TextFrame_free|]. destruct b2; [apply s_CommentFrame_free|]. destruct b3; [apply s_ApicFrame_free|].
  both.
Qed.

(** ** Lists *)

Lemma s_id_matches p f id h : (exists s n, load_node p h = Ok (f, s, n)) -> run (id_matches_p p id) h = keeping h (id_matches_h f id h).
Proof.
  intros (s & n & E). unfold id_matches_p, id_matches_h. rewrite run_bind. reads1. rewrite E. unfold keeping. cbn [bind].
  rewrite run_bind, s_id_of. unfold keeping. destruct (header_of f h) as [hd| | |]; try reflexivity. cbn [bind].
  rewrite run_bind. reads1. unfold keeping. destruct (deref id); try reflexivity.
Qed.

Lemma s_last_node : forall fuel p h, last_node fuel p h <> NoFuel -> forall n, (fuel <= n)%nat ->
  run (last_node_p n p) h = keeping h (last_node fuel p h).
Proof.
  induction fuel as [|fuel IH]; intros p h N n L; [now destruct N|]. destruct n as [|n]; [lia|].
  cbn [last_node last_node_p] in *. rewrite run_bind. reads1. unfold keeping. destruct (load_node p h) as [[[f s] nx]| | |] eqn:E; try reflexivity.
  cbn [bind] in *. destruct nx as [a|]; [|reflexivity]. rewrite run_bind. reads1. rewrite E. unfold keeping. cbn [bind].
  apply IH; [exact N|lia].
Qed.

Lemma s_get_frame : forall fuel p id h, get_frame_by_id_h fuel p id h <> NoFuel -> forall n, (fuel <= n)%nat ->
  run (get_frame_by_id_p n p id) h = keeping h (get_frame_by_id_h fuel p id h).
Proof.
  induction fuel as [|fuel IH]; intros p id h N n L; [now destruct N|]. destruct n as [|n]; [lia|].
  cbn [get_frame_by_id_h get_frame_by_id_p] in *. destruct p as [a|]; [|reflexivity].
  rewrite run_bind. reads1. unfold keeping. destruct (load_node (Some a) h) as [[[f s] nx]| | |] eqn:E; try reflexivity.
  cbn [bind] in *. destruct f as [b|]; [|reflexivity]. rewrite run_bind, (s_id_matches _ (Some b)) by eauto. unfold keeping.
  destruct (id_matches_h (Some b) id h) as [m| | |]; try reflexivity. cbn [bind] in *. destruct m.
  - reads1. rewrite E. reflexivity.
  - rewrite run_bind. reads1. rewrite E. unfold keeping. cbn [bind]. apply IH; [exact N|lia].
Qed.

Lemma s_unlink : forall fuel p h, unlink fuel p h <> NoFuel -> forall n, (fuel <= n)%nat ->
  run (unlink_p n p) h = only (unlink fuel p h).
Proof.
  induction fuel as [|fuel IH]; intros p h N n L; [now destruct N|]. destruct n as [|n]; [lia|].
  cbn [unlink unlink_p] in *. destruct p as [a|]; [|reflexivity].
  rewrite run_bind. reads1. unfold keeping. destruct (load_node (Some a) h) as [[[f s] nx]| | |] eqn:E; try reflexivity.
  cbn [bind] in *. rewrite run_bind. reads1. unfold only. destruct (free (Some a) h) as [h1| | |]; try reflexivity. cbn [bind] in *.
  apply IH; [exact N|lia].
Qed.

Lemma s_free_list : forall fuel p h, free_list fuel p h <> NoFuel -> forall n, (fuel <= n)%nat ->
  run (free_list_p n p) h = only (free_list fuel p h).
Proof.
  induction fuel as [|fuel IH]; intros p h N n L; [now destruct N|]. destruct n as [|n]; [lia|].
  cbn [free_list free_list_p] in *. destruct p as [a|]; [|reflexivity].
  rewrite run_bind. reads1. unfold keeping. destruct (load_node (Some a) h) as [[[f s] nx]| | |] eqn:E; try reflexivity.
  cbn [bind] in *. rewrite run_bind, s_Frame_free. unfold only. destruct (ID3v2_Frame_free f h) as [h1| | |]; try reflexivity. cbn [bind] in *.
  rewrite run_bind. reads1. unfold keeping. destruct (load_node (Some a) h1) as [[[f' s'] nx']| | |]; try reflexivity. cbn [bind] in *.
  rewrite run_bind. reads1. unfold only. destruct (free (Some a) h1) as [h2| | |]; try reflexivity. cbn [bind] in *.
  apply IH; [exact N|lia].
Qed.

(** Members are written one after the other. *)
Lemma update_twice a x y l : update a y (update a x l) = update a y l.
Proof.
  induction l as [|[b z] l IH]; cbn [update]; [reflexivity|]. destruct (Nat.eqb_spec b a) as [->|N]; cbn [update].
  - now rewrite Nat.eqb_refl.
  - destruct (Nat.eqb_spec b a); [contradiction|]. now rewrite IH.
Qed.

Lemma s_set p f v x y h : load p h = Ok x -> set_field f v x = Some y ->
  run (Change p f v (retp tt)) h = only (store p y h).
Proof. intros E S. cbn. rewrite E. cbn [bind]. rewrite S. cbn [bind as_outcome]. destruct (store p y h); reflexivity. Qed.

Lemma load_after p x y h h' : load p h = Ok x -> store p y h = Ok h' -> load p h' = Ok y.
Proof.
  destruct p as [a|]; [|discriminate]. unfold store, load. cbn [deref bind]. destruct (lookup a (live h)) eqn:L; [|discriminate].
  intros _. cbn. intros E. injection E as <-. cbn [live]. rewrite lookup_update_same by congruence. reflexivity.
Qed.
Lemma store_twice p x y z h h' : load p h = Ok x -> store p y h = Ok h' -> store p z h' = store p z h.
Proof.
  intros L E. unfold store. rewrite (load_after _ _ _ _ _ L E), L. cbn [bind]. destruct p as [a|]; [|discriminate L]. cbn [deref bind].
  unfold store in E. rewrite L in E. cbn in E. injection E as <-. cbn [live next]. now rewrite update_twice.
Qed.
Lemma store_ok p x y h : load p h = Ok x -> exists h', store p y h = Ok h'.
Proof. intros L. unfold store. rewrite L. cbn [bind]. destruct p; [|discriminate L]. cbn. eauto. Qed.
Lemma load_store_other p q y h h' : store q y h = Ok h' -> p <> q -> load p h' = load p h.
Proof.
  destruct q as [b|]; [|intros E; unfold store in E; cbn in E; discriminate E]. unfold store, load. cbn [deref bind]. destruct (lookup b (live h)); [|discriminate].
  cbn. intros E. injection E as <-. intros N. destruct p as [a|]; [|reflexivity]. cbn. rewrite lookup_update_other; [reflexivity|congruence].
Qed.

Lemma load_node_block p h f s n : load_node p h = Ok (f, s, n) <-> load p h = Ok (BNode f s n).
Proof.
  unfold load_node. destruct (load p h) as [[]| | |]; cbn; split; intros E; try discriminate E; injection E as -> -> ->; reflexivity.
Qed.

(** The three members of *list = *other. *)
Lemma s_copy_node p f s n h f0 s0 n0 : load_node p h = Ok (f0, s0, n0) -> forall B (k : prog B),
  run (do! _ := set_ptr p NodeFrame f in do! _ := set_ptr p NodeStart s in do! _ := set_ptr p NodeNext n in k) h
  = let* h := store p (BNode f s n) h in run k h.
Proof.
  intros E B k. apply load_node_block in E. rewrite run_bind. unfold set_ptr at 1. rewrite (s_set p NodeFrame (VPtr f) _ (BNode f s0 n0) _ E eq_refl).
  destruct (store_ok p _ (BNode f s0 n0) h E) as (h1 & E1). rewrite E1. unfold only. cbn [bind].
  pose proof (load_after _ _ _ _ _ E E1) as L1. rewrite run_bind. unfold set_ptr at 1. rewrite (s_set p NodeStart (VPtr s) _ (BNode f s n0) _ L1 eq_refl).
  destruct (store_ok p _ (BNode f s n0) h1 L1) as (h2 & E2). rewrite E2. unfold only. cbn [bind].
  pose proof (load_after _ _ _ _ _ L1 E2) as L2. rewrite run_bind. unfold set_ptr at 1. rewrite (s_set p NodeNext (VPtr n) _ (BNode f s n) _ L2 eq_refl).
  rewrite (store_twice _ _ _ _ _ _ L1 E2), (store_twice _ _ _ _ _ _ E E1).
  destruct (store p (BNode f s n) h); reflexivity.
Qed.

Lemma s_cut_node p h : run (cut_node_p p) h = only (cut_node p h).
Proof.
  unfold cut_node_p, cut_node. rewrite run_bind. reads1. unfold keeping.
  destruct (load_node p h) as [[[f0 s0] n0]| | |] eqn:E; try reflexivity. cbn [bind].
  destruct n0 as [a|].
  - rewrite run_bind. reads1. rewrite E. unfold keeping. cbn [bind].
    rewrite run_bind. reads1. unfold keeping. destruct (load_node (Some a) h) as [[[f s] n]| | |] eqn:E'; try reflexivity. cbn [bind].
    rewrite run_bind. reads1. rewrite E'. unfold keeping. cbn [bind]. rewrite run_bind. reads1. rewrite E'. unfold keeping. cbn [bind].
    rewrite (s_copy_node _ _ _ _ _ _ _ _ E). destruct (store p (BNode f s n) h) as [h1| | |]; cbn [bind]; reads1; reflexivity.
  - unfold FrameList_new_p, FrameList_new_h. rewrite run_bind, run_bind. reads1. unfold keeping. cbn [bind malloc].
    set (h1 := mkHeap _ _). assert (E1 : load_node (Some (next h)) h1 = Ok (None, None, None)).
    { apply load_node_block. unfold load. cbn. now rewrite Nat.eqb_refl. }
    rewrite s_ret. cbn [bind]. rewrite run_bind. reads1. rewrite E1. unfold keeping. cbn [bind].
    rewrite run_bind. reads1. rewrite E1. unfold keeping. cbn [bind]. rewrite run_bind. reads1. rewrite E1. unfold keeping. cbn [bind].
    assert (Ep : exists f s n, load_node p h1 = Ok (f, s, n)).
    { apply load_node_block in E. destruct p as [a|]; [|discriminate E]. unfold load in E. cbn in E.
      unfold load_node, load. cbn. destruct (Nat.eqb (next h) a); [cbn; eauto|]. destruct (lookup a (live h)) as [x|]; [|discriminate E].
      injection E as ->. cbn. eauto. }
    destruct Ep as (f' & s' & n' & Ep). rewrite (s_copy_node _ _ _ _ _ _ _ _ Ep).
    destruct (store p (BNode None None None) h1); cbn [bind]; reads1; reflexivity.
Qed.

Lemma s_remove_by_id : forall fuel p id h, remove_by_id fuel p id h <> NoFuel -> forall n, (fuel <= n)%nat ->
  run (remove_by_id_p n p id) h = remove_by_id fuel p id h.
Proof.
  induction fuel as [|fuel IH]; intros p id h N n L; [now destruct N|]. destruct n as [|n]; [lia|].
  cbn [remove_by_id remove_by_id_p] in *. destruct p as [a|]; [|reflexivity].
  destruct (load_node (Some a) h) as [[[f s] nx]| | |] eqn:E.
  2-4: rewrite run_bind; unfold id_matches_p; rewrite run_bind; reads1; rewrite E; reflexivity.
  rewrite run_bind, (s_id_matches _ f) by eauto. unfold keeping. cbn [bind] in *.
  destruct (id_matches_h f id h) as [m| | |]; try reflexivity. cbn [bind] in *. destruct m.
  - rewrite run_bind. reads1. rewrite E. unfold keeping. cbn [bind]. rewrite run_bind, s_cut_node. unfold only.
    destruct (cut_node (Some a) h); reflexivity.
  - rewrite run_bind. reads1. rewrite E. unfold keeping. cbn [bind]. apply IH; [exact N|lia].
Qed.

Lemma s_remove_frame : forall fuel p q h, remove_frame fuel p q h <> NoFuel -> forall n, (fuel <= n)%nat ->
  run (remove_frame_p n p q) h = remove_frame fuel p q h.
Proof.
  induction fuel as [|fuel IH]; intros p q h N n L; [now destruct N|]. destruct n as [|n]; [lia|].
  cbn [remove_frame remove_frame_p] in *. destruct p as [a|]; [|reflexivity].
  rewrite run_bind. reads1. unfold keeping. destruct (load_node (Some a) h) as [[[f s] nx]| | |] eqn:E; try reflexivity.
  cbn [bind] in *. rewrite run_bind, s_same_pointer. unfold keeping. destruct (same_pointer f q h) as [m| | |]; try reflexivity.
  cbn [bind] in *. destruct m.
  - rewrite run_bind, s_cut_node. unfold only. destruct (cut_node (Some a) h); reflexivity.
  - rewrite run_bind. reads1. rewrite E. unfold keeping. cbn [bind]. apply IH; [exact N|lia].
Qed.

Lemma s_replace_frame : forall fuel p q r h, replace_frame fuel p q r h <> NoFuel -> forall n, (fuel <= n)%nat ->
  run (replace_frame_p n p q r) h = only (replace_frame fuel p q r h).
Proof.
  induction fuel as [|fuel IH]; intros p q r h N n L; [now destruct N|]. destruct n as [|n]; [lia|].
  cbn [replace_frame replace_frame_p] in *. destruct p as [a|]; [|reflexivity].
  rewrite run_bind. reads1. unfold keeping. destruct (load_node (Some a) h) as [[[f s] nx]| | |] eqn:E; try reflexivity.
  cbn [bind] in *. rewrite run_bind, s_same_pointer. unfold keeping. destruct (same_pointer f q h) as [m| | |]; try reflexivity.
  cbn [bind] in *. destruct m.
  - apply load_node_block in E. unfold set_ptr. now rewrite (s_set (Some a) NodeFrame (VPtr r) _ (BNode r s nx) _ E eq_refl).
  - rewrite run_bind. reads1. rewrite E. unfold keeping. cbn [bind]. apply IH; [exact N|lia].
Qed.

Lemma s_grow tag d h : run (grow_p tag d) h = only (grow tag d h).
Proof.
  unfold grow_p, grow. rewrite run_bind. reads1. unfold keeping. destruct (load_tag_block tag h) as [[[hd fr] pa]| | |]; try reflexivity. cbn [bind].
  rewrite run_bind. reads1. unfold keeping, load_tag_header. destruct (load hd h) as [x| | |] eqn:E; try reflexivity. cbn [bind].
  destruct x as [| | | | | | |th| | | | | | | | |]; try reflexivity. cbn [bind]. unfold set_int.
  now rewrite (s_set hd TagSize (VInt (th_tag_size th + d)) _ (BTagHeader (with_tag_size th (th_tag_size th + d))) _ E eq_refl).
Qed.
