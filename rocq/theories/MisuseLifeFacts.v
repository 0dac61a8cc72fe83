(** From ID3v2_Tag_new_empty to ID3v2_Tag_free with one text frame under any id. *)
From Verif Require Import Spec SpecEdit Calls EditFacts Heap SpecHeap SpecMisuse HeapFacts HeapFrameFacts HeapTagFacts MisuseFacts MisuseEditFacts.
From Coq Require Import Lia.

Lemma text_misfiled i f x : i <> [] -> id_starts i "T" = false -> misfiled (frame_of (FText i f x)).
Proof.
  intros N St. destruct i as [|c i]; [congruence|]. exists c, (cells i). split; [reflexivity|]. exact St.
Qed.

Lemma text_release i f x : length i = 4%nat ->
  release (frame_of (FText i f x))
  = if id_starts i "T" then Ok 0%nat else if id_starts i "C" || id_starts i "A" then Ub TypeConfusion else Ok 2%nat.
Proof.
  intros L. destruct i as [|c i]; [discriminate L|]. unfold release, known. cbn [frame_of f_hdr f_data fh_id frame_id cells map stands_for strings id_starts].
  change (Byte.eqb c "T") with (beq c "T"). change (Byte.eqb c "C") with (beq c "C"). change (Byte.eqb c "A") with (beq c "A").
  destruct (beq c "T"), (beq c "C"), (beq c "A"); reflexivity.
Qed.

Lemma text_life h m id fl s i f x : heap_is h m ->
  points_to id i -> points_to fl f -> points_to s (text_image x) ->
  length i = 4%nat -> length f = 2%nat -> text_ok x = true -> zlen (text_image x) + 11 < 2 ^ 31 ->
  exists a h1 h2 t, ID3v2_Tag_new_empty_h h = (a, h1)
    /\ ID3v2_Tag_set_text_frame_h (Some a) (mkTextInput id fl s) h1 = Ok h2
    /\ tag_at h2 a t m /\ tag_has t [frame_of (FText i f x)]
    /\ if id_starts i "T" then exists h3, ID3v2_Tag_free (Some a) h2 = Ok h3 /\ heap_is h3 m
       else if id_starts i "C" || id_starts i "A" then ID3v2_Tag_free (Some a) h2 = Ub TypeConfusion
       else exists h3 lost, ID3v2_Tag_free (Some a) h2 = Ok h3 /\ heap_is h3 (lost ++ m) /\ length lost = 2%nat.
Proof.
  intros H Pi Pf Ps Li Lf Ht Hs. destruct (new_is h m H) as (a & h1 & E1 & T1 & _).
  assert (Hn : tag_has ID3v2_Tag_new_empty []) by (exists []; repeat split; constructor).
  destruct (set_text_any ID3v2_Tag_new_empty [] id fl s i f x Hn ltac:(constructor) Pi Pf Ps Li Lf Ht Hs) as (t & p & Es & T & _).
  cbn [put] in T.
  assert (G := call_any h1 a _ m (SetTextFrame (mkTextInput id fl s)) T1).
  unfold call_result in G. cbn [run_call run_call_h release_freed freed node_leak] in G. rewrite Es in G. cbn [bind] in G.
  unfold release_freed in G. cbn [freed visible ID3v2_Tag_new_empty t_frames FrameList_new n_frame empty_node find bind Nat.add agrees] in G.
  destruct G as (h2 & E2 & lost & L2 & T2). cbn [fst snd] in *. destruct lost; [|discriminate L2]. cbn [app] in T2.
  exists a, h1, h2, t. split; [exact E1|]. split; [exact E2|]. split; [exact T2|]. split; [exact T|].
  assert (F := free_any h2 a t m T2).
  destruct T as (ps & Ef & Mf & _). rewrite Ef in F. destruct ps as [|p1 [|p2 ps]]; try discriminate Mf. injection Mf as Mf.
  cbn [list_of nodes map releases n_frame fnode] in F. rewrite Mf, text_release in F by exact Li.
  destruct (id_starts i "T"); [|destruct (id_starts i "C" || id_starts i "A")]; cbn [bind agrees Nat.add] in F.
  - destruct F as (h3 & E3 & lost & H3 & L3). destruct lost; [|discriminate L3]. eauto.
  - exact F.
  - destruct F as (h3 & E3 & lost & H3 & L3). eauto.
Qed.
