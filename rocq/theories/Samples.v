(** Concrete frames, tags and calls for the examples beside the theorems. *)
From Verif Require Import File Calls Spec SpecEdit.

Definition title : fspec := FText (lit "TIT2") [x00; x00] (Utf16 false [(x41, x00); (x00, x01)]).
Definition artist : fspec := FText (lit "TPE1") [x00; x00] (Iso (lit "Someone")).
Definition comment1 : fspec := FComment [x00; x00] (lit "eng") (Utf16 false []) (Iso (lit "nice")).
Definition comment2 : fspec := FComment [x40; x00] (lit "deu") (Iso (lit "d")) (Utf16 true [(x00, x41)]).
Definition cover : fspec := FPicture [x00; x00] (Iso (lit "image/png")) x03 (Utf16 false []) [x00; x00; xff].
Definition private : fspec := FOther (lit "PRIV") [x00; x00] [x00; x01; x02].

Definition samples : list fspec := [title; comment1; private; comment2; cover].

(** A tag that holds frames, with a given size in its header. *)
Definition tag_with (fs : list fspec) (size : Z) : Tag :=
  mkTag (mkTH (lit "ID3") x03 x00 x00 size 0)
        (list_of (combine (seq 0 (length fs)) (map frame_of fs))) 0 (length fs).

Lemma tag_with_has size : tag_has (tag_with samples size) (map frame_of samples).
Proof.
  exists (combine (seq 0 5) (map frame_of samples)). repeat split.
  - change (NoDup (seq 0 5)). apply seq_NoDup.
  - change (Forall (fun a => (a < 5)%nat) (seq 0 5)). cbn. repeat constructor.
Qed.

Lemma samples_sane : Forall sane (map frame_of samples).
Proof.
  assert (H : forall i n, length i = 4%nat -> (0 <=? n) && (n <? 2 ^ 31 - 10) = true ->
    forall fl d, sane (mkFrame (mkFH (cells i) n fl) d)).
  { intros i n L B fl d. apply andb_true_iff in B. rewrite Z.leb_le, Z.ltb_lt in B. split; [exists i; auto|exact B]. }
  repeat constructor; apply H; reflexivity.
Qed.

(** A history: set the artist, add a comment, delete the title, delete the
    second comment, set the cover. *)
Definition calls : list call :=
  [ SetArtist (Some (cells (text_image (Iso (lit "Someone")))));
    AddCommentFrame (mkCommentInput NO_FLAGS (clit "eng") EMPTY_UNICODE_STR
                                    (Some (cells (text_image (Iso (lit "nice"))))));
    DeleteTitle;
    DeleteCommentFrame 1;
    SetAlbumCover (clit "image/png") 3 (Some (cells [x00; x00; xff])) ].
Definition edits : list edit :=
  [ Put artist; Append comment1; Remove (lit "TIT2"); RemoveNth (lit "COMM") 1; Put cover ].

Lemma points_to_exact l : points_to (Some (cells l)) l.
Proof. exists []. now rewrite app_nil_r. Qed.

Lemma points_to_more l r : points_to (Some (cells (l ++ r))) l.
Proof. exists (cells r). unfold cells. now rewrite map_app. Qed.

Lemma calls_mean : Forall2 means calls edits.
Proof.
  constructor; [apply MArtist, points_to_exact|].
  constructor; [apply (MAddComment NO_FLAGS (clit "eng") EMPTY_UNICODE_STR);
                [exists [Some x00]; reflexivity|exists [Some x00]; reflexivity|exists [Some x00]; reflexivity|apply points_to_exact]|].
  constructor; [constructor|].
  constructor; [constructor|].
  constructor; [|constructor].
  apply (MAlbumCover (clit "image/png") (Some (cells [x00; x00; xff])) (Iso (lit "image/png")) [x00; x00; xff]);
    [apply points_to_exact|apply points_to_exact].
Qed.
