(** Specification of what the examples of README.md do.  Uses no function of the
    model of the code. *)
From Verif Require Import Readme Spec SpecEdit SpecFile SpecSession SpecTests SpecPrint.

(** What "%s" shows of the bytes of a text: UTF-16 letters end it soon. *)
Fixpoint to_zero (l : list byte) : list byte :=
  match l with
  | [] => []
  | b :: l => if is_zero b then [] else b :: to_zero l
  end.
Definition seen_of (t : text) : list byte := to_zero (text_image t).

(** The text of the first frame with an id is shown after a label. *)
Definition shows (label : string) (id : list byte) (gs : list frame) (out : list printed) : Prop :=
  exists g t, find (named id) gs = Some g /\ text_in id g t /\ out = [Chars (lit label ++ seen_of t)].
Arguments shows label%string id gs out.

(** The frames the examples set, and how many of them are new. *)
Definition readme_title : fspec := plain_text "TIT2" (wide "Title").
Definition readme_artist : fspec := plain_text "TPE1" (wide "Artist").
Definition readme_copyright : fspec := plain_text "TCOP" (narrow "A copyright message").
Definition with_both (fs : list fspec) : list fspec :=
  put (titled (lit "TPE1")) readme_artist (put (titled (lit "TIT2")) readme_title fs).
Definition lacking (fs : list fspec) : Z :=
  (if existsb (titled (lit "TIT2")) fs then 0 else 1) + (if existsb (titled (lit "TPE1")) fs then 0 else 1).

(** Frames without the first of an id; whether that one is the last frame. *)
Fixpoint is_last (id : list byte) (fs : list fspec) : bool :=
  match fs with
  | [] => false
  | [f] => titled id f
  | f :: fs => if titled id f then false else is_last id fs
  end.
Definition without (id : list byte) (fs : list fspec) : list fspec := remove_first (titled id) fs.

(** The file after frames were deleted, and after the tag was deleted, too.  If the last of several frames is
    deleted, the program exits. *)
Definition deletions (major minor flags : byte) (n : Z) (fs : list fspec) (sound : list byte) : outcome (file * file) :=
  if negb (existsb (titled (lit "TIT2")) fs && existsb (titled (lit "TPE1")) fs) then Ub NullDeref
  else
    let one := without (lit "TIT2") fs in
    let both := without (lit "TPE1") one in
    let n := n - (frames_size fs - frames_size both) in
    if (is_last (lit "TIT2") fs || is_last (lit "TPE1") fs) && negb (length both =? 0)%nat then Exit 1
    else Ok (Some (tag_bytes major minor flags n both ++ sound), Some sound).
