(** What it means that threads do not disturb each other. *)
From Verif Require Export SpecStdio Threads.

(** The names that a program may open, whatever the calls before answer. *)
Definition op_opens (R : list byte -> Prop) {B : Set} (c : op B) : Prop :=
  match c with OpOpen n | OpNew n => R n | _ => True end.
Inductive opens (R : list byte -> Prop) {A} : prog A -> Prop :=
| opens_stop o : opens R (Stop o)
| opens_then B (c : op B) k : op_opens R c -> (forall b, opens R (k b)) -> opens R (Then c k).

(** A temporary file, or a file with such a name. *)
Definition among (R : list byte -> Prop) (t : target) : Prop :=
  match t with Named n => R n | Temp _ => True end.

(** All streams are open on such files. *)
Definition owns (R : list byte -> Prop) (s : sys) : Prop :=
  forall k st, s_open s k = Some st -> among R (st_target st).

(** The same streams, the same answers to come, and the same such files. *)
Definition agree (R : list byte -> Prop) (s s' : sys) : Prop :=
  (forall t, among R t -> s_disk s t = s_disk s' t) /\
  (forall k, s_open s k = s_open s' k) /\
  s_next s = s_next s' /\ s_answers s = s_answers s'.

(** Left alone, the program changes no other files than these, at no time. *)
Definition changes_only {A} (W : list byte -> Prop) (p : prog A) (s : sys) : Prop :=
  forall k n, ~ W n -> named (snd (alone k (p, s))) n = named s n.

(** How often it was the turn of [i]. *)
Definition turns_of (i : nat) (schedule : list nat) : nat := count_occ Nat.eq_dec schedule i.

(** A thread that makes calls one after the other and keeps what they return. *)
Inductive result :=
| RHeader (h : option TagHeader) | RTag (t : option Tag) | RCTag (t : ctag) | RNothing.

Definition result_s (c : file_call) : io result :=
  match c with
  | ReadHeader n => let! r := ID3v2_read_tag_header_s n in ret (RHeader r)
  | ReadTag n => let! r := ID3v2_read_tag_s n in ret (RTag r)
  | WriteTag n tag => let! r := ID3v2_write_tag_s n tag in ret (RTag r)
  | DeleteTag n => let! _ := ID3v2_delete_tag_s n in ret RNothing
  | LoadTag n => let! r := load_tag_s n in ret (RCTag r)
  | SetTag n tag => let! r := set_tag_s n tag in ret (RCTag r)
  | RemoveTag n => let! _ := remove_tag_s n in ret RNothing
  | SetCover filename picture tag => let! r := tag_set_album_cover_s filename picture tag in ret (RCTag r)
  end.
Fixpoint results_s (l : list file_call) : io (list result) :=
  match l with
  | [] => ret []
  | c :: l => let! r := result_s c in let! rs := results_s l in ret (r :: rs)
  end.

Definition result_p (c : file_call) : prog result :=
  match c with
  | ReadHeader n => bindp (ID3v2_read_tag_header_p n) (fun r => retp (RHeader r))
  | ReadTag n => bindp (ID3v2_read_tag_p n) (fun r => retp (RTag r))
  | WriteTag n tag => bindp (ID3v2_write_tag_p n tag) (fun r => retp (RTag r))
  | DeleteTag n => bindp (ID3v2_delete_tag_p n) (fun _ => retp RNothing)
  | LoadTag n => bindp (load_tag_p n) (fun r => retp (RCTag r))
  | SetTag n tag => bindp (set_tag_p n tag) (fun r => retp (RCTag r))
  | RemoveTag n => bindp (remove_tag_p n) (fun _ => retp RNothing)
  | SetCover filename picture tag =>
      bindp (tag_set_album_cover_p filename picture tag) (fun r => retp (RCTag r))
  end.
Fixpoint results_p (l : list file_call) : prog (list result) :=
  match l with
  | [] => retp []
  | c :: l => bindp (result_p c) (fun r => bindp (results_p l) (fun rs => retp (r :: rs)))
  end.

(** The file that a call reads or changes. *)
Definition uses (c : file_call) (n : list byte) : Prop :=
  match c with
  | ReadHeader m | ReadTag m | WriteTag m _ | DeleteTag m | LoadTag m | SetTag m _ | RemoveTag m => m = n
  | SetCover _ picture _ => picture = n
  end.
Definition any (P : file_call -> list byte -> Prop) (l : list file_call) (n : list byte) : Prop :=
  exists c, In c l /\ P c n.
