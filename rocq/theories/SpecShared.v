(** What a data race is, and which calls race. *)
From Verif Require Export Shared Calls Spec SpecHeap SpecEdit.

(** ** Races *)

(** An access to memory that may be shared. *)
Inductive access :=
| Reads (a : nat) (f : field)
| Writes (a : nat) (f : field)
| Frees (a : nat).

(** Two accesses to the same memory, not both reads (C11 5.1.2.4). *)
Definition clash (x y : access) : Prop :=
  match x, y with
  | Reads _ _, Reads _ _ => False
  | Reads a f, Writes b g | Writes a f, Reads b g | Writes a f, Writes b g => a = b /\ f = g
  | Frees a, Reads b _ | Frees a, Writes b _ | Frees a, Frees b | Reads a _, Frees b | Writes a _, Frees b => a = b
  end.

(** The next access of a program. *)
Definition pending {A} (p : prog A) : option access :=
  match p with
  | Look (Some a) f _ => Some (Reads a f)
  | Change (Some a) f _ _ => Some (Writes a f)
  | Drop (Some a) _ => Some (Frees a)
  | _ => None
  end.

(** The program of thread [i]. *)
Definition of_thread {A} (w : world A) (i : nat) : prog A := fst (snd w i).

(** Two threads are about to make such accesses. *)
Definition racing {A} (w : world A) : Prop :=
  exists i j x y, i <> j /\ pending (of_thread w i) = Some x /\ pending (of_thread w j) = Some y /\ clash x y.

(** The threads can get there. *)
Definition can_race {A} (w : world A) : Prop := exists schedule, racing (turns w schedule).

(** ** Threads left alone *)

(** Thread [i] as if there were no others. *)
Definition start {A} (w : world A) (i : nat) : prog A * heap :=
  (fst (snd w i), mkHeap (fst w) (snd (snd w i))).

(** An access that a program makes when it is left alone. *)
Definition touches {A} (x : prog A * heap) (y : access) : Prop := exists k, pending (fst (alone k x)) = Some y.

(** Left alone, a program never gets into undefined behaviour. *)
Definition fine {A} (x : prog A * heap) : Prop := forall k u, fst (alone k x) <> Stop (Ub u).

(** The addresses that malloc gives to a program. *)
Definition allocates {A} (x : prog A * heap) (a : nat) : Prop :=
  (next (snd x) <= a)%nat /\ exists k, (a < next (snd (alone k x)))%nat.

(** malloc gives out addresses once. *)
Definition apart {A} (w : world A) : Prop :=
  NoDup (map fst (fst w))
  /\ (forall i, Forall (fun a => (a < next (snd (start w i)))%nat) (map fst (fst w)))
  /\ (forall i j a, i <> j -> allocates (start w i) a -> allocates (start w j) a -> False).

(** How often it was the turn of [i]. *)
Definition turns_of (i : nat) (schedule : list nat) : nat := count_occ Nat.eq_dec schedule i.

(** Left alone, the program ends with this result. *)
Definition ends {A} (x : prog A * heap) (o : outcome A) : Prop := exists k, fst (alone k x) = Stop o.

(** It ends like this, with this heap. *)
Definition comes_to {A} (x : prog A * heap) (o : outcome (A * heap)) : Prop :=
  match o with
  | Ok (a, h) => exists k, alone k x = (Stop (Ok a), h)
  | Ub u => ends x (Ub u)
  | Exit n => ends x (Exit n)
  | NoFuel => ends x NoFuel
  end.

(** What is in a member of a struct; and the accesses that change that. *)
Definition cell (l : list (nat * block)) (a : nat) (f : field) : option (option value) :=
  option_map (get_field f) (lookup a l).
Definition changes (x : access) (a : nat) (f : field) : Prop :=
  match x with Reads _ _ => False | Writes b g => a = b /\ f = g | Frees b => a = b end.

(** ** Calls on one tag *)

(** What a request on a tag with frames [fs] is about. *)
Inductive op :=
| OGet (id : list byte)
| OGetAll (id : list byte)
| OText (k : nat)
| OEdit (e : edit)
| OFree
| OSave (f : file).

(** A delete by id finds a frame. *)
Definition deletes_one (e : edit) (fs : list frame) : Prop :=
  match e with Remove _ => victim_pos e fs <> None | _ => True end.

(** The tag [t] is at [a]; its frames, with the pointers to them, are [ps].  What
    saving it makes of the file is what ID3v2_write_tag makes of it. *)
Inductive asks (a : nat) (t : Tag) (ps : list (nat * frame)) : request -> op -> Prop :=
| AGet arg id : points_to arg id -> length id = 4%nat -> asks a t ps (Get (Some a) arg) (OGet id)
| AGetAll arg id : points_to arg id -> length id = 4%nat -> asks a t ps (GetAll (Some a) arg) (OGetAll id)
| AText k p f d : nth_error ps k = Some (p, f) -> f_data f = DText d -> asks a t ps (Text (Some p)) (OText k)
| AEdit c e : means c e -> edit_ok e = true -> deletes_one e (map snd ps) -> asks a t ps (Edit (Some a) c) (OEdit e)
| AFree : asks a t ps (FreeTag (Some a)) OFree
| ASave f f' t' : ID3v2_write_tag f (Some t) = Ok (f', t') -> asks a t ps (Save (Some a) f) (OSave f').

Definition or_end (o : option nat) (fs : list frame) : nat := match o with Some n => n | None => length fs end.

(** Where in the list the edit changes something; [length fs] is the end. Only
    the deletion of an n-th frame that is not there changes nothing; even that
    writes to the one node of an empty list if n is 0. *)
Definition place (e : edit) (fs : list frame) : option nat :=
  match e with
  | Put f => Some (or_end (first_pos (named (frame_id f)) fs) fs)
  | Append _ => Some (length fs)
  | Remove id => first_pos (named id) fs
  | RemoveNth id i => match fs with [] => if i =? 0 then Some O else None | _ => nth_pos (named id) i fs end
  end.

(** The frame that is no more. *)
Definition dropped (e : edit) (fs : list frame) : option nat :=
  match e with
  | Put f => first_pos (named (frame_id f)) fs
  | _ => victim_pos e fs
  end.

(** A lookup by id goes as far as the first such frame. *)
Definition reach (id : list byte) (fs : list frame) : nat := or_end (first_pos (named id) fs) fs.

(** Two threads must not do this at once. *)
Definition conflict (fs : list frame) (o o' : op) : Prop :=
  match o, o' with
  | OFree, _ | _, OFree => True
  | OEdit e, OEdit e' => place e fs <> None \/ place e' fs <> None
  | OEdit e, OGet id | OGet id, OEdit e => exists p, place e fs = Some p /\ (p <= reach id fs)%nat
  | OEdit e, OGetAll _ | OGetAll _, OEdit e => place e fs <> None
  | OEdit e, OText k | OText k, OEdit e => dropped e fs = Some k
  | OEdit e, OSave _ | OSave _, OEdit e => place e fs <> None
  | OSave _, OSave _ => True
  | _, _ => False
  end.

(** The reply to a request. *)
Definition answer (ps : list (nat * frame)) (o : op) : reply :=
  match o with
  | OGet id => Found (option_map fst (find (fun p => named id (snd p)) ps))
  | OGetAll id => FoundAll (map (fun p => Some (fst p)) (filter (fun p => named id (snd p)) ps))
  | OText k => TextIs (match nth_error ps k with Some (_, mkFrame _ (DText d)) => td_text d | _ => [] end)
  | OEdit _ | OFree => Nothing
  | OSave f => Saved f
  end.
Definition reads_only (o : op) : bool := match o with OGet _ | OGetAll _ | OText _ => true | _ => false end.

(** Some threads make one request each; the others have ended. *)
Definition each_asks (n a : nat) (t : Tag) (ps : list (nat * frame)) (w : world reply) (os : nat -> option op) : Prop :=
  forall i, match os i with
            | Some o => exists r, asks a t ps r o /\ of_thread w i = request_p n r
            | None => exists x, of_thread w i = Stop (Ok x)
            end.

(** A thread that reads and saves: the second call finds the tag as the first
    one left it. *)
Inductive asks_all (a : nat) (ps : list (nat * frame)) : Tag -> list request -> list op -> Prop :=
| AEnd t : asks_all a ps t [] []
| ARead t r o rs os : asks a t ps r o -> reads_only o = true -> asks_all a ps t rs os -> asks_all a ps t (r :: rs) (o :: os)
| AWrite t f f' t' rs os : ID3v2_write_tag f (Some t) = Ok (f', Some t') -> asks_all a ps t' rs os ->
    asks_all a ps t (Save (Some a) f :: rs) (OSave f' :: os).
