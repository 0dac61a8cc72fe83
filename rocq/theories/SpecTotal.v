(** Specification of every session with a tagged file, whatever its edits are.
    Uses no function of the model of the code. *)
From Verif Require Import File Calls Spec SpecEdit SpecFile SpecHole.

(** A file with a tag of [n] bytes after its header, written by the library;
    from 2^28 bytes on the size field is not a standard one. *)
Definition written (major minor flags : byte) (n : Z) (fs : list fspec) (sound : list byte) (f : file) : Prop :=
  exists size_bytes, length size_bytes = 4%nat /\ (n < 2 ^ 28 -> size_bytes = synchsafe32 n)
    /\ f = Some (lit "ID3" ++ [major; minor; flags] ++ size_bytes
                 ++ images be32 fs ++ zeros (n - frames_size fs) ++ sound).

(** How saving a tag ends that holds [s], with [n] as its recorded size. *)
Inductive ending := Saved (fs : list fspec) | Exits | Undefined.

Definition save_ending (fs : list fspec) (hole : bool) (n : Z) : ending :=
  if (frames_size fs <=? n) && (n + 10 <? 2 ^ 31)
  then match fs, hole with
       | _ :: _, true => Exits
       | _, _ => Saved fs
       end
  else Undefined.

Definition has_hole (s : shelf) : bool := match behind s with Some _ => true | None => false end.
