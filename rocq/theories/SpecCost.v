(** How many rounds the loops of a call make: C92. *)
From Verif Require Import Cost Spec SpecEdit SpecFile.

(** The result without the count. *)
Definition erase {A} (x : timed A) : outcome A :=
  match x with Ok (a, _) => Ok a | Ub u => Ub u | Exit n => Exit n | NoFuel => NoFuel end.

(** From the first of some frames to the last. *)
Definition to_end {A} (fs : list A) : Z := Z.max 0 (zlen fs - 1).

(** All the steps of building a list of n frames by appending: 0 + 0 + 1 + 2 +
    .. + (n - 2). *)
Definition hops (n : Z) : Z := if n <? 2 then 0 else (n - 1) * (n - 2) / 2.

(** Looking for the first frame with an id. *)
Definition search (id : list byte) (fs : list frame) : Z :=
  match first_pos (named id) fs with Some i => Z.of_nat i + 1 | None => zlen fs end.

(** An edit of a tag that holds [fs]. *)
Definition edit_rounds (e : edit) (fs : list frame) : Z :=
  match e with
  | Put f =>
      match first_pos (named (frame_id f)) fs with
      | Some i => 2 * (Z.of_nat i + 1)
      | None => zlen fs + to_end fs
      end
  | Append _ => to_end fs
  | Remove id => search id fs
  | RemoveNth id i =>
      let j := zlen (filter (named id) fs) in
      zlen fs + hops j +
      (if j =? 0 then if i =? 0 then 2 + Z.max 1 (zlen fs) else 1
       else match nth_pos (named id) i fs with Some n => j + Z.of_nat n + 2 | None => j end)
  end.
