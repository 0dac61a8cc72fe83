(** Specification of what becomes of one frame when a tag is read and written
    again, as a reader by the standard sees it.  Calls the API by
    [run_session]. *)
From Verif Require Import File Calls Spec SpecEdit SpecFile SpecSession SpecStandard.

(** Wherever the frame stands among frames that stay what they are: it is seen
    as [x] before and as [y] after. *)
Definition becomes (major : byte) (s : sframe) (x y : item) : Prop :=
  forall minor flags fs1 fs2 pad sound,
  simple_flags flags = true ->
  forallb (fun f => sayable f && readable f && stored_well major f) (fs1 ++ fs2) = true ->
  let ss := map own fs1 ++ [s] ++ map own fs2 in
  0 <= pad -> sf_size ss + pad < 2 ^ 28 ->
  let content := standard_file major minor flags ss pad sound in
  standard_read content = Some (map meant fs1 ++ [x] ++ map meant fs2)
  /\ exists file, run_session [] (Some content) = Ok (Some file)
       /\ standard_read file = Some (map meant fs1 ++ [y] ++ map meant fs2).
