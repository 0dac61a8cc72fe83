(** Specification of the laws of edits.  Uses no function of the model of the
    code. *)
From Verif Require Import File Calls Spec SpecEdit SpecHole.

(** Two tags that differ in nothing but the addresses of their frames. *)
Definition alike (t u : Tag) : Prop :=
  t_header t = t_header u /\ t_padding t = t_padding u
  /\ exists s, tag_holds t s /\ tag_holds u s /\ Forall sane (held s).
