(** What a caller could do instead of passing pointers into a tag: copy the
    strings out first. *)
From Verif Require Import Heap Alias SpecHeap.

(** The string an argument points to. *)
Definition string_of (x : carg) (h : heap) : option cptr :=
  match x with
  | Own c => Some c
  | Inside p what offset =>
      match lookup p (live h) with
      | Some b => match array what b with Some m => Some (Some (skipn offset m)) | None => None end
      | None => None
      end
  end.

(** The same call with copies of the strings. *)
Definition with_copies (c : acall) (h : heap) : option call :=
  match c with
  | ASetText id flags text =>
      match string_of id h, string_of flags h, string_of text h with
      | Some i, Some f, Some t => Some (SetTextFrame (mkTextInput i f t))
      | _, _, _ => None
      end
  | ASetComment flags lang short_desc comment =>
      match string_of flags h, string_of lang h, string_of short_desc h, string_of comment h with
      | Some f, Some l, Some s, Some c => Some (SetCommentFrame (mkCommentInput f l s c))
      | _, _, _, _ => None
      end
  | AAddComment flags lang short_desc comment =>
      match string_of flags h, string_of lang h, string_of short_desc h, string_of comment h with
      | Some f, Some l, Some s, Some c => Some (AddCommentFrame (mkCommentInput f l s c))
      | _, _, _, _ => None
      end
  | ASetApic flags mime description type size data =>
      match string_of flags h, string_of mime h, string_of description h, string_of data h with
      | Some f, Some m, Some e, Some d => Some (SetApicFrame (mkApicInput f m e type size d))
      | _, _, _, _ => None
      end
  | AAddApic flags mime description type size data =>
      match string_of flags h, string_of mime h, string_of description h, string_of data h with
      | Some f, Some m, Some e, Some d => Some (AddApicFrame (mkApicInput f m e type size d))
      | _, _, _, _ => None
      end
  | ADelete id => match string_of id h with Some i => Some (DeleteFrame i) | None => None end
  end.
