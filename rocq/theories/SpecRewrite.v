(** Specification of rewriting any file: what becomes of a tag that was written
    by someone else.  Uses no function of the model of the code. *)
From Verif Require Import File Spec SpecFile SpecRead.

(** A frame with a part that was never read, because the file or the buffer
    ends within it. *)
Definition cut_frame (g : frame) : Prop :=
  In None (fh_flags (f_hdr g))
  \/ match f_data g with
     | DApic d => In None (ad_data d)
     | DRaw m => In None m
     | _ => False
     end.

(** A tag that is not larger than what a header can say. *)
Definition tag_below (limit : Z) (content : list byte) : Prop :=
  forall n, tag_length content = Some n -> n < 10 + limit.

(** Frames that are read with the size the library writes: all of a v2.3 tag,
    in a v2.4 tag comments and frames below 256 bytes (C30). *)
Definition size_kept (major : byte) (g : frame) : Prop :=
  major = x03 \/ fh_size (f_hdr g) < 256 \/ match f_data g with DComment _ => True | _ => False end.

(** The body of a frame as it is laid out in a tag, from the struct. *)
Definition body_cells (g : frame) : mem :=
  match f_data g with
  | DText d => Some (td_encoding d) :: td_text d
  | DComment d => Some (cd_encoding d) :: cd_language d ++ cd_short d ++ cd_comment d
  | DApic d => Some (ad_encoding d) :: ad_mime d ++ Some (ad_type d) :: ad_desc d ++ ad_data d
  | DRaw m => m
  end.
