(** Tags that are too big for the size field of the tag header: C96. *)
From Verif Require Import File Spec SpecFile.

(** The four bytes that stand for a size; below 2^28 they are synchsafe. *)
Definition size_bytes (n : Z) : list byte :=
  [zb (n / 2 ^ 21 mod 256); zb (n / 2 ^ 14 mod 128); zb (n / 2 ^ 7 mod 128); zb (n mod 128)].

(** A tag with them. *)
Definition big_bytes (maj mi fl : byte) (n : Z) (fs : list fspec) : list byte :=
  lit "ID3" ++ [maj; mi; fl] ++ size_bytes n ++ images be32 fs ++ zeros (n - frames_size fs).

(** The end of it that its size field does not cover. *)
Definition left_over (maj mi fl : byte) (n : Z) (fs : list fspec) : list byte :=
  skipn (Z.to_nat (10 + n mod 2 ^ 29)) (big_bytes maj mi fl n fs).

(** Saving a tag several times. *)
Fixpoint save_times (k : nat) (f : file) (t : option Tag) : outcome file :=
  match k with
  | O => Ok f
  | S k => let* (f, t) := ID3v2_write_tag f t in save_times k f t
  end.
