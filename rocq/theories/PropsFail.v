(** Property of failing input and output: C60. *)
From Coq Require Import List ZArith.
From Verif Require Import File Compat FileFail Calls Spec SpecEdit SpecFile SpecFail FailFacts Samples.
Import ListNotations.
Open Scope Z_scope.

(** ** C60 *)

(** When nothing is refused the functions are those of the other claims. *)
Theorem C60_ideal : forall f tagp,
  ID3v2_read_tag_header_e all_well f = ID3v2_read_tag_header f
  /\ ID3v2_read_tag_e all_well f = ID3v2_read_tag f
  /\ load_tag_e all_well f = load_tag f
  /\ ID3v2_write_tag_states f tagp
     = match ID3v2_write_tag_e all_well f tagp with
       | (states, Ok t) => Ok (states, t) | (_, Ub u) => Ub u | (_, Exit n) => Exit n | (_, NoFuel) => NoFuel
       end
  /\ ID3v2_delete_tag_states f
     = match ID3v2_delete_tag_e all_well f with
       | (states, Ok _) => Ok states | (_, Ub u) => Ub u | (_, Exit n) => Exit n | (_, NoFuel) => NoFuel
       end.
Proof. exact ideal_all. Qed.
Print Assumptions C60_ideal.

(** A file that cannot be opened reads like a missing one, a file that cannot be
    read beyond some point like one that ends there.  With a header recognised,
    a failing second fopen is not noticed; a failing malloc is. *)
Theorem C60_read : forall e f,
  ID3v2_read_tag_header_e e f = ID3v2_read_tag_header (seen e f)
  /\ ID3v2_read_tag_e e f
     = match ID3v2_read_tag_header (seen e f) with
       | Ok (Some _) => if e_reopen e then if e_buffer e then ID3v2_read_tag (seen e f) else Ok None else Ub NullDeref
       | _ => ID3v2_read_tag (seen e f)
       end
  /\ load_tag_e e f
     = match ID3v2_read_tag_header (seen e f) with
       | Ok (Some _) => if e_reopen e && e_buffer e then load_tag (seen e f) else Ub NullDeref
       | _ => load_tag (seen e f)
       end.
Proof. exact read_all. Qed.
Print Assumptions C60_read.

(** Writing when the files can be opened.  Whatever fails after that, the call
    returns as if nothing had happened; the file holds as much as passed through
    the temporary file and the disk, and on the way every prefix of that. *)
Theorem C60_write : forall e content t cs bytes,
  sees_extended e content = false -> 2048 - 2 ^ 31 < t_padding t < 2 ^ 31 ->
  Tag_to_char_stream t = Ok cs -> cs_stream cs = cells bytes -> cs_size cs = zlen bytes ->
  e_temp e && e_update e && e_replace e = true ->
  exists states, ID3v2_write_tag_e e (Some content) (Some t) = (states, Ok (Some (padded t)))
    /\ last states (Some content) = Some (passed e (bytes ++ carried e content))
    /\ (forall s, In s states
          <-> s = Some content \/ exists i, s = Some (firstn i (passed e (bytes ++ carried e content)))).
Proof. exact write_fails. Qed.
Print Assumptions C60_write.

(** What passes is all of it exactly when it fits everywhere, and a beginning of
    it in any case. *)
Theorem C60_passed : forall e l,
  (passed e l = l <-> enough (e_temp_holds e) l /\ enough (e_temp_reads e) l /\ enough (e_file_holds e) l)
  /\ exists i, passed e l = firstn i l.
Proof. exact passed_all. Qed.
Print Assumptions C60_passed.

(** Writing when one of the three opens fails: the call does not return, and the
    file is as it was; with a tag that can be serialised it is the null pointer
    that stops it. *)
Theorem C60_write_refused : forall e f t,
  e_temp e && e_update e && e_replace e = false ->
  exists r, ID3v2_write_tag_e e f (Some t) = ([f], r) /\ (forall v, r <> Ok v)
    /\ forall content cs bytes, f = Some content ->
       sees_extended e content = false -> 2048 - 2 ^ 31 < t_padding t < 2 ^ 31 ->
       Tag_to_char_stream t = Ok cs -> cs_stream cs = cells bytes -> cs_size cs = zlen bytes ->
       r = Ub NullDeref.
Proof. exact refused_all. Qed.
Print Assumptions C60_write_refused.

(** Deleting when the files can be opened. *)
Theorem C60_delete : forall e content,
  sees_extended e content = false -> e_reopen e && e_temp e && e_replace e = true ->
  e_open e = true -> tag_length (at_most (e_file_reads e) content) <> None ->
  exists states, ID3v2_delete_tag_e e (Some content) = (states, Ok tt)
    /\ last states (Some content) = Some (passed e (carried e content))
    /\ (forall s, In s states <-> s = Some content \/ exists i, s = Some (firstn i (passed e (carried e content)))).
Proof. exact delete_fails. Qed.
Print Assumptions C60_delete.

(** Deleting when the tag is not seen. *)
Theorem C60_delete_unseen : forall e f,
  match seen e f with None => True | Some l => tag_length l = None end ->
  ID3v2_delete_tag_e e f = ([f], Ok tt).
Proof. exact unseen_none. Qed.
Print Assumptions C60_delete_unseen.

(** Deleting when one of the three opens fails: the call does not return, and the
    file is as it was, except that a file with nothing but the tag may have been
    emptied when there is no temporary file. *)
Theorem C60_delete_refused : forall e content,
  sees_extended e content = false -> e_reopen e && e_temp e && e_replace e = false ->
  e_open e = true -> tag_length (at_most (e_file_reads e) content) <> None ->
  ID3v2_delete_tag_e e (Some content)
  = (if e_reopen e && e_replace e && match carried e content with [] => true | _ => false end
     then [Some content; Some []] else [Some content], Ub NullDeref).
Proof. exact delete_refused. Qed.
Print Assumptions C60_delete_refused.

(** A disk with room for 41 bytes; a file with a 40 byte tag and a byte that
    cannot be read; no temporary files. *)
Example C60_applies :
  let old := tag_bytes x04 x00 x00 30 [artist] in
  let full := mkEnv true true true true true true None None None (Some 41%nat) in
  let broken := mkEnv true true true true true true (Some 42%nat) None None None in
  let no_temp := mkEnv true true true true false true None None None None in
  let t := tag_with [artist] 30 in
  sees_extended full (old ++ [xff; xfb; x90]) = false
  /\ 2048 - 2 ^ 31 < t_padding t < 2 ^ 31
  /\ (exists cs, Tag_to_char_stream t = Ok cs /\ cs_stream cs = cells (tag_bytes x03 x00 x00 30 [artist])
        /\ cs_size cs = zlen (tag_bytes x03 x00 x00 30 [artist]))
  /\ passed full (tag_bytes x03 x00 x00 30 [artist] ++ carried full (old ++ [xff; xfb; x90]))
     = tag_bytes x03 x00 x00 30 [artist] ++ [xff]
  /\ carried broken (old ++ [xff; xfb; x90]) = [xff; xfb]
  /\ tag_length (at_most (e_file_reads broken) (old ++ [xff; xfb; x90])) = Some 40
  /\ ID3v2_delete_tag_e no_temp (Some old) = ([Some old; Some []], Ub NullDeref)
  /\ ID3v2_delete_tag_e no_temp (Some (old ++ [xff])) = ([Some (old ++ [xff])], Ub NullDeref).
Proof.
  split; [vm_compute; reflexivity|]. split; [vm_compute; split; congruence|].
  split; [eexists; split; [vm_compute; reflexivity|split; vm_compute; reflexivity]|].
  repeat split; vm_compute; reflexivity.
Qed.
