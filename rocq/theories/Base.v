(** C-level notions the model is written in: bytes, memory cells, pointers,
    machine integers, and the outcome type in which undefined behaviour is a
    value.  Nothing here is specific to id3v2lib. *)
From Coq Require Export Strings.String.
From Coq Require Export Strings.Byte.
From Coq Require Export List ZArith Bool.
Export ListNotations.
Open Scope Z_scope.

(** ** Outcomes *)

(** Why an execution is undefined. *)
Inductive ub :=
| OobRead        (* read outside the object pointed into *)
| OobWrite       (* write outside the object pointed into *)
| UninitRead     (* use of an indeterminate value *)
| NullDeref      (* NULL pointer dereferenced / passed where a pointer is required *)
| BadSize        (* non-positive VLA size, negative malloc/calloc/memcpy size *)
| IntOverflow    (* signed integer overflow *)
| TypeConfusion  (* frame data accessed through the wrong struct type *)
| UseAfterFree   (* object used, or freed again, after it has been freed *)
| BadFree        (* free of a pointer that malloc did not return *)
| StackOverflow. (* automatic storage exhausted; in Platform.v only *)

Inductive outcome (A : Type) :=
| Ok (a : A)     (* normal return *)
| Ub (u : ub)    (* undefined behaviour *)
| Exit (n : Z)   (* the process terminated through exit(n) *)
| NoFuel.        (* model artefact: a loop used up its fuel *)
Arguments Ok {A} a.
Arguments Ub {A} u.
Arguments Exit {A} n.
Arguments NoFuel {A}.

Definition bind {A B} (o : outcome A) (k : A -> outcome B) : outcome B :=
  match o with
  | Ok a => k a
  | Ub u => Ub u
  | Exit n => Exit n
  | NoFuel => NoFuel
  end.

Notation "'let*' x ':=' e 'in' k" := (bind e (fun x => k))
  (at level 200, x pattern, e at level 100, k at level 200, right associativity).

(** ** Bytes *)

(** Value of a byte as unsigned char. *)
Definition bv (b : byte) : Z := Z.of_N (Byte.to_N b).

(** Conversion of an integer to (unsigned) char. *)
Definition zb (z : Z) : byte :=
  match Byte.of_N (Z.to_N (z mod 256)) with Some b => b | None => x00 end.

(** Value of a byte as (signed) char, the type of [char] on the platforms the
    library is built for. *)
Definition schar (b : byte) : Z := if bv b <? 128 then bv b else bv b - 256.

Definition beq (a b : byte) : bool := Byte.eqb a b.

(** String literal without its terminating zero. *)
Definition lit (s : string) : list byte := list_byte_of_string s.
Arguments lit s%string.

(** ** Memory *)

(** A memory cell: a byte, or indeterminate contents. *)
Definition cell := option byte.

(** The cells from a pointer to the end of the object it points into. *)
Definition mem := list cell.

(** A [char*]: NULL or a pointer into an object. *)
Definition cptr := option mem.

(** Fully initialised memory. *)
Definition cells (l : list byte) : mem := map Some l.

(** The object behind a string literal, terminator included. *)
Definition clit (s : string) : cptr := Some (cells (lit s ++ [x00])).
Arguments clit s%string.

Definition zlen {A} (l : list A) : Z := Z.of_nat (length l).

(** The source half of [memcpy(_, p, n)]: the [n] cells at [p].  The size is
    converted to size_t, so a negative one is far outside any object. *)
Definition memcpy_from (p : cptr) (n : Z) : outcome mem :=
  match p with
  | None => Ub NullDeref
  | Some m =>
      if n <? 0 then Ub BadSize
      else if zlen m <? n then Ub OobRead
      else Ok (firstn (Z.to_nat n) m)
  end.

(** [memcmp(lit, m, length lit) == 0].  Simplification: bytes are compared in
    order and comparison stops at the first difference, so a shorter object is
    accepted when the difference comes before its end (ISO C already leaves
    that undefined, mainstream implementations give this result). *)
Fixpoint memcmp_eq (l : list byte) (m : mem) : outcome bool :=
  match l with
  | [] => Ok true
  | x :: l' =>
      match m with
      | [] => Ub OobRead
      | None :: _ => Ub UninitRead
      | Some y :: m' => if beq x y then memcmp_eq l' m' else Ok false
      end
  end.

(** [strncmp(a, b, n) == 0]. *)
Fixpoint strncmp_eq (n : nat) (a b : mem) : outcome bool :=
  match n with
  | O => Ok true
  | S n' =>
      match a, b with
      | Some x :: a', Some y :: b' =>
          if beq x y then
            if beq x x00 then Ok true else strncmp_eq n' a' b'
          else Ok false
      | [], _ | _, [] => Ub OobRead
      | None :: _, _ | _, None :: _ => Ub UninitRead
      end
  end.

(** C [strlen]. *)
Fixpoint c_strlen (m : mem) : outcome Z :=
  match m with
  | [] => Ub OobRead
  | None :: _ => Ub UninitRead
  | Some b :: m' =>
      if beq b x00 then Ok 0 else let* n := c_strlen m' in Ok (n + 1)
  end.

(** ** Machine integers: 32-bit int and unsigned *)

Definition to_u32 (z : Z) : Z := z mod 2 ^ 32.
Definition to_i32 (z : Z) : Z := (z + 2 ^ 31) mod 2 ^ 32 - 2 ^ 31.

(** Result of signed int arithmetic: overflow is undefined. *)
Definition chk_int (z : Z) : outcome Z :=
  if (- 2 ^ 31 <=? z) && (z <? 2 ^ 31) then Ok z else Ub IntOverflow.
Definition iadd (a b : Z) : outcome Z := chk_int (a + b).
Definition isub (a b : Z) : outcome Z := chk_int (a - b).
