(** Model of src/modules/utils.c and include/modules/utils.h. *)
From Verif Require Export Base.

(** utils.c:148-161 string_has_bom. *)
Definition string_has_bom (p : cptr) : outcome bool :=
  match p with
  | None => Ok false
  | Some m =>
      let* le := memcmp_eq [xff; xfe] m in
      if le then Ok true
      else
        let* be := memcmp_eq [xfe; xff] m in
        Ok be
  end.

(** utils.c:56-73, the loop of ID3v2_strlen on a string with byte order mark:
    two cells are read per round; the second is only inspected when the first
    is zero.  The [int] counter is checked for overflow by the caller (it
    overflows exactly when the terminator is at offset 2^31 or later). *)
Fixpoint wstrlen (m : mem) : outcome Z :=
  match m with
  | a :: b :: m' =>
      match a with
      | None => Ub UninitRead
      | Some x =>
          if beq x x00 then
            match b with
            | None => Ub UninitRead
            | Some y =>
                if beq y x00 then Ok 0 else let* n := wstrlen m' in Ok (n + 2)
            end
          else let* n := wstrlen m' in Ok (n + 2)
      end
  | _ => Ub OobRead
  end.

(** utils.c:48-74 ID3v2_strlen. *)
Definition ID3v2_strlen (p : cptr) : outcome Z :=
  let* bom := string_has_bom p in
  match p with
  | None => Ub NullDeref
  | Some m =>
      if negb bom then let* n := c_strlen m in Ok (to_i32 n)
      else let* n := wstrlen m in chk_int n
  end.

(** utils.c:76-80 ID3v2_strlent. *)
Definition ID3v2_strlent (p : cptr) : outcome Z :=
  let* bom := string_has_bom p in
  let t := if bom then 2 else 1 in
  let* n := ID3v2_strlen p in
  iadd n t.

(** What ID3v2_to_unicode returns: its argument, or a new object. *)
Inductive unicode_result :=
| SamePointer
| Fresh (m : mem).

(** utils.c:35-39, the loop of ID3v2_to_unicode: cells 2i and 2i+1 receive
    string[i-1] and 0 for i = 1 .. strlen(string). *)
Fixpoint widen (n : nat) (m : mem) : mem :=
  match n, m with
  | S n', c :: m' => c :: Some x00 :: widen n' m'
  | _, _ => []
  end.

(** utils.c:19-46 ID3v2_to_unicode.  When 2 * strlen + 4 does not fit the int
    [result_size], the malloc'ed size is wrong and the writes leave it. *)
Definition ID3v2_to_unicode (p : cptr) : outcome unicode_result :=
  let* bom := string_has_bom p in
  if bom then Ok SamePointer
  else
    match p with
    | None => Ub NullDeref
    | Some m =>
        let* n := c_strlen m in
        if 2 ^ 31 <=? n * 2 + 2 + 2 then Ub BadSize
        else Ok (Fresh ([Some xff; Some xfe] ++ widen (Z.to_nat n) m ++ [Some x00; Some x00]))
    end.

(** utils.c:86-90, the loop of btoi. *)
Fixpoint btoi_loop (n : nat) (m : mem) (result : Z) : outcome Z :=
  match n with
  | O => Ok result
  | S n' =>
      match m with
      | [] => Ub OobRead
      | None :: _ => Ub UninitRead
      | Some b :: m' =>
          btoi_loop n' m' (Z.lor (to_u32 (Z.shiftl result 8)) (bv b))
      end
  end.

(** utils.c:82-93 btoi. *)
Definition btoi (m : mem) (size : Z) : outcome Z := btoi_loop (Z.to_nat size) m 0.

(** Byte [i] of the object representation of an int on a little-endian host. *)
Definition int_byte (integer : Z) (i : Z) : byte :=
  zb (Z.shiftr (to_u32 integer) (8 * i)).

(** utils.c:95-109 itob: result[3-i] = aux[i] for i = 3 .. 0. *)
Definition itob (integer : Z) : mem :=
  map (fun i => Some (int_byte integer i)) [3; 2; 1; 0].

(** utils.c:115-122, the loop of syncint_encode.  Shifts and the mask update
    wrap as compiled code does; see [syncint_encode_iso] for ISO C. *)
Fixpoint syncint_encode_loop (fuel : nat) (value mask out : Z) : outcome Z :=
  if Z.lxor mask 0x7FFFFFFF =? 0 then Ok out
  else
    match fuel with
    | O => NoFuel
    | S fuel' =>
        let out := Z.land value (Z.lnot mask) in
        let out := to_i32 (Z.shiftl out 1) in
        let out := Z.lor out (Z.land value mask) in
        let mask := to_i32 (to_i32 (Z.shiftl (mask + 1) 8) - 1) in
        syncint_encode_loop fuel' out mask out
    end.

(** utils.c:111-125 syncint_encode ([out] starts indeterminate and is always
    assigned before it is returned; 0 stands for it). *)
Definition syncint_encode (value : Z) : outcome Z :=
  syncint_encode_loop 8 value 0x7F 0.

(** Left shift of an int in ISO C: defined for a non-negative value, if the
    result fits. *)
Definition ishl (a n : Z) : outcome Z :=
  if a <? 0 then Ub IntOverflow else chk_int (Z.shiftl a n).

(** utils.c:111-125 once more, by the letter of ISO C: nothing wraps.  The rest
    of the model uses [syncint_encode]. *)
Fixpoint syncint_encode_iso_loop (fuel : nat) (value mask out : Z) : outcome Z :=
  if Z.lxor mask 0x7FFFFFFF =? 0 then Ok out
  else
    match fuel with
    | O => NoFuel
    | S fuel' =>
        let out := Z.land value (Z.lnot mask) in
        let* out := ishl out 1 in
        let out := Z.lor out (Z.land value mask) in
        let* m := iadd mask 1 in
        let* m := ishl m 8 in
        let* mask := isub m 1 in
        syncint_encode_iso_loop fuel' out mask out
    end.
Definition syncint_encode_iso (value : Z) : outcome Z :=
  syncint_encode_iso_loop 8 value 0x7F 0.

(** utils.c:127-141 syncint_decode; [value] is an int, the result unsigned. *)
Definition syncint_decode (value : Z) : Z :=
  let a := Z.land value 0xFF in
  let b := Z.land (Z.shiftr value 8) 0xFF in
  let c := Z.land (Z.shiftr value 16) 0xFF in
  let d := Z.land (Z.shiftr value 24) 0xFF in
  let result := Z.lor 0 a in
  let result := Z.lor result (to_u32 (Z.shiftl b 7)) in
  let result := Z.lor result (to_u32 (Z.shiftl c 14)) in
  let result := Z.lor result (to_u32 (Z.shiftl d 21)) in
  result.

(** utils.c:143-146 clamp_int. *)
Definition clamp_int (value min max : Z) : Z :=
  if value <? min then min else if max <? value then max else value.

(** utils.h:13 EMPTY_UNICODE_STR, a literal of four bytes plus terminator. *)
Definition EMPTY_UNICODE_STR : cptr := Some (cells [xff; xfe; x00; x00; x00]).
