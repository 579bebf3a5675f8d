(** Model of src/helper.rs (masked!, num_bytes!, extend_sign!, trait Int),
    src/bytereader.rs (read_bytes!) and src/bytewriter.rs (write_bytes!). *)
From Verif Require Import Base.

(** Primitive types a field may have: the implementors of [Int],
    src/helper.rs:4-43.  For an enum field [$type: $primitive_type]
    (src/archive.rs:205-206) the model uses the underlying primitive type; the
    transmute in src/archive.rs:243 is the identity on the integer code. *)
Inductive prim := PBool | U8 | U16 | U32 | U64 | I8 | I16 | I32 | I64.

(** size_of::<T>() * 8 *)
Definition width (t : prim) : Z :=
  match t with
  | PBool | U8 | I8 => 8
  | U16 | I16 => 16
  | U32 | I32 => 32
  | U64 | I64 => 64
  end.

(** [<T as Int>::IS_SIGNED], src/helper.rs:4-43 *)
Definition is_signed (t : prim) : bool :=
  match t with I8 | I16 | I32 | I64 => true | _ => false end.

(** Host byte order. *)
Inductive endian := LE | BE.

(** Value of a little-endian byte string, and the [n] low bytes of a value. *)
Fixpoint le_val (l : list Z) : Z :=
  match l with [] => 0 | x :: r => x + 256 * le_val r end.
Fixpoint le_bytes (n : nat) (v : Z) : list Z :=
  match n with O => [] | S k => v mod 256 :: le_bytes k (v / 256) end.

(** Truncation to 64 and 8 bits ([as u64], [as u8], bits lost by [<<]). *)
Definition u64 (v : Z) : Z := v mod 2 ^ 64.
Definition u8 (v : Z) : Z := v mod 2 ^ 8.
(** [!x] on u64 *)
Definition not64 (v : Z) : Z := Z.ldiff (Z.ones 64) v.

(** Representation of a u64 local variable in memory on the host. *)
Definition u64_of_mem (e : endian) (l : list Z) : Z :=
  match e with LE => le_val l | BE => le_val (rev l) end.
Definition u64_to_mem (e : endian) (v : Z) : list Z :=
  match e with LE => le_bytes 8 v | BE => rev (le_bytes 8 v) end.
(** [u64::from_le], [u64::to_le]: byte swap on big-endian hosts. *)
Definition swap64 (v : Z) : Z := le_val (rev (le_bytes 8 v)).
Definition from_le (e : endian) (v : Z) : Z :=
  match e with LE => v | BE => swap64 v end.
Definition to_le := from_le.

(** src/helper.rs:69-75 masked! ([1u64.checked_shl(n)] is None iff n >= 64) *)
Definition masked (v nb : Z) : Z :=
  if nb <? 64 then Z.land v (Z.shiftl 1 nb - 1) else v.

(** src/helper.rs:81-89 num_bytes! *)
Definition num_bytes (offset nb : Z) : Z :=
  if nb + offset mod 8 <? 64 then (nb + offset mod 8 + 7) / 8
  else (nb + 7) / 8.

(** [v as T] between integer types. *)
Definition cast (t : prim) (v : Z) : Z :=
  if is_signed t
  then (v + 2 ^ (width t - 1)) mod 2 ^ width t - 2 ^ (width t - 1)
  else v mod 2 ^ width t.

(** src/helper.rs:93-104 extend_sign!; [wrapping_shl]/[wrapping_shr] take the
    shift amount modulo the width, shr of a signed type is arithmetic. *)
Definition extend_sign (b : build) (t : prim) (v nb : Z) : outcome Z :=
  if is_signed t then
    d <- usub b (width t) nb ;;
    let s := (d mod 2 ^ 32) mod width t in
    Ret (Z.shiftr (cast t (Z.shiftl (cast t v) s)) s)
  else Ret (cast t v).

(** [ptr::copy(data + pos, &mut result as *mut u64 as *mut u8, n)] with
    result = 0 before: copying more than 8 bytes overruns the local. *)
Definition load_u64 (e : endian) (m : list Z) (pos n : Z) : outcome Z :=
  if n <=? 8 then
    l <- mem_read m pos n ;;
    Ret (u64_of_mem e (l ++ zeros (8 - n)))
  else UB.

(** [ptr::copy(&value as *const u64 as *const u8, destination, n)] *)
Definition store_u64 (e : endian) (m : list Z) (pos v n : Z) : outcome (list Z) :=
  if n <=? 8 then mem_write m pos (firstn (Z.to_nat n) (u64_to_mem e v))
  else UB.

(** src/bytereader.rs:24-48 read_bytes!($T, $data, $offset, $num_bits), the
    arm for integer types.  [m] is the memory reachable from [$data].
    Note that line 42 adds [byte_offset] to [data], which already includes it. *)
Definition read_bytes_int (b : build) (e : endian) (t : prim)
    (m : list Z) (offset nb : Z) : outcome Z :=
  let byte_offset := offset / 8 in
  let bit_offset := offset mod 8 in
  if nb =? 1 then
    x <- mem_get m byte_offset ;;
    Ret (if Z.land x (Z.shiftl 1 bit_offset) =? 0 then 0 else 1)
  else
    let n := num_bytes offset nb in
    r <- load_u64 e m byte_offset n ;;
    let r := Z.shiftr (from_le e r) bit_offset in
    r <- (if n * 8 - bit_offset <? nb then
            temp <- mem_get m (byte_offset + (byte_offset + n)) ;;
            Ret (Z.lor r (u64 (Z.shiftl temp ((n * 8 - bit_offset) mod (n * 8)))))
          else Ret r) ;;
    extend_sign b t (masked r nb) nb.

(** src/bytereader.rs:21-23: the [bool] arm reads a u8 and compares with 0. *)
Definition read_bytes (b : build) (e : endian) (t : prim)
    (m : list Z) (offset nb : Z) : outcome Z :=
  match t with
  | PBool => r <- read_bytes_int b e U8 m offset nb ;;
             Ret (if r =? 0 then 0 else 1)
  | _ => read_bytes_int b e t m offset nb
  end.

(** src/bytewriter.rs:25-76 write_bytes!($T; $value, $data, $offset, $num_bits).
    [data] is the slice [$data]; indexing it is bounds checked (Panic), the raw
    copies are not (UB).  Note that line 66 indexes [$data] with [num_bytes]
    and not with [$offset / 8 + num_bytes]. *)
Definition write_bytes (b : build) (e : endian) (t : prim) (value : Z)
    (data : list Z) (offset nb : Z) : outcome (list Z) :=
  if match b with Debug => 64 <? nb | Release => false end then Panic else
  if negb (offset / 8 <? len data) then Panic else
  let dest := offset / 8 in
  let bit_offset := offset mod 8 in
  let vts := u64 value in
  let vts := if is_signed t then masked vts nb else vts in
  let vmask := masked (2 ^ 64 - 1) nb in
  let n := num_bytes offset nb in
  v <- load_u64 e data dest n ;;
  let v := from_le e v in
  let v := Z.land v (not64 (u64 (Z.shiftl vmask bit_offset))) in
  let v := Z.lor v (u64 (Z.shiftl vts bit_offset)) in
  let v := to_le e v in
  data <- store_u64 e data dest v n ;;
  let batched := n * 8 - bit_offset in
  if batched <? nb then
    if negb (n <? len data) then Panic else
    let s := batched mod (n * 8) in
    let vts := Z.shiftr vts s in
    let vmask := Z.shiftr vmask s in
    old <- mem_get data n ;;
    let byte_value := Z.land old (u8 (not64 vmask)) in
    mem_write data n [Z.lor byte_value (u8 vts)]
  else Ret data.
