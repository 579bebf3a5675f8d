(** Specification of bit fields, independent of the codec: the bits of a
    buffer are numbered from the least significant bit of its first byte. *)
From Verif Require Import Base Codec.

(** Bit [i] of the buffer. *)
Definition bit_at (m : list Z) (i : Z) : bool :=
  Z.testbit (nth (Z.to_nat (i / 8)) m 0) (i mod 8).

(** The number with binary digits [f 0], [f 1], ..., [f (n-1)]. *)
Fixpoint val_of_bits (n : nat) (f : Z -> bool) : Z :=
  match n with
  | O => 0
  | S k => val_of_bits k f + (if f (Z.of_nat k) then 2 ^ Z.of_nat k else 0)
  end.

(** Value of the [nb]-bit field at bit offset [off], read as an unsigned and
    as a two's-complement number. *)
Definition field_unsigned (m : list Z) (off nb : Z) : Z :=
  val_of_bits (Z.to_nat nb) (fun j => bit_at m (off + j)).

Definition field_signed (m : list Z) (off nb : Z) : Z :=
  let u := field_unsigned m off nb in
  if u <? 2 ^ (nb - 1) then u else u - 2 ^ nb.

(** The value a field of type [t] denotes: bool is "some bit is set"; a one-bit
    signed field is 0 or 1; wider signed fields are two's complement. *)
Definition field_value (t : prim) (m : list Z) (off nb : Z) : Z :=
  match t with
  | PBool => if field_unsigned m off nb =? 0 then 0 else 1
  | _ => if is_signed t
         then if nb =? 1 then field_unsigned m off nb else field_signed m off nb
         else field_unsigned m off nb
  end.

(** Layouts the codec supports: the field starts in the first byte or fits in
    eight consecutive bytes. *)
Definition layout_ok (off nb : Z) : Prop := off < 8 \/ off mod 8 + nb <= 64.

(** The field lies inside the buffer. *)
Definition field_inside (m : list Z) (off nb : Z) : Prop :=
  0 <= off /\ off + nb <= 8 * len m.

(** Values a field of type [t] with [nb] bits can represent. *)
Definition in_range (t : prim) (nb v : Z) : Prop :=
  match t with
  | PBool => v = 0 \/ v = 1
  | _ => if is_signed t then - 2 ^ (nb - 1) <= v < 2 ^ (nb - 1)
         else 0 <= v < 2 ^ nb
  end.

(** Values a Rust variable of type [t] can hold. *)
Definition is_value (t : prim) (v : Z) : Prop :=
  match t with PBool => v = 0 \/ v = 1 | _ => in_range t (width t) v end.
