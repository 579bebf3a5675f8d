(** The unit tests of src/bytereader.rs and src/bytewriter.rs, evaluated in the
    model.  These are tests of the model against the expectations of the authors,
    not proofs of properties.  The tables were extracted by a script. *)
From Verif Require Import Base Codec.
From Coq Require Import String Ascii.
Local Open Scope string_scope.
Local Open Scope list_scope.
Local Open Scope Z_scope.

(** Two hexadecimal digits per byte. *)
Definition hex_digit (c : ascii) : Z :=
  let n := Z.of_nat (nat_of_ascii c) in if n <? 58 then n - 48 else n - 87.
Fixpoint hex (s : string) : list Z :=
  match s with
  | String a (String b r) => hex_digit a * 16 + hex_digit b :: hex r
  | _ => []
  end.

Definition is_ret {A} (eqb : A -> A -> bool) (x : outcome A) (y : A) : bool :=
  match x with Ret z => eqb z y | _ => false end.
Fixpoint eqs (a b : list Z) : bool :=
  match a, b with
  | [], [] => true
  | x :: r, y :: r' => (x =? y) && eqs r r'
  | _, _ => false
  end.
Definition everywhere (f : build -> endian -> bool) : bool :=
  f Debug LE && f Debug BE && f Release LE && f Release BE.

(** data, offset, num_bits, expected: bytereader.rs:67-1146 *)
Definition reads : list (string * Z * Z * Z) := [
  ("00010000000000000000", 8, 8, 1);
  ("00010000000000000000", 8, 7, 1);
  ("00010000000000000000", 8, 6, 1);
  ("00010000000000000000", 8, 5, 1);
  ("00010000000000000000", 8, 4, 1);
  ("00010000000000000000", 8, 3, 1);
  ("00010000000000000000", 8, 2, 1);
  ("00010000000000000000", 8, 1, 1);
  ("80000000000000000000", 7, 8, 1);
  ("80000000000000000000", 7, 7, 1);
  ("80000000000000000000", 7, 6, 1);
  ("80000000000000000000", 7, 5, 1);
  ("80000000000000000000", 7, 4, 1);
  ("80000000000000000000", 7, 3, 1);
  ("80000000000000000000", 7, 2, 1);
  ("80000000000000000000", 7, 1, 1);
  ("40000000000000000000", 6, 8, 1);
  ("40000000000000000000", 6, 7, 1);
  ("40000000000000000000", 6, 6, 1);
  ("40000000000000000000", 6, 5, 1);
  ("40000000000000000000", 6, 4, 1);
  ("40000000000000000000", 6, 3, 1);
  ("40000000000000000000", 6, 2, 1);
  ("40000000000000000000", 6, 1, 1);
  ("20000000000000000000", 5, 8, 1);
  ("20000000000000000000", 5, 7, 1);
  ("20000000000000000000", 5, 6, 1);
  ("20000000000000000000", 5, 5, 1);
  ("20000000000000000000", 5, 4, 1);
  ("20000000000000000000", 5, 3, 1);
  ("20000000000000000000", 5, 2, 1);
  ("20000000000000000000", 5, 1, 1);
  ("10000000000000000000", 4, 8, 1);
  ("10000000000000000000", 4, 7, 1);
  ("10000000000000000000", 4, 6, 1);
  ("10000000000000000000", 4, 5, 1);
  ("10000000000000000000", 4, 4, 1);
  ("10000000000000000000", 4, 3, 1);
  ("10000000000000000000", 4, 2, 1);
  ("10000000000000000000", 4, 1, 1);
  ("08000000000000000000", 3, 8, 1);
  ("08000000000000000000", 3, 7, 1);
  ("08000000000000000000", 3, 6, 1);
  ("08000000000000000000", 3, 5, 1);
  ("08000000000000000000", 3, 4, 1);
  ("08000000000000000000", 3, 3, 1);
  ("08000000000000000000", 3, 2, 1);
  ("08000000000000000000", 3, 1, 1);
  ("04000000000000000000", 2, 8, 1);
  ("04000000000000000000", 2, 7, 1);
  ("04000000000000000000", 2, 6, 1);
  ("04000000000000000000", 2, 5, 1);
  ("04000000000000000000", 2, 4, 1);
  ("04000000000000000000", 2, 3, 1);
  ("04000000000000000000", 2, 2, 1);
  ("04000000000000000000", 2, 1, 1);
  ("02000000000000000000", 1, 8, 1);
  ("02000000000000000000", 1, 7, 1);
  ("02000000000000000000", 1, 6, 1);
  ("02000000000000000000", 1, 5, 1);
  ("02000000000000000000", 1, 4, 1);
  ("02000000000000000000", 1, 3, 1);
  ("02000000000000000000", 1, 2, 1);
  ("02000000000000000000", 1, 1, 1);
  ("010000000000000000", 0, 8, 1);
  ("010000000000000000", 0, 7, 1);
  ("010000000000000000", 0, 6, 1);
  ("010000000000000000", 0, 5, 1);
  ("010000000000000000", 0, 4, 1);
  ("010000000000000000", 0, 3, 1);
  ("010000000000000000", 0, 2, 1);
  ("010000000000000000", 0, 1, 1);
  ("0001000000000000000000", 8, 16, 1);
  ("0001000000000000000000", 8, 15, 1);
  ("0001000000000000000000", 8, 14, 1);
  ("0001000000000000000000", 8, 13, 1);
  ("0001000000000000000000", 8, 12, 1);
  ("0001000000000000000000", 8, 11, 1);
  ("0001000000000000000000", 8, 10, 1);
  ("0001000000000000000000", 8, 9, 1);
  ("0001000000000000000000", 8, 8, 1);
  ("0001000000000000000000", 8, 7, 1);
  ("0001000000000000000000", 8, 6, 1);
  ("0001000000000000000000", 8, 5, 1);
  ("0001000000000000000000", 8, 4, 1);
  ("0001000000000000000000", 8, 3, 1);
  ("0001000000000000000000", 8, 2, 1);
  ("0001000000000000000000", 8, 1, 1);
  ("8000000000000000000000", 7, 16, 1);
  ("8000000000000000000000", 7, 15, 1);
  ("8000000000000000000000", 7, 14, 1);
  ("8000000000000000000000", 7, 13, 1);
  ("8000000000000000000000", 7, 12, 1);
  ("8000000000000000000000", 7, 11, 1);
  ("8000000000000000000000", 7, 10, 1);
  ("8000000000000000000000", 7, 9, 1);
  ("8000000000000000000000", 7, 8, 1);
  ("8000000000000000000000", 7, 7, 1);
  ("8000000000000000000000", 7, 6, 1);
  ("8000000000000000000000", 7, 5, 1);
  ("8000000000000000000000", 7, 4, 1);
  ("8000000000000000000000", 7, 3, 1);
  ("8000000000000000000000", 7, 2, 1);
  ("8000000000000000000000", 7, 1, 1);
  ("4000000000000000000000", 6, 16, 1);
  ("4000000000000000000000", 6, 15, 1);
  ("4000000000000000000000", 6, 14, 1);
  ("4000000000000000000000", 6, 13, 1);
  ("4000000000000000000000", 6, 12, 1);
  ("4000000000000000000000", 6, 11, 1);
  ("4000000000000000000000", 6, 10, 1);
  ("4000000000000000000000", 6, 9, 1);
  ("4000000000000000000000", 6, 8, 1);
  ("4000000000000000000000", 6, 7, 1);
  ("4000000000000000000000", 6, 6, 1);
  ("4000000000000000000000", 6, 5, 1);
  ("4000000000000000000000", 6, 4, 1);
  ("4000000000000000000000", 6, 3, 1);
  ("4000000000000000000000", 6, 2, 1);
  ("4000000000000000000000", 6, 1, 1);
  ("2000000000000000000000", 5, 16, 1);
  ("2000000000000000000000", 5, 15, 1);
  ("2000000000000000000000", 5, 14, 1);
  ("2000000000000000000000", 5, 13, 1);
  ("2000000000000000000000", 5, 12, 1);
  ("2000000000000000000000", 5, 11, 1);
  ("2000000000000000000000", 5, 10, 1);
  ("2000000000000000000000", 5, 9, 1);
  ("2000000000000000000000", 5, 8, 1);
  ("2000000000000000000000", 5, 7, 1);
  ("2000000000000000000000", 5, 6, 1);
  ("2000000000000000000000", 5, 5, 1);
  ("2000000000000000000000", 5, 4, 1);
  ("2000000000000000000000", 5, 3, 1);
  ("2000000000000000000000", 5, 2, 1);
  ("2000000000000000000000", 5, 1, 1);
  ("1000000000000000000000", 4, 16, 1);
  ("1000000000000000000000", 4, 15, 1);
  ("1000000000000000000000", 4, 14, 1);
  ("1000000000000000000000", 4, 13, 1);
  ("1000000000000000000000", 4, 12, 1);
  ("1000000000000000000000", 4, 11, 1);
  ("1000000000000000000000", 4, 10, 1);
  ("1000000000000000000000", 4, 9, 1);
  ("1000000000000000000000", 4, 8, 1);
  ("1000000000000000000000", 4, 7, 1);
  ("1000000000000000000000", 4, 6, 1);
  ("1000000000000000000000", 4, 5, 1);
  ("1000000000000000000000", 4, 4, 1);
  ("1000000000000000000000", 4, 3, 1);
  ("1000000000000000000000", 4, 2, 1);
  ("1000000000000000000000", 4, 1, 1);
  ("0800000000000000000000", 3, 16, 1);
  ("0800000000000000000000", 3, 15, 1);
  ("0800000000000000000000", 3, 14, 1);
  ("0800000000000000000000", 3, 13, 1);
  ("0800000000000000000000", 3, 12, 1);
  ("0800000000000000000000", 3, 11, 1);
  ("0800000000000000000000", 3, 10, 1);
  ("0800000000000000000000", 3, 9, 1);
  ("0800000000000000000000", 3, 8, 1);
  ("0800000000000000000000", 3, 7, 1);
  ("0800000000000000000000", 3, 6, 1);
  ("0800000000000000000000", 3, 5, 1);
  ("0800000000000000000000", 3, 4, 1);
  ("0800000000000000000000", 3, 3, 1);
  ("0800000000000000000000", 3, 2, 1);
  ("0800000000000000000000", 3, 1, 1);
  ("0400000000000000000000", 2, 16, 1);
  ("0400000000000000000000", 2, 15, 1);
  ("0400000000000000000000", 2, 14, 1);
  ("0400000000000000000000", 2, 13, 1);
  ("0400000000000000000000", 2, 12, 1);
  ("0400000000000000000000", 2, 11, 1);
  ("0400000000000000000000", 2, 10, 1);
  ("0400000000000000000000", 2, 9, 1);
  ("0400000000000000000000", 2, 8, 1);
  ("0400000000000000000000", 2, 7, 1);
  ("0400000000000000000000", 2, 6, 1);
  ("0400000000000000000000", 2, 5, 1);
  ("0400000000000000000000", 2, 4, 1);
  ("0400000000000000000000", 2, 3, 1);
  ("0400000000000000000000", 2, 2, 1);
  ("0400000000000000000000", 2, 1, 1);
  ("0200000000000000000000", 1, 16, 1);
  ("0200000000000000000000", 1, 15, 1);
  ("0200000000000000000000", 1, 14, 1);
  ("0200000000000000000000", 1, 13, 1);
  ("0200000000000000000000", 1, 12, 1);
  ("0200000000000000000000", 1, 11, 1);
  ("0200000000000000000000", 1, 10, 1);
  ("0200000000000000000000", 1, 9, 1);
  ("0200000000000000000000", 1, 8, 1);
  ("0200000000000000000000", 1, 7, 1);
  ("0200000000000000000000", 1, 6, 1);
  ("0200000000000000000000", 1, 5, 1);
  ("0200000000000000000000", 1, 4, 1);
  ("0200000000000000000000", 1, 3, 1);
  ("0200000000000000000000", 1, 2, 1);
  ("0200000000000000000000", 1, 1, 1);
  ("01000000000000000000", 0, 16, 1);
  ("01000000000000000000", 0, 15, 1);
  ("01000000000000000000", 0, 14, 1);
  ("01000000000000000000", 0, 13, 1);
  ("01000000000000000000", 0, 12, 1);
  ("01000000000000000000", 0, 11, 1);
  ("01000000000000000000", 0, 10, 1);
  ("01000000000000000000", 0, 9, 1);
  ("01000000000000000000", 0, 8, 1);
  ("01000000000000000000", 0, 7, 1);
  ("01000000000000000000", 0, 6, 1);
  ("01000000000000000000", 0, 5, 1);
  ("01000000000000000000", 0, 4, 1);
  ("01000000000000000000", 0, 3, 1);
  ("01000000000000000000", 0, 2, 1);
  ("01000000000000000000", 0, 1, 1);
  ("00010000000000000000000000", 8, 32, 1);
  ("00010000000000000000000000", 8, 31, 1);
  ("00010000000000000000000000", 8, 30, 1);
  ("00010000000000000000000000", 8, 29, 1);
  ("00010000000000000000000000", 8, 28, 1);
  ("00010000000000000000000000", 8, 27, 1);
  ("00010000000000000000000000", 8, 26, 1);
  ("00010000000000000000000000", 8, 25, 1);
  ("00010000000000000000000000", 8, 24, 1);
  ("00010000000000000000000000", 8, 23, 1);
  ("00010000000000000000000000", 8, 22, 1);
  ("00010000000000000000000000", 8, 21, 1);
  ("00010000000000000000000000", 8, 20, 1);
  ("00010000000000000000000000", 8, 19, 1);
  ("00010000000000000000000000", 8, 18, 1);
  ("00010000000000000000000000", 8, 17, 1);
  ("00010000000000000000000000", 8, 16, 1);
  ("00010000000000000000000000", 8, 15, 1);
  ("00010000000000000000000000", 8, 14, 1);
  ("00010000000000000000000000", 8, 13, 1);
  ("00010000000000000000000000", 8, 12, 1);
  ("00010000000000000000000000", 8, 11, 1);
  ("00010000000000000000000000", 8, 10, 1);
  ("00010000000000000000000000", 8, 9, 1);
  ("00010000000000000000000000", 8, 8, 1);
  ("00010000000000000000000000", 8, 7, 1);
  ("00010000000000000000000000", 8, 6, 1);
  ("00010000000000000000000000", 8, 5, 1);
  ("00010000000000000000000000", 8, 4, 1);
  ("00010000000000000000000000", 8, 3, 1);
  ("00010000000000000000000000", 8, 2, 1);
  ("00010000000000000000000000", 8, 1, 1);
  ("80000000000000000000000000", 7, 32, 1);
  ("80000000000000000000000000", 7, 31, 1);
  ("80000000000000000000000000", 7, 30, 1);
  ("80000000000000000000000000", 7, 29, 1);
  ("80000000000000000000000000", 7, 28, 1);
  ("80000000000000000000000000", 7, 27, 1);
  ("80000000000000000000000000", 7, 26, 1);
  ("80000000000000000000000000", 7, 25, 1);
  ("80000000000000000000000000", 7, 24, 1);
  ("80000000000000000000000000", 7, 23, 1);
  ("80000000000000000000000000", 7, 22, 1);
  ("80000000000000000000000000", 7, 21, 1);
  ("80000000000000000000000000", 7, 20, 1);
  ("80000000000000000000000000", 7, 19, 1);
  ("80000000000000000000000000", 7, 18, 1);
  ("80000000000000000000000000", 7, 17, 1);
  ("80000000000000000000000000", 7, 16, 1);
  ("80000000000000000000000000", 7, 15, 1);
  ("80000000000000000000000000", 7, 14, 1);
  ("80000000000000000000000000", 7, 13, 1);
  ("80000000000000000000000000", 7, 12, 1);
  ("80000000000000000000000000", 7, 11, 1);
  ("80000000000000000000000000", 7, 10, 1);
  ("80000000000000000000000000", 7, 9, 1);
  ("80000000000000000000000000", 7, 8, 1);
  ("80000000000000000000000000", 7, 7, 1);
  ("80000000000000000000000000", 7, 6, 1);
  ("80000000000000000000000000", 7, 5, 1);
  ("80000000000000000000000000", 7, 4, 1);
  ("80000000000000000000000000", 7, 3, 1);
  ("80000000000000000000000000", 7, 2, 1);
  ("80000000000000000000000000", 7, 1, 1);
  ("40000000000000000000000000", 6, 32, 1);
  ("40000000000000000000000000", 6, 31, 1);
  ("40000000000000000000000000", 6, 30, 1);
  ("40000000000000000000000000", 6, 29, 1);
  ("40000000000000000000000000", 6, 28, 1);
  ("40000000000000000000000000", 6, 27, 1);
  ("40000000000000000000000000", 6, 26, 1);
  ("40000000000000000000000000", 6, 25, 1);
  ("40000000000000000000000000", 6, 24, 1);
  ("40000000000000000000000000", 6, 23, 1);
  ("40000000000000000000000000", 6, 22, 1);
  ("40000000000000000000000000", 6, 21, 1);
  ("40000000000000000000000000", 6, 20, 1);
  ("40000000000000000000000000", 6, 19, 1);
  ("40000000000000000000000000", 6, 18, 1);
  ("40000000000000000000000000", 6, 17, 1);
  ("40000000000000000000000000", 6, 16, 1);
  ("40000000000000000000000000", 6, 15, 1);
  ("40000000000000000000000000", 6, 14, 1);
  ("40000000000000000000000000", 6, 13, 1);
  ("40000000000000000000000000", 6, 12, 1);
  ("40000000000000000000000000", 6, 11, 1);
  ("40000000000000000000000000", 6, 10, 1);
  ("40000000000000000000000000", 6, 9, 1);
  ("40000000000000000000000000", 6, 8, 1);
  ("40000000000000000000000000", 6, 7, 1);
  ("40000000000000000000000000", 6, 6, 1);
  ("40000000000000000000000000", 6, 5, 1);
  ("40000000000000000000000000", 6, 4, 1);
  ("40000000000000000000000000", 6, 3, 1);
  ("40000000000000000000000000", 6, 2, 1);
  ("40000000000000000000000000", 6, 1, 1);
  ("20000000000000000000000000", 5, 32, 1);
  ("20000000000000000000000000", 5, 31, 1);
  ("20000000000000000000000000", 5, 30, 1);
  ("20000000000000000000000000", 5, 29, 1);
  ("20000000000000000000000000", 5, 28, 1);
  ("20000000000000000000000000", 5, 27, 1);
  ("20000000000000000000000000", 5, 26, 1);
  ("20000000000000000000000000", 5, 25, 1);
  ("20000000000000000000000000", 5, 24, 1);
  ("20000000000000000000000000", 5, 23, 1);
  ("20000000000000000000000000", 5, 22, 1);
  ("20000000000000000000000000", 5, 21, 1);
  ("20000000000000000000000000", 5, 20, 1);
  ("20000000000000000000000000", 5, 19, 1);
  ("20000000000000000000000000", 5, 18, 1);
  ("20000000000000000000000000", 5, 17, 1);
  ("20000000000000000000000000", 5, 16, 1);
  ("20000000000000000000000000", 5, 15, 1);
  ("20000000000000000000000000", 5, 14, 1);
  ("20000000000000000000000000", 5, 13, 1);
  ("20000000000000000000000000", 5, 12, 1);
  ("20000000000000000000000000", 5, 11, 1);
  ("20000000000000000000000000", 5, 10, 1);
  ("20000000000000000000000000", 5, 9, 1);
  ("20000000000000000000000000", 5, 8, 1);
  ("20000000000000000000000000", 5, 7, 1);
  ("20000000000000000000000000", 5, 6, 1);
  ("20000000000000000000000000", 5, 5, 1);
  ("20000000000000000000000000", 5, 4, 1);
  ("20000000000000000000000000", 5, 3, 1);
  ("20000000000000000000000000", 5, 2, 1);
  ("20000000000000000000000000", 5, 1, 1);
  ("10000000000000000000000000", 4, 32, 1);
  ("10000000000000000000000000", 4, 31, 1);
  ("10000000000000000000000000", 4, 30, 1);
  ("10000000000000000000000000", 4, 29, 1);
  ("10000000000000000000000000", 4, 28, 1);
  ("10000000000000000000000000", 4, 27, 1);
  ("10000000000000000000000000", 4, 26, 1);
  ("10000000000000000000000000", 4, 25, 1);
  ("10000000000000000000000000", 4, 24, 1);
  ("10000000000000000000000000", 4, 23, 1);
  ("10000000000000000000000000", 4, 22, 1);
  ("10000000000000000000000000", 4, 21, 1);
  ("10000000000000000000000000", 4, 20, 1);
  ("10000000000000000000000000", 4, 19, 1);
  ("10000000000000000000000000", 4, 18, 1);
  ("10000000000000000000000000", 4, 17, 1);
  ("10000000000000000000000000", 4, 16, 1);
  ("10000000000000000000000000", 4, 15, 1);
  ("10000000000000000000000000", 4, 14, 1);
  ("10000000000000000000000000", 4, 13, 1);
  ("10000000000000000000000000", 4, 12, 1);
  ("10000000000000000000000000", 4, 11, 1);
  ("10000000000000000000000000", 4, 10, 1);
  ("10000000000000000000000000", 4, 9, 1);
  ("10000000000000000000000000", 4, 8, 1);
  ("10000000000000000000000000", 4, 7, 1);
  ("10000000000000000000000000", 4, 6, 1);
  ("10000000000000000000000000", 4, 5, 1);
  ("10000000000000000000000000", 4, 4, 1);
  ("10000000000000000000000000", 4, 3, 1);
  ("10000000000000000000000000", 4, 2, 1);
  ("10000000000000000000000000", 4, 1, 1);
  ("08000000000000000000000000", 3, 32, 1);
  ("08000000000000000000000000", 3, 31, 1);
  ("08000000000000000000000000", 3, 30, 1);
  ("08000000000000000000000000", 3, 29, 1);
  ("08000000000000000000000000", 3, 28, 1);
  ("08000000000000000000000000", 3, 27, 1);
  ("08000000000000000000000000", 3, 26, 1);
  ("08000000000000000000000000", 3, 25, 1);
  ("08000000000000000000000000", 3, 24, 1);
  ("08000000000000000000000000", 3, 23, 1);
  ("08000000000000000000000000", 3, 22, 1);
  ("08000000000000000000000000", 3, 21, 1);
  ("08000000000000000000000000", 3, 20, 1);
  ("08000000000000000000000000", 3, 19, 1);
  ("08000000000000000000000000", 3, 18, 1);
  ("08000000000000000000000000", 3, 17, 1);
  ("08000000000000000000000000", 3, 16, 1);
  ("08000000000000000000000000", 3, 15, 1);
  ("08000000000000000000000000", 3, 14, 1);
  ("08000000000000000000000000", 3, 13, 1);
  ("08000000000000000000000000", 3, 12, 1);
  ("08000000000000000000000000", 3, 11, 1);
  ("08000000000000000000000000", 3, 10, 1);
  ("08000000000000000000000000", 3, 9, 1);
  ("08000000000000000000000000", 3, 8, 1);
  ("08000000000000000000000000", 3, 7, 1);
  ("08000000000000000000000000", 3, 6, 1);
  ("08000000000000000000000000", 3, 5, 1);
  ("08000000000000000000000000", 3, 4, 1);
  ("08000000000000000000000000", 3, 3, 1);
  ("08000000000000000000000000", 3, 2, 1);
  ("08000000000000000000000000", 3, 1, 1);
  ("04000000000000000000000000", 2, 32, 1);
  ("04000000000000000000000000", 2, 31, 1);
  ("04000000000000000000000000", 2, 30, 1);
  ("04000000000000000000000000", 2, 29, 1);
  ("04000000000000000000000000", 2, 28, 1);
  ("04000000000000000000000000", 2, 27, 1);
  ("04000000000000000000000000", 2, 26, 1);
  ("04000000000000000000000000", 2, 25, 1);
  ("04000000000000000000000000", 2, 24, 1);
  ("04000000000000000000000000", 2, 23, 1);
  ("04000000000000000000000000", 2, 22, 1);
  ("04000000000000000000000000", 2, 21, 1);
  ("04000000000000000000000000", 2, 20, 1);
  ("04000000000000000000000000", 2, 19, 1);
  ("04000000000000000000000000", 2, 18, 1);
  ("04000000000000000000000000", 2, 17, 1);
  ("04000000000000000000000000", 2, 16, 1);
  ("04000000000000000000000000", 2, 15, 1);
  ("04000000000000000000000000", 2, 14, 1);
  ("04000000000000000000000000", 2, 13, 1);
  ("04000000000000000000000000", 2, 12, 1);
  ("04000000000000000000000000", 2, 11, 1);
  ("04000000000000000000000000", 2, 10, 1);
  ("04000000000000000000000000", 2, 9, 1);
  ("04000000000000000000000000", 2, 8, 1);
  ("04000000000000000000000000", 2, 7, 1);
  ("04000000000000000000000000", 2, 6, 1);
  ("04000000000000000000000000", 2, 5, 1);
  ("04000000000000000000000000", 2, 4, 1);
  ("04000000000000000000000000", 2, 3, 1);
  ("04000000000000000000000000", 2, 2, 1);
  ("04000000000000000000000000", 2, 1, 1);
  ("02000000000000000000000000", 1, 32, 1);
  ("02000000000000000000000000", 1, 31, 1);
  ("02000000000000000000000000", 1, 30, 1);
  ("02000000000000000000000000", 1, 29, 1);
  ("02000000000000000000000000", 1, 28, 1);
  ("02000000000000000000000000", 1, 27, 1);
  ("02000000000000000000000000", 1, 26, 1);
  ("02000000000000000000000000", 1, 25, 1);
  ("02000000000000000000000000", 1, 24, 1);
  ("02000000000000000000000000", 1, 23, 1);
  ("02000000000000000000000000", 1, 22, 1);
  ("02000000000000000000000000", 1, 21, 1);
  ("02000000000000000000000000", 1, 20, 1);
  ("02000000000000000000000000", 1, 19, 1);
  ("02000000000000000000000000", 1, 18, 1);
  ("02000000000000000000000000", 1, 17, 1);
  ("02000000000000000000000000", 1, 16, 1);
  ("02000000000000000000000000", 1, 15, 1);
  ("02000000000000000000000000", 1, 14, 1);
  ("02000000000000000000000000", 1, 13, 1);
  ("02000000000000000000000000", 1, 12, 1);
  ("02000000000000000000000000", 1, 11, 1);
  ("02000000000000000000000000", 1, 10, 1);
  ("02000000000000000000000000", 1, 9, 1);
  ("02000000000000000000000000", 1, 8, 1);
  ("02000000000000000000000000", 1, 7, 1);
  ("02000000000000000000000000", 1, 6, 1);
  ("02000000000000000000000000", 1, 5, 1);
  ("02000000000000000000000000", 1, 4, 1);
  ("02000000000000000000000000", 1, 3, 1);
  ("02000000000000000000000000", 1, 2, 1);
  ("02000000000000000000000000", 1, 1, 1);
  ("010000000000000000000000", 0, 32, 1);
  ("010000000000000000000000", 0, 31, 1);
  ("010000000000000000000000", 0, 30, 1);
  ("010000000000000000000000", 0, 29, 1);
  ("010000000000000000000000", 0, 28, 1);
  ("010000000000000000000000", 0, 27, 1);
  ("010000000000000000000000", 0, 26, 1);
  ("010000000000000000000000", 0, 25, 1);
  ("010000000000000000000000", 0, 24, 1);
  ("010000000000000000000000", 0, 23, 1);
  ("010000000000000000000000", 0, 22, 1);
  ("010000000000000000000000", 0, 21, 1);
  ("010000000000000000000000", 0, 20, 1);
  ("010000000000000000000000", 0, 19, 1);
  ("010000000000000000000000", 0, 18, 1);
  ("010000000000000000000000", 0, 17, 1);
  ("010000000000000000000000", 0, 16, 1);
  ("010000000000000000000000", 0, 15, 1);
  ("010000000000000000000000", 0, 14, 1);
  ("010000000000000000000000", 0, 13, 1);
  ("010000000000000000000000", 0, 12, 1);
  ("010000000000000000000000", 0, 11, 1);
  ("010000000000000000000000", 0, 10, 1);
  ("010000000000000000000000", 0, 9, 1);
  ("010000000000000000000000", 0, 8, 1);
  ("010000000000000000000000", 0, 7, 1);
  ("010000000000000000000000", 0, 6, 1);
  ("010000000000000000000000", 0, 5, 1);
  ("010000000000000000000000", 0, 4, 1);
  ("010000000000000000000000", 0, 3, 1);
  ("010000000000000000000000", 0, 2, 1);
  ("010000000000000000000000", 0, 1, 1);
  ("0001000000000000000000000000000000", 8, 64, 1);
  ("0001000000000000000000000000000000", 8, 63, 1);
  ("0001000000000000000000000000000000", 8, 62, 1);
  ("0001000000000000000000000000000000", 8, 61, 1);
  ("0001000000000000000000000000000000", 8, 60, 1);
  ("0001000000000000000000000000000000", 8, 59, 1);
  ("0001000000000000000000000000000000", 8, 58, 1);
  ("0001000000000000000000000000000000", 8, 57, 1);
  ("0001000000000000000000000000000000", 8, 56, 1);
  ("0001000000000000000000000000000000", 8, 55, 1);
  ("0001000000000000000000000000000000", 8, 54, 1);
  ("0001000000000000000000000000000000", 8, 53, 1);
  ("0001000000000000000000000000000000", 8, 52, 1);
  ("0001000000000000000000000000000000", 8, 51, 1);
  ("0001000000000000000000000000000000", 8, 50, 1);
  ("0001000000000000000000000000000000", 8, 49, 1);
  ("0001000000000000000000000000000000", 8, 48, 1);
  ("0001000000000000000000000000000000", 8, 47, 1);
  ("0001000000000000000000000000000000", 8, 46, 1);
  ("0001000000000000000000000000000000", 8, 45, 1);
  ("0001000000000000000000000000000000", 8, 44, 1);
  ("0001000000000000000000000000000000", 8, 43, 1);
  ("0001000000000000000000000000000000", 8, 42, 1);
  ("0001000000000000000000000000000000", 8, 41, 1);
  ("0001000000000000000000000000000000", 8, 40, 1);
  ("0001000000000000000000000000000000", 8, 39, 1);
  ("0001000000000000000000000000000000", 8, 38, 1);
  ("0001000000000000000000000000000000", 8, 37, 1);
  ("0001000000000000000000000000000000", 8, 36, 1);
  ("0001000000000000000000000000000000", 8, 35, 1);
  ("0001000000000000000000000000000000", 8, 34, 1);
  ("0001000000000000000000000000000000", 8, 33, 1);
  ("0001000000000000000000000000000000", 8, 32, 1);
  ("0001000000000000000000000000000000", 8, 31, 1);
  ("0001000000000000000000000000000000", 8, 30, 1);
  ("0001000000000000000000000000000000", 8, 29, 1);
  ("0001000000000000000000000000000000", 8, 28, 1);
  ("0001000000000000000000000000000000", 8, 27, 1);
  ("0001000000000000000000000000000000", 8, 26, 1);
  ("0001000000000000000000000000000000", 8, 25, 1);
  ("0001000000000000000000000000000000", 8, 24, 1);
  ("0001000000000000000000000000000000", 8, 23, 1);
  ("0001000000000000000000000000000000", 8, 22, 1);
  ("0001000000000000000000000000000000", 8, 21, 1);
  ("0001000000000000000000000000000000", 8, 20, 1);
  ("0001000000000000000000000000000000", 8, 19, 1);
  ("0001000000000000000000000000000000", 8, 18, 1);
  ("0001000000000000000000000000000000", 8, 17, 1);
  ("0001000000000000000000000000000000", 8, 16, 1);
  ("0001000000000000000000000000000000", 8, 15, 1);
  ("0001000000000000000000000000000000", 8, 14, 1);
  ("0001000000000000000000000000000000", 8, 13, 1);
  ("0001000000000000000000000000000000", 8, 12, 1);
  ("0001000000000000000000000000000000", 8, 11, 1);
  ("0001000000000000000000000000000000", 8, 10, 1);
  ("0001000000000000000000000000000000", 8, 9, 1);
  ("0001000000000000000000000000000000", 8, 8, 1);
  ("0001000000000000000000000000000000", 8, 7, 1);
  ("0001000000000000000000000000000000", 8, 6, 1);
  ("0001000000000000000000000000000000", 8, 5, 1);
  ("0001000000000000000000000000000000", 8, 4, 1);
  ("0001000000000000000000000000000000", 8, 3, 1);
  ("0001000000000000000000000000000000", 8, 2, 1);
  ("0001000000000000000000000000000000", 8, 1, 1);
  ("8000000000000000000000000000000000", 7, 64, 1);
  ("8000000000000000000000000000000000", 7, 63, 1);
  ("8000000000000000000000000000000000", 7, 62, 1);
  ("8000000000000000000000000000000000", 7, 61, 1);
  ("8000000000000000000000000000000000", 7, 60, 1);
  ("8000000000000000000000000000000000", 7, 59, 1);
  ("8000000000000000000000000000000000", 7, 58, 1);
  ("8000000000000000000000000000000000", 7, 57, 1);
  ("8000000000000000000000000000000000", 7, 56, 1);
  ("8000000000000000000000000000000000", 7, 55, 1);
  ("8000000000000000000000000000000000", 7, 54, 1);
  ("8000000000000000000000000000000000", 7, 53, 1);
  ("8000000000000000000000000000000000", 7, 52, 1);
  ("8000000000000000000000000000000000", 7, 51, 1);
  ("8000000000000000000000000000000000", 7, 50, 1);
  ("8000000000000000000000000000000000", 7, 49, 1);
  ("8000000000000000000000000000000000", 7, 48, 1);
  ("8000000000000000000000000000000000", 7, 47, 1);
  ("8000000000000000000000000000000000", 7, 46, 1);
  ("8000000000000000000000000000000000", 7, 45, 1);
  ("8000000000000000000000000000000000", 7, 44, 1);
  ("8000000000000000000000000000000000", 7, 43, 1);
  ("8000000000000000000000000000000000", 7, 42, 1);
  ("8000000000000000000000000000000000", 7, 41, 1);
  ("8000000000000000000000000000000000", 7, 40, 1);
  ("8000000000000000000000000000000000", 7, 39, 1);
  ("8000000000000000000000000000000000", 7, 38, 1);
  ("8000000000000000000000000000000000", 7, 37, 1);
  ("8000000000000000000000000000000000", 7, 36, 1);
  ("8000000000000000000000000000000000", 7, 35, 1);
  ("8000000000000000000000000000000000", 7, 34, 1);
  ("8000000000000000000000000000000000", 7, 33, 1);
  ("8000000000000000000000000000000000", 7, 32, 1);
  ("8000000000000000000000000000000000", 7, 31, 1);
  ("8000000000000000000000000000000000", 7, 30, 1);
  ("8000000000000000000000000000000000", 7, 29, 1);
  ("8000000000000000000000000000000000", 7, 28, 1);
  ("8000000000000000000000000000000000", 7, 27, 1);
  ("8000000000000000000000000000000000", 7, 26, 1);
  ("8000000000000000000000000000000000", 7, 25, 1);
  ("8000000000000000000000000000000000", 7, 24, 1);
  ("8000000000000000000000000000000000", 7, 23, 1);
  ("8000000000000000000000000000000000", 7, 22, 1);
  ("8000000000000000000000000000000000", 7, 21, 1);
  ("8000000000000000000000000000000000", 7, 20, 1);
  ("8000000000000000000000000000000000", 7, 19, 1);
  ("8000000000000000000000000000000000", 7, 18, 1);
  ("8000000000000000000000000000000000", 7, 17, 1);
  ("8000000000000000000000000000000000", 7, 16, 1);
  ("8000000000000000000000000000000000", 7, 15, 1);
  ("8000000000000000000000000000000000", 7, 14, 1);
  ("8000000000000000000000000000000000", 7, 13, 1);
  ("8000000000000000000000000000000000", 7, 12, 1);
  ("8000000000000000000000000000000000", 7, 11, 1);
  ("8000000000000000000000000000000000", 7, 10, 1);
  ("8000000000000000000000000000000000", 7, 9, 1);
  ("8000000000000000000000000000000000", 7, 8, 1);
  ("8000000000000000000000000000000000", 7, 7, 1);
  ("8000000000000000000000000000000000", 7, 6, 1);
  ("8000000000000000000000000000000000", 7, 5, 1);
  ("8000000000000000000000000000000000", 7, 4, 1);
  ("8000000000000000000000000000000000", 7, 3, 1);
  ("8000000000000000000000000000000000", 7, 2, 1);
  ("8000000000000000000000000000000000", 7, 1, 1);
  ("4000000000000000000000000000000000", 6, 64, 1);
  ("4000000000000000000000000000000000", 6, 63, 1);
  ("4000000000000000000000000000000000", 6, 62, 1);
  ("4000000000000000000000000000000000", 6, 61, 1);
  ("4000000000000000000000000000000000", 6, 60, 1);
  ("4000000000000000000000000000000000", 6, 59, 1);
  ("4000000000000000000000000000000000", 6, 58, 1);
  ("4000000000000000000000000000000000", 6, 57, 1);
  ("4000000000000000000000000000000000", 6, 56, 1);
  ("4000000000000000000000000000000000", 6, 55, 1);
  ("4000000000000000000000000000000000", 6, 54, 1);
  ("4000000000000000000000000000000000", 6, 53, 1);
  ("4000000000000000000000000000000000", 6, 52, 1);
  ("4000000000000000000000000000000000", 6, 51, 1);
  ("4000000000000000000000000000000000", 6, 50, 1);
  ("4000000000000000000000000000000000", 6, 49, 1);
  ("4000000000000000000000000000000000", 6, 48, 1);
  ("4000000000000000000000000000000000", 6, 47, 1);
  ("4000000000000000000000000000000000", 6, 46, 1);
  ("4000000000000000000000000000000000", 6, 45, 1);
  ("4000000000000000000000000000000000", 6, 44, 1);
  ("4000000000000000000000000000000000", 6, 43, 1);
  ("4000000000000000000000000000000000", 6, 42, 1);
  ("4000000000000000000000000000000000", 6, 41, 1);
  ("4000000000000000000000000000000000", 6, 40, 1);
  ("4000000000000000000000000000000000", 6, 39, 1);
  ("4000000000000000000000000000000000", 6, 38, 1);
  ("4000000000000000000000000000000000", 6, 37, 1);
  ("4000000000000000000000000000000000", 6, 36, 1);
  ("4000000000000000000000000000000000", 6, 35, 1);
  ("4000000000000000000000000000000000", 6, 34, 1);
  ("4000000000000000000000000000000000", 6, 33, 1);
  ("4000000000000000000000000000000000", 6, 32, 1);
  ("4000000000000000000000000000000000", 6, 31, 1);
  ("4000000000000000000000000000000000", 6, 30, 1);
  ("4000000000000000000000000000000000", 6, 29, 1);
  ("4000000000000000000000000000000000", 6, 28, 1);
  ("4000000000000000000000000000000000", 6, 27, 1);
  ("4000000000000000000000000000000000", 6, 26, 1);
  ("4000000000000000000000000000000000", 6, 25, 1);
  ("4000000000000000000000000000000000", 6, 24, 1);
  ("4000000000000000000000000000000000", 6, 23, 1);
  ("4000000000000000000000000000000000", 6, 22, 1);
  ("4000000000000000000000000000000000", 6, 21, 1);
  ("4000000000000000000000000000000000", 6, 20, 1);
  ("4000000000000000000000000000000000", 6, 19, 1);
  ("4000000000000000000000000000000000", 6, 18, 1);
  ("4000000000000000000000000000000000", 6, 17, 1);
  ("4000000000000000000000000000000000", 6, 16, 1);
  ("4000000000000000000000000000000000", 6, 15, 1);
  ("4000000000000000000000000000000000", 6, 14, 1);
  ("4000000000000000000000000000000000", 6, 13, 1);
  ("4000000000000000000000000000000000", 6, 12, 1);
  ("4000000000000000000000000000000000", 6, 11, 1);
  ("4000000000000000000000000000000000", 6, 10, 1);
  ("4000000000000000000000000000000000", 6, 9, 1);
  ("4000000000000000000000000000000000", 6, 8, 1);
  ("4000000000000000000000000000000000", 6, 7, 1);
  ("4000000000000000000000000000000000", 6, 6, 1);
  ("4000000000000000000000000000000000", 6, 5, 1);
  ("4000000000000000000000000000000000", 6, 4, 1);
  ("4000000000000000000000000000000000", 6, 3, 1);
  ("4000000000000000000000000000000000", 6, 2, 1);
  ("4000000000000000000000000000000000", 6, 1, 1);
  ("2000000000000000000000000000000000", 5, 64, 1);
  ("2000000000000000000000000000000000", 5, 63, 1);
  ("2000000000000000000000000000000000", 5, 62, 1);
  ("2000000000000000000000000000000000", 5, 61, 1);
  ("2000000000000000000000000000000000", 5, 60, 1);
  ("2000000000000000000000000000000000", 5, 59, 1);
  ("2000000000000000000000000000000000", 5, 58, 1);
  ("2000000000000000000000000000000000", 5, 57, 1);
  ("2000000000000000000000000000000000", 5, 56, 1);
  ("2000000000000000000000000000000000", 5, 55, 1);
  ("2000000000000000000000000000000000", 5, 54, 1);
  ("2000000000000000000000000000000000", 5, 53, 1);
  ("2000000000000000000000000000000000", 5, 52, 1);
  ("2000000000000000000000000000000000", 5, 51, 1);
  ("2000000000000000000000000000000000", 5, 50, 1);
  ("2000000000000000000000000000000000", 5, 49, 1);
  ("2000000000000000000000000000000000", 5, 48, 1);
  ("2000000000000000000000000000000000", 5, 47, 1);
  ("2000000000000000000000000000000000", 5, 46, 1);
  ("2000000000000000000000000000000000", 5, 45, 1);
  ("2000000000000000000000000000000000", 5, 44, 1);
  ("2000000000000000000000000000000000", 5, 43, 1);
  ("2000000000000000000000000000000000", 5, 42, 1);
  ("2000000000000000000000000000000000", 5, 41, 1);
  ("2000000000000000000000000000000000", 5, 40, 1);
  ("2000000000000000000000000000000000", 5, 39, 1);
  ("2000000000000000000000000000000000", 5, 38, 1);
  ("2000000000000000000000000000000000", 5, 37, 1);
  ("2000000000000000000000000000000000", 5, 36, 1);
  ("2000000000000000000000000000000000", 5, 35, 1);
  ("2000000000000000000000000000000000", 5, 34, 1);
  ("2000000000000000000000000000000000", 5, 33, 1);
  ("2000000000000000000000000000000000", 5, 32, 1);
  ("2000000000000000000000000000000000", 5, 31, 1);
  ("2000000000000000000000000000000000", 5, 30, 1);
  ("2000000000000000000000000000000000", 5, 29, 1);
  ("2000000000000000000000000000000000", 5, 28, 1);
  ("2000000000000000000000000000000000", 5, 27, 1);
  ("2000000000000000000000000000000000", 5, 26, 1);
  ("2000000000000000000000000000000000", 5, 25, 1);
  ("2000000000000000000000000000000000", 5, 24, 1);
  ("2000000000000000000000000000000000", 5, 23, 1);
  ("2000000000000000000000000000000000", 5, 22, 1);
  ("2000000000000000000000000000000000", 5, 21, 1);
  ("2000000000000000000000000000000000", 5, 20, 1);
  ("2000000000000000000000000000000000", 5, 19, 1);
  ("2000000000000000000000000000000000", 5, 18, 1);
  ("2000000000000000000000000000000000", 5, 17, 1);
  ("2000000000000000000000000000000000", 5, 16, 1);
  ("2000000000000000000000000000000000", 5, 15, 1);
  ("2000000000000000000000000000000000", 5, 14, 1);
  ("2000000000000000000000000000000000", 5, 13, 1);
  ("2000000000000000000000000000000000", 5, 12, 1);
  ("2000000000000000000000000000000000", 5, 11, 1);
  ("2000000000000000000000000000000000", 5, 10, 1);
  ("2000000000000000000000000000000000", 5, 9, 1);
  ("2000000000000000000000000000000000", 5, 8, 1);
  ("2000000000000000000000000000000000", 5, 7, 1);
  ("2000000000000000000000000000000000", 5, 6, 1);
  ("2000000000000000000000000000000000", 5, 5, 1);
  ("2000000000000000000000000000000000", 5, 4, 1);
  ("2000000000000000000000000000000000", 5, 3, 1);
  ("2000000000000000000000000000000000", 5, 2, 1);
  ("2000000000000000000000000000000000", 5, 1, 1);
  ("1000000000000000000000000000000000", 4, 64, 1);
  ("1000000000000000000000000000000000", 4, 63, 1);
  ("1000000000000000000000000000000000", 4, 62, 1);
  ("1000000000000000000000000000000000", 4, 61, 1);
  ("1000000000000000000000000000000000", 4, 60, 1);
  ("1000000000000000000000000000000000", 4, 59, 1);
  ("1000000000000000000000000000000000", 4, 58, 1);
  ("1000000000000000000000000000000000", 4, 57, 1);
  ("1000000000000000000000000000000000", 4, 56, 1);
  ("1000000000000000000000000000000000", 4, 55, 1);
  ("1000000000000000000000000000000000", 4, 54, 1);
  ("1000000000000000000000000000000000", 4, 53, 1);
  ("1000000000000000000000000000000000", 4, 52, 1);
  ("1000000000000000000000000000000000", 4, 51, 1);
  ("1000000000000000000000000000000000", 4, 50, 1);
  ("1000000000000000000000000000000000", 4, 49, 1);
  ("1000000000000000000000000000000000", 4, 48, 1);
  ("1000000000000000000000000000000000", 4, 47, 1);
  ("1000000000000000000000000000000000", 4, 46, 1);
  ("1000000000000000000000000000000000", 4, 45, 1);
  ("1000000000000000000000000000000000", 4, 44, 1);
  ("1000000000000000000000000000000000", 4, 43, 1);
  ("1000000000000000000000000000000000", 4, 42, 1);
  ("1000000000000000000000000000000000", 4, 41, 1);
  ("1000000000000000000000000000000000", 4, 40, 1);
  ("1000000000000000000000000000000000", 4, 39, 1);
  ("1000000000000000000000000000000000", 4, 38, 1);
  ("1000000000000000000000000000000000", 4, 37, 1);
  ("1000000000000000000000000000000000", 4, 36, 1);
  ("1000000000000000000000000000000000", 4, 35, 1);
  ("1000000000000000000000000000000000", 4, 34, 1);
  ("1000000000000000000000000000000000", 4, 33, 1);
  ("1000000000000000000000000000000000", 4, 32, 1);
  ("1000000000000000000000000000000000", 4, 31, 1);
  ("1000000000000000000000000000000000", 4, 30, 1);
  ("1000000000000000000000000000000000", 4, 29, 1);
  ("1000000000000000000000000000000000", 4, 28, 1);
  ("1000000000000000000000000000000000", 4, 27, 1);
  ("1000000000000000000000000000000000", 4, 26, 1);
  ("1000000000000000000000000000000000", 4, 25, 1);
  ("1000000000000000000000000000000000", 4, 24, 1);
  ("1000000000000000000000000000000000", 4, 23, 1);
  ("1000000000000000000000000000000000", 4, 22, 1);
  ("1000000000000000000000000000000000", 4, 21, 1);
  ("1000000000000000000000000000000000", 4, 20, 1);
  ("1000000000000000000000000000000000", 4, 19, 1);
  ("1000000000000000000000000000000000", 4, 18, 1);
  ("1000000000000000000000000000000000", 4, 17, 1);
  ("1000000000000000000000000000000000", 4, 16, 1);
  ("1000000000000000000000000000000000", 4, 15, 1);
  ("1000000000000000000000000000000000", 4, 14, 1);
  ("1000000000000000000000000000000000", 4, 13, 1);
  ("1000000000000000000000000000000000", 4, 12, 1);
  ("1000000000000000000000000000000000", 4, 11, 1);
  ("1000000000000000000000000000000000", 4, 10, 1);
  ("1000000000000000000000000000000000", 4, 9, 1);
  ("1000000000000000000000000000000000", 4, 8, 1);
  ("1000000000000000000000000000000000", 4, 7, 1);
  ("1000000000000000000000000000000000", 4, 6, 1);
  ("1000000000000000000000000000000000", 4, 5, 1);
  ("1000000000000000000000000000000000", 4, 4, 1);
  ("1000000000000000000000000000000000", 4, 3, 1);
  ("1000000000000000000000000000000000", 4, 2, 1);
  ("1000000000000000000000000000000000", 4, 1, 1);
  ("0800000000000000000000000000000000", 3, 64, 1);
  ("0800000000000000000000000000000000", 3, 63, 1);
  ("0800000000000000000000000000000000", 3, 62, 1);
  ("0800000000000000000000000000000000", 3, 61, 1);
  ("0800000000000000000000000000000000", 3, 60, 1);
  ("0800000000000000000000000000000000", 3, 59, 1);
  ("0800000000000000000000000000000000", 3, 58, 1);
  ("0800000000000000000000000000000000", 3, 57, 1);
  ("0800000000000000000000000000000000", 3, 56, 1);
  ("0800000000000000000000000000000000", 3, 55, 1);
  ("0800000000000000000000000000000000", 3, 54, 1);
  ("0800000000000000000000000000000000", 3, 53, 1);
  ("0800000000000000000000000000000000", 3, 52, 1);
  ("0800000000000000000000000000000000", 3, 51, 1);
  ("0800000000000000000000000000000000", 3, 50, 1);
  ("0800000000000000000000000000000000", 3, 49, 1);
  ("0800000000000000000000000000000000", 3, 48, 1);
  ("0800000000000000000000000000000000", 3, 47, 1);
  ("0800000000000000000000000000000000", 3, 46, 1);
  ("0800000000000000000000000000000000", 3, 45, 1);
  ("0800000000000000000000000000000000", 3, 44, 1);
  ("0800000000000000000000000000000000", 3, 43, 1);
  ("0800000000000000000000000000000000", 3, 42, 1);
  ("0800000000000000000000000000000000", 3, 41, 1);
  ("0800000000000000000000000000000000", 3, 40, 1);
  ("0800000000000000000000000000000000", 3, 39, 1);
  ("0800000000000000000000000000000000", 3, 38, 1);
  ("0800000000000000000000000000000000", 3, 37, 1);
  ("0800000000000000000000000000000000", 3, 36, 1);
  ("0800000000000000000000000000000000", 3, 35, 1);
  ("0800000000000000000000000000000000", 3, 34, 1);
  ("0800000000000000000000000000000000", 3, 33, 1);
  ("0800000000000000000000000000000000", 3, 32, 1);
  ("0800000000000000000000000000000000", 3, 31, 1);
  ("0800000000000000000000000000000000", 3, 30, 1);
  ("0800000000000000000000000000000000", 3, 29, 1);
  ("0800000000000000000000000000000000", 3, 28, 1);
  ("0800000000000000000000000000000000", 3, 27, 1);
  ("0800000000000000000000000000000000", 3, 26, 1);
  ("0800000000000000000000000000000000", 3, 25, 1);
  ("0800000000000000000000000000000000", 3, 24, 1);
  ("0800000000000000000000000000000000", 3, 23, 1);
  ("0800000000000000000000000000000000", 3, 22, 1);
  ("0800000000000000000000000000000000", 3, 21, 1);
  ("0800000000000000000000000000000000", 3, 20, 1);
  ("0800000000000000000000000000000000", 3, 19, 1);
  ("0800000000000000000000000000000000", 3, 18, 1);
  ("0800000000000000000000000000000000", 3, 17, 1);
  ("0800000000000000000000000000000000", 3, 16, 1);
  ("0800000000000000000000000000000000", 3, 15, 1);
  ("0800000000000000000000000000000000", 3, 14, 1);
  ("0800000000000000000000000000000000", 3, 13, 1);
  ("0800000000000000000000000000000000", 3, 12, 1);
  ("0800000000000000000000000000000000", 3, 11, 1);
  ("0800000000000000000000000000000000", 3, 10, 1);
  ("0800000000000000000000000000000000", 3, 9, 1);
  ("0800000000000000000000000000000000", 3, 8, 1);
  ("0800000000000000000000000000000000", 3, 7, 1);
  ("0800000000000000000000000000000000", 3, 6, 1);
  ("0800000000000000000000000000000000", 3, 5, 1);
  ("0800000000000000000000000000000000", 3, 4, 1);
  ("0800000000000000000000000000000000", 3, 3, 1);
  ("0800000000000000000000000000000000", 3, 2, 1);
  ("0800000000000000000000000000000000", 3, 1, 1);
  ("0400000000000000000000000000000000", 2, 64, 1);
  ("0400000000000000000000000000000000", 2, 63, 1);
  ("0400000000000000000000000000000000", 2, 62, 1);
  ("0400000000000000000000000000000000", 2, 61, 1);
  ("0400000000000000000000000000000000", 2, 60, 1);
  ("0400000000000000000000000000000000", 2, 59, 1);
  ("0400000000000000000000000000000000", 2, 58, 1);
  ("0400000000000000000000000000000000", 2, 57, 1);
  ("0400000000000000000000000000000000", 2, 56, 1);
  ("0400000000000000000000000000000000", 2, 55, 1);
  ("0400000000000000000000000000000000", 2, 54, 1);
  ("0400000000000000000000000000000000", 2, 53, 1);
  ("0400000000000000000000000000000000", 2, 52, 1);
  ("0400000000000000000000000000000000", 2, 51, 1);
  ("0400000000000000000000000000000000", 2, 50, 1);
  ("0400000000000000000000000000000000", 2, 49, 1);
  ("0400000000000000000000000000000000", 2, 48, 1);
  ("0400000000000000000000000000000000", 2, 47, 1);
  ("0400000000000000000000000000000000", 2, 46, 1);
  ("0400000000000000000000000000000000", 2, 45, 1);
  ("0400000000000000000000000000000000", 2, 44, 1);
  ("0400000000000000000000000000000000", 2, 43, 1);
  ("0400000000000000000000000000000000", 2, 42, 1);
  ("0400000000000000000000000000000000", 2, 41, 1);
  ("0400000000000000000000000000000000", 2, 40, 1);
  ("0400000000000000000000000000000000", 2, 39, 1);
  ("0400000000000000000000000000000000", 2, 38, 1);
  ("0400000000000000000000000000000000", 2, 37, 1);
  ("0400000000000000000000000000000000", 2, 36, 1);
  ("0400000000000000000000000000000000", 2, 35, 1);
  ("0400000000000000000000000000000000", 2, 34, 1);
  ("0400000000000000000000000000000000", 2, 33, 1);
  ("0400000000000000000000000000000000", 2, 32, 1);
  ("0400000000000000000000000000000000", 2, 31, 1);
  ("0400000000000000000000000000000000", 2, 30, 1);
  ("0400000000000000000000000000000000", 2, 29, 1);
  ("0400000000000000000000000000000000", 2, 28, 1);
  ("0400000000000000000000000000000000", 2, 27, 1);
  ("0400000000000000000000000000000000", 2, 26, 1);
  ("0400000000000000000000000000000000", 2, 25, 1);
  ("0400000000000000000000000000000000", 2, 24, 1);
  ("0400000000000000000000000000000000", 2, 23, 1);
  ("0400000000000000000000000000000000", 2, 22, 1);
  ("0400000000000000000000000000000000", 2, 21, 1);
  ("0400000000000000000000000000000000", 2, 20, 1);
  ("0400000000000000000000000000000000", 2, 19, 1);
  ("0400000000000000000000000000000000", 2, 18, 1);
  ("0400000000000000000000000000000000", 2, 17, 1);
  ("0400000000000000000000000000000000", 2, 16, 1);
  ("0400000000000000000000000000000000", 2, 15, 1);
  ("0400000000000000000000000000000000", 2, 14, 1);
  ("0400000000000000000000000000000000", 2, 13, 1);
  ("0400000000000000000000000000000000", 2, 12, 1);
  ("0400000000000000000000000000000000", 2, 11, 1);
  ("0400000000000000000000000000000000", 2, 10, 1);
  ("0400000000000000000000000000000000", 2, 9, 1);
  ("0400000000000000000000000000000000", 2, 8, 1);
  ("0400000000000000000000000000000000", 2, 7, 1);
  ("0400000000000000000000000000000000", 2, 6, 1);
  ("0400000000000000000000000000000000", 2, 5, 1);
  ("0400000000000000000000000000000000", 2, 4, 1);
  ("0400000000000000000000000000000000", 2, 3, 1);
  ("0400000000000000000000000000000000", 2, 2, 1);
  ("0400000000000000000000000000000000", 2, 1, 1);
  ("0200000000000000000000000000000000", 1, 64, 1);
  ("0200000000000000000000000000000000", 1, 63, 1);
  ("0200000000000000000000000000000000", 1, 62, 1);
  ("0200000000000000000000000000000000", 1, 61, 1);
  ("0200000000000000000000000000000000", 1, 60, 1);
  ("0200000000000000000000000000000000", 1, 59, 1);
  ("0200000000000000000000000000000000", 1, 58, 1);
  ("0200000000000000000000000000000000", 1, 57, 1);
  ("0200000000000000000000000000000000", 1, 56, 1);
  ("0200000000000000000000000000000000", 1, 55, 1);
  ("0200000000000000000000000000000000", 1, 54, 1);
  ("0200000000000000000000000000000000", 1, 53, 1);
  ("0200000000000000000000000000000000", 1, 52, 1);
  ("0200000000000000000000000000000000", 1, 51, 1);
  ("0200000000000000000000000000000000", 1, 50, 1);
  ("0200000000000000000000000000000000", 1, 49, 1);
  ("0200000000000000000000000000000000", 1, 48, 1);
  ("0200000000000000000000000000000000", 1, 47, 1);
  ("0200000000000000000000000000000000", 1, 46, 1);
  ("0200000000000000000000000000000000", 1, 45, 1);
  ("0200000000000000000000000000000000", 1, 44, 1);
  ("0200000000000000000000000000000000", 1, 43, 1);
  ("0200000000000000000000000000000000", 1, 42, 1);
  ("0200000000000000000000000000000000", 1, 41, 1);
  ("0200000000000000000000000000000000", 1, 40, 1);
  ("0200000000000000000000000000000000", 1, 39, 1);
  ("0200000000000000000000000000000000", 1, 38, 1);
  ("0200000000000000000000000000000000", 1, 37, 1);
  ("0200000000000000000000000000000000", 1, 36, 1);
  ("0200000000000000000000000000000000", 1, 35, 1);
  ("0200000000000000000000000000000000", 1, 34, 1);
  ("0200000000000000000000000000000000", 1, 33, 1);
  ("0200000000000000000000000000000000", 1, 32, 1);
  ("0200000000000000000000000000000000", 1, 31, 1);
  ("0200000000000000000000000000000000", 1, 30, 1);
  ("0200000000000000000000000000000000", 1, 29, 1);
  ("0200000000000000000000000000000000", 1, 28, 1);
  ("0200000000000000000000000000000000", 1, 27, 1);
  ("0200000000000000000000000000000000", 1, 26, 1);
  ("0200000000000000000000000000000000", 1, 25, 1);
  ("0200000000000000000000000000000000", 1, 24, 1);
  ("0200000000000000000000000000000000", 1, 23, 1);
  ("0200000000000000000000000000000000", 1, 22, 1);
  ("0200000000000000000000000000000000", 1, 21, 1);
  ("0200000000000000000000000000000000", 1, 20, 1);
  ("0200000000000000000000000000000000", 1, 19, 1);
  ("0200000000000000000000000000000000", 1, 18, 1);
  ("0200000000000000000000000000000000", 1, 17, 1);
  ("0200000000000000000000000000000000", 1, 16, 1);
  ("0200000000000000000000000000000000", 1, 15, 1);
  ("0200000000000000000000000000000000", 1, 14, 1);
  ("0200000000000000000000000000000000", 1, 13, 1);
  ("0200000000000000000000000000000000", 1, 12, 1);
  ("0200000000000000000000000000000000", 1, 11, 1);
  ("0200000000000000000000000000000000", 1, 10, 1);
  ("0200000000000000000000000000000000", 1, 9, 1);
  ("0200000000000000000000000000000000", 1, 8, 1);
  ("0200000000000000000000000000000000", 1, 7, 1);
  ("0200000000000000000000000000000000", 1, 6, 1);
  ("0200000000000000000000000000000000", 1, 5, 1);
  ("0200000000000000000000000000000000", 1, 4, 1);
  ("0200000000000000000000000000000000", 1, 3, 1);
  ("0200000000000000000000000000000000", 1, 2, 1);
  ("0200000000000000000000000000000000", 1, 1, 1);
  ("01000000000000000000000000000000", 0, 64, 1);
  ("01000000000000000000000000000000", 0, 63, 1);
  ("01000000000000000000000000000000", 0, 62, 1);
  ("01000000000000000000000000000000", 0, 61, 1);
  ("01000000000000000000000000000000", 0, 60, 1);
  ("01000000000000000000000000000000", 0, 59, 1);
  ("01000000000000000000000000000000", 0, 58, 1);
  ("01000000000000000000000000000000", 0, 57, 1);
  ("01000000000000000000000000000000", 0, 56, 1);
  ("01000000000000000000000000000000", 0, 55, 1);
  ("01000000000000000000000000000000", 0, 54, 1);
  ("01000000000000000000000000000000", 0, 53, 1);
  ("01000000000000000000000000000000", 0, 52, 1);
  ("01000000000000000000000000000000", 0, 51, 1);
  ("01000000000000000000000000000000", 0, 50, 1);
  ("01000000000000000000000000000000", 0, 49, 1);
  ("01000000000000000000000000000000", 0, 48, 1);
  ("01000000000000000000000000000000", 0, 47, 1);
  ("01000000000000000000000000000000", 0, 46, 1);
  ("01000000000000000000000000000000", 0, 45, 1);
  ("01000000000000000000000000000000", 0, 44, 1);
  ("01000000000000000000000000000000", 0, 43, 1);
  ("01000000000000000000000000000000", 0, 42, 1);
  ("01000000000000000000000000000000", 0, 41, 1);
  ("01000000000000000000000000000000", 0, 40, 1);
  ("01000000000000000000000000000000", 0, 39, 1);
  ("01000000000000000000000000000000", 0, 38, 1);
  ("01000000000000000000000000000000", 0, 37, 1);
  ("01000000000000000000000000000000", 0, 36, 1);
  ("01000000000000000000000000000000", 0, 35, 1);
  ("01000000000000000000000000000000", 0, 34, 1);
  ("01000000000000000000000000000000", 0, 33, 1);
  ("01000000000000000000000000000000", 0, 32, 1);
  ("01000000000000000000000000000000", 0, 31, 1);
  ("01000000000000000000000000000000", 0, 30, 1);
  ("01000000000000000000000000000000", 0, 29, 1);
  ("01000000000000000000000000000000", 0, 28, 1);
  ("01000000000000000000000000000000", 0, 27, 1);
  ("01000000000000000000000000000000", 0, 26, 1);
  ("01000000000000000000000000000000", 0, 25, 1);
  ("01000000000000000000000000000000", 0, 24, 1);
  ("01000000000000000000000000000000", 0, 23, 1);
  ("01000000000000000000000000000000", 0, 22, 1);
  ("01000000000000000000000000000000", 0, 21, 1);
  ("01000000000000000000000000000000", 0, 20, 1);
  ("01000000000000000000000000000000", 0, 19, 1);
  ("01000000000000000000000000000000", 0, 18, 1);
  ("01000000000000000000000000000000", 0, 17, 1);
  ("01000000000000000000000000000000", 0, 16, 1);
  ("01000000000000000000000000000000", 0, 15, 1);
  ("01000000000000000000000000000000", 0, 14, 1);
  ("01000000000000000000000000000000", 0, 13, 1);
  ("01000000000000000000000000000000", 0, 12, 1);
  ("01000000000000000000000000000000", 0, 11, 1);
  ("01000000000000000000000000000000", 0, 10, 1);
  ("01000000000000000000000000000000", 0, 9, 1);
  ("01000000000000000000000000000000", 0, 8, 1);
  ("01000000000000000000000000000000", 0, 7, 1);
  ("01000000000000000000000000000000", 0, 6, 1);
  ("01000000000000000000000000000000", 0, 5, 1);
  ("01000000000000000000000000000000", 0, 4, 1);
  ("01000000000000000000000000000000", 0, 3, 1);
  ("01000000000000000000000000000000", 0, 2, 1);
  ("01000000000000000000000000000000", 0, 1, 1)].
(** data, offset, num_bits, expected: bytereader.rs:1157-1202 *)
Definition reads_signed : list (string * Z * Z * Z) := [
  ("f8ff0700000000000000000000", 3, 1, 1);
  ("f8ff0700000000000000000000", 3, 2, (-1));
  ("f8ff0700000000000000000000", 3, 3, (-1));
  ("f8ff0700000000000000000000", 3, 4, (-1));
  ("f8ff0700000000000000000000", 3, 5, (-1));
  ("f8ff0700000000000000000000", 3, 6, (-1));
  ("f8ff0700000000000000000000", 3, 7, (-1));
  ("f8ff0700000000000000000000", 3, 8, (-1));
  ("f8ff0700000000000000000000", 3, 9, (-1));
  ("f8ff0700000000000000000000", 3, 10, (-1));
  ("f8ff0700000000000000000000", 3, 11, (-1));
  ("f8ff0700000000000000000000", 3, 12, (-1));
  ("f8ff0700000000000000000000", 3, 13, (-1));
  ("f8ff0700000000000000000000", 3, 14, (-1));
  ("f8ff0700000000000000000000", 3, 15, (-1));
  ("f8ff0700000000000000000000", 3, 16, (-1));
  ("f0ff0700000000000000000000", 3, 16, (-2));
  ("e0ff0700000000000000000000", 3, 16, (-4));
  ("c0ff0700000000000000000000", 3, 16, (-8));
  ("80ff0700000000000000000000", 3, 16, (-16));
  ("00ff0700000000000000000000", 3, 16, (-32));
  ("00fe0700000000000000000000", 3, 16, (-64));
  ("00fc0700000000000000000000", 3, 16, (-128));
  ("00f80700000000000000000000", 3, 16, (-256));
  ("00f00700000000000000000000", 3, 16, (-512));
  ("00e00700000000000000000000", 3, 16, (-1024));
  ("00c00700000000000000000000", 3, 16, (-2048));
  ("00800700000000000000000000", 3, 16, (-4096));
  ("00000700000000000000000000", 3, 16, (-8192));
  ("00000600000000000000000000", 3, 16, (-16384));
  ("08000000000000000000000000", 3, 16, 1);
  ("10000000000000000000000000", 3, 16, 2);
  ("20000000000000000000000000", 3, 16, 4);
  ("40000000000000000000000000", 3, 16, 8);
  ("80000000000000000000000000", 3, 16, 16);
  ("00010000000000000000000000", 3, 16, 32);
  ("00020000000000000000000000", 3, 16, 64);
  ("00040000000000000000000000", 3, 16, 128);
  ("00080000000000000000000000", 3, 16, 256);
  ("00100000000000000000000000", 3, 16, 512);
  ("00200000000000000000000000", 3, 16, 1024);
  ("00400000000000000000000000", 3, 16, 2048);
  ("00800000000000000000000000", 3, 16, 4096);
  ("00000100000000000000000000", 3, 16, 8192);
  ("00000200000000000000000000", 3, 16, 16384);
  ("00000000000000000000000000", 3, 2, 0)].
(** expected, value, offset, num_bits: bytewriter.rs:95-1176 *)
Definition writes : list (string * Z * Z * Z) := [
  ("000100000000000000", 1, 8, 8);
  ("000100000000000000", 1, 8, 7);
  ("000100000000000000", 1, 8, 6);
  ("000100000000000000", 1, 8, 5);
  ("000100000000000000", 1, 8, 4);
  ("000100000000000000", 1, 8, 3);
  ("000100000000000000", 1, 8, 2);
  ("000100000000000000", 1, 8, 1);
  ("800000000000000000", 1, 7, 8);
  ("800000000000000000", 1, 7, 7);
  ("800000000000000000", 1, 7, 6);
  ("800000000000000000", 1, 7, 5);
  ("800000000000000000", 1, 7, 4);
  ("800000000000000000", 1, 7, 3);
  ("800000000000000000", 1, 7, 2);
  ("800000000000000000", 1, 7, 1);
  ("400000000000000000", 1, 6, 8);
  ("400000000000000000", 1, 6, 7);
  ("400000000000000000", 1, 6, 6);
  ("400000000000000000", 1, 6, 5);
  ("400000000000000000", 1, 6, 4);
  ("400000000000000000", 1, 6, 3);
  ("400000000000000000", 1, 6, 2);
  ("400000000000000000", 1, 6, 1);
  ("200000000000000000", 1, 5, 8);
  ("200000000000000000", 1, 5, 7);
  ("200000000000000000", 1, 5, 6);
  ("200000000000000000", 1, 5, 5);
  ("200000000000000000", 1, 5, 4);
  ("200000000000000000", 1, 5, 3);
  ("200000000000000000", 1, 5, 2);
  ("200000000000000000", 1, 5, 1);
  ("100000000000000000", 1, 4, 8);
  ("100000000000000000", 1, 4, 7);
  ("100000000000000000", 1, 4, 6);
  ("100000000000000000", 1, 4, 5);
  ("100000000000000000", 1, 4, 4);
  ("100000000000000000", 1, 4, 3);
  ("100000000000000000", 1, 4, 2);
  ("100000000000000000", 1, 4, 1);
  ("080000000000000000", 1, 3, 8);
  ("080000000000000000", 1, 3, 7);
  ("080000000000000000", 1, 3, 6);
  ("080000000000000000", 1, 3, 5);
  ("080000000000000000", 1, 3, 4);
  ("080000000000000000", 1, 3, 3);
  ("080000000000000000", 1, 3, 2);
  ("080000000000000000", 1, 3, 1);
  ("040000000000000000", 1, 2, 8);
  ("040000000000000000", 1, 2, 7);
  ("040000000000000000", 1, 2, 6);
  ("040000000000000000", 1, 2, 5);
  ("040000000000000000", 1, 2, 4);
  ("040000000000000000", 1, 2, 3);
  ("040000000000000000", 1, 2, 2);
  ("040000000000000000", 1, 2, 1);
  ("020000000000000000", 1, 1, 8);
  ("020000000000000000", 1, 1, 7);
  ("020000000000000000", 1, 1, 6);
  ("020000000000000000", 1, 1, 5);
  ("020000000000000000", 1, 1, 4);
  ("020000000000000000", 1, 1, 3);
  ("020000000000000000", 1, 1, 2);
  ("020000000000000000", 1, 1, 1);
  ("0100000000000000", 1, 0, 8);
  ("0100000000000000", 1, 0, 7);
  ("0100000000000000", 1, 0, 6);
  ("0100000000000000", 1, 0, 5);
  ("0100000000000000", 1, 0, 4);
  ("0100000000000000", 1, 0, 3);
  ("0100000000000000", 1, 0, 2);
  ("0100000000000000", 1, 0, 1);
  ("0001000000000000000000", 1, 8, 16);
  ("0001000000000000000000", 1, 8, 15);
  ("0001000000000000000000", 1, 8, 14);
  ("0001000000000000000000", 1, 8, 13);
  ("0001000000000000000000", 1, 8, 12);
  ("0001000000000000000000", 1, 8, 11);
  ("0001000000000000000000", 1, 8, 10);
  ("0001000000000000000000", 1, 8, 9);
  ("0001000000000000000000", 1, 8, 8);
  ("0001000000000000000000", 1, 8, 7);
  ("0001000000000000000000", 1, 8, 6);
  ("0001000000000000000000", 1, 8, 5);
  ("0001000000000000000000", 1, 8, 4);
  ("0001000000000000000000", 1, 8, 3);
  ("0001000000000000000000", 1, 8, 2);
  ("0001000000000000000000", 1, 8, 1);
  ("8000000000000000000000", 1, 7, 16);
  ("8000000000000000000000", 1, 7, 15);
  ("8000000000000000000000", 1, 7, 14);
  ("8000000000000000000000", 1, 7, 13);
  ("8000000000000000000000", 1, 7, 12);
  ("8000000000000000000000", 1, 7, 11);
  ("8000000000000000000000", 1, 7, 10);
  ("8000000000000000000000", 1, 7, 9);
  ("8000000000000000000000", 1, 7, 8);
  ("8000000000000000000000", 1, 7, 7);
  ("8000000000000000000000", 1, 7, 6);
  ("8000000000000000000000", 1, 7, 5);
  ("8000000000000000000000", 1, 7, 4);
  ("8000000000000000000000", 1, 7, 3);
  ("8000000000000000000000", 1, 7, 2);
  ("8000000000000000000000", 1, 7, 1);
  ("4000000000000000000000", 1, 6, 16);
  ("4000000000000000000000", 1, 6, 15);
  ("4000000000000000000000", 1, 6, 14);
  ("4000000000000000000000", 1, 6, 13);
  ("4000000000000000000000", 1, 6, 12);
  ("4000000000000000000000", 1, 6, 11);
  ("4000000000000000000000", 1, 6, 10);
  ("4000000000000000000000", 1, 6, 9);
  ("4000000000000000000000", 1, 6, 8);
  ("4000000000000000000000", 1, 6, 7);
  ("4000000000000000000000", 1, 6, 6);
  ("4000000000000000000000", 1, 6, 5);
  ("4000000000000000000000", 1, 6, 4);
  ("4000000000000000000000", 1, 6, 3);
  ("4000000000000000000000", 1, 6, 2);
  ("4000000000000000000000", 1, 6, 1);
  ("2000000000000000000000", 1, 5, 16);
  ("2000000000000000000000", 1, 5, 15);
  ("2000000000000000000000", 1, 5, 14);
  ("2000000000000000000000", 1, 5, 13);
  ("2000000000000000000000", 1, 5, 12);
  ("2000000000000000000000", 1, 5, 11);
  ("2000000000000000000000", 1, 5, 10);
  ("2000000000000000000000", 1, 5, 9);
  ("2000000000000000000000", 1, 5, 8);
  ("2000000000000000000000", 1, 5, 7);
  ("2000000000000000000000", 1, 5, 6);
  ("2000000000000000000000", 1, 5, 5);
  ("2000000000000000000000", 1, 5, 4);
  ("2000000000000000000000", 1, 5, 3);
  ("2000000000000000000000", 1, 5, 2);
  ("2000000000000000000000", 1, 5, 1);
  ("1000000000000000000000", 1, 4, 16);
  ("1000000000000000000000", 1, 4, 15);
  ("1000000000000000000000", 1, 4, 14);
  ("1000000000000000000000", 1, 4, 13);
  ("1000000000000000000000", 1, 4, 12);
  ("1000000000000000000000", 1, 4, 11);
  ("1000000000000000000000", 1, 4, 10);
  ("1000000000000000000000", 1, 4, 9);
  ("1000000000000000000000", 1, 4, 8);
  ("1000000000000000000000", 1, 4, 7);
  ("1000000000000000000000", 1, 4, 6);
  ("1000000000000000000000", 1, 4, 5);
  ("1000000000000000000000", 1, 4, 4);
  ("1000000000000000000000", 1, 4, 3);
  ("1000000000000000000000", 1, 4, 2);
  ("1000000000000000000000", 1, 4, 1);
  ("0800000000000000000000", 1, 3, 16);
  ("0800000000000000000000", 1, 3, 15);
  ("0800000000000000000000", 1, 3, 14);
  ("0800000000000000000000", 1, 3, 13);
  ("0800000000000000000000", 1, 3, 12);
  ("0800000000000000000000", 1, 3, 11);
  ("0800000000000000000000", 1, 3, 10);
  ("0800000000000000000000", 1, 3, 9);
  ("0800000000000000000000", 1, 3, 8);
  ("0800000000000000000000", 1, 3, 7);
  ("0800000000000000000000", 1, 3, 6);
  ("0800000000000000000000", 1, 3, 5);
  ("0800000000000000000000", 1, 3, 4);
  ("0800000000000000000000", 1, 3, 3);
  ("0800000000000000000000", 1, 3, 2);
  ("0800000000000000000000", 1, 3, 1);
  ("0400000000000000000000", 1, 2, 16);
  ("0400000000000000000000", 1, 2, 15);
  ("0400000000000000000000", 1, 2, 14);
  ("0400000000000000000000", 1, 2, 13);
  ("0400000000000000000000", 1, 2, 12);
  ("0400000000000000000000", 1, 2, 11);
  ("0400000000000000000000", 1, 2, 10);
  ("0400000000000000000000", 1, 2, 9);
  ("0400000000000000000000", 1, 2, 8);
  ("0400000000000000000000", 1, 2, 7);
  ("0400000000000000000000", 1, 2, 6);
  ("0400000000000000000000", 1, 2, 5);
  ("0400000000000000000000", 1, 2, 4);
  ("0400000000000000000000", 1, 2, 3);
  ("0400000000000000000000", 1, 2, 2);
  ("0400000000000000000000", 1, 2, 1);
  ("0200000000000000000000", 1, 1, 16);
  ("0200000000000000000000", 1, 1, 15);
  ("0200000000000000000000", 1, 1, 14);
  ("0200000000000000000000", 1, 1, 13);
  ("0200000000000000000000", 1, 1, 12);
  ("0200000000000000000000", 1, 1, 11);
  ("0200000000000000000000", 1, 1, 10);
  ("0200000000000000000000", 1, 1, 9);
  ("0200000000000000000000", 1, 1, 8);
  ("0200000000000000000000", 1, 1, 7);
  ("0200000000000000000000", 1, 1, 6);
  ("0200000000000000000000", 1, 1, 5);
  ("0200000000000000000000", 1, 1, 4);
  ("0200000000000000000000", 1, 1, 3);
  ("0200000000000000000000", 1, 1, 2);
  ("0200000000000000000000", 1, 1, 1);
  ("010000000000000000", 1, 0, 16);
  ("010000000000000000", 1, 0, 15);
  ("010000000000000000", 1, 0, 14);
  ("010000000000000000", 1, 0, 13);
  ("010000000000000000", 1, 0, 12);
  ("010000000000000000", 1, 0, 11);
  ("010000000000000000", 1, 0, 10);
  ("010000000000000000", 1, 0, 9);
  ("010000000000000000", 1, 0, 8);
  ("010000000000000000", 1, 0, 7);
  ("010000000000000000", 1, 0, 6);
  ("010000000000000000", 1, 0, 5);
  ("010000000000000000", 1, 0, 4);
  ("010000000000000000", 1, 0, 3);
  ("010000000000000000", 1, 0, 2);
  ("010000000000000000", 1, 0, 1);
  ("00010000000000000000000000", 1, 8, 32);
  ("00010000000000000000000000", 1, 8, 31);
  ("00010000000000000000000000", 1, 8, 30);
  ("00010000000000000000000000", 1, 8, 29);
  ("00010000000000000000000000", 1, 8, 28);
  ("00010000000000000000000000", 1, 8, 27);
  ("00010000000000000000000000", 1, 8, 26);
  ("00010000000000000000000000", 1, 8, 25);
  ("00010000000000000000000000", 1, 8, 24);
  ("00010000000000000000000000", 1, 8, 23);
  ("00010000000000000000000000", 1, 8, 22);
  ("00010000000000000000000000", 1, 8, 21);
  ("00010000000000000000000000", 1, 8, 20);
  ("00010000000000000000000000", 1, 8, 19);
  ("00010000000000000000000000", 1, 8, 18);
  ("00010000000000000000000000", 1, 8, 17);
  ("00010000000000000000000000", 1, 8, 16);
  ("00010000000000000000000000", 1, 8, 15);
  ("00010000000000000000000000", 1, 8, 14);
  ("00010000000000000000000000", 1, 8, 13);
  ("00010000000000000000000000", 1, 8, 12);
  ("00010000000000000000000000", 1, 8, 11);
  ("00010000000000000000000000", 1, 8, 10);
  ("00010000000000000000000000", 1, 8, 9);
  ("00010000000000000000000000", 1, 8, 8);
  ("00010000000000000000000000", 1, 8, 7);
  ("00010000000000000000000000", 1, 8, 6);
  ("00010000000000000000000000", 1, 8, 5);
  ("00010000000000000000000000", 1, 8, 4);
  ("00010000000000000000000000", 1, 8, 3);
  ("00010000000000000000000000", 1, 8, 2);
  ("00010000000000000000000000", 1, 8, 1);
  ("80000000000000000000000000", 1, 7, 32);
  ("80000000000000000000000000", 1, 7, 31);
  ("80000000000000000000000000", 1, 7, 30);
  ("80000000000000000000000000", 1, 7, 29);
  ("80000000000000000000000000", 1, 7, 28);
  ("80000000000000000000000000", 1, 7, 27);
  ("80000000000000000000000000", 1, 7, 26);
  ("80000000000000000000000000", 1, 7, 25);
  ("80000000000000000000000000", 1, 7, 24);
  ("80000000000000000000000000", 1, 7, 23);
  ("80000000000000000000000000", 1, 7, 22);
  ("80000000000000000000000000", 1, 7, 21);
  ("80000000000000000000000000", 1, 7, 20);
  ("80000000000000000000000000", 1, 7, 19);
  ("80000000000000000000000000", 1, 7, 18);
  ("80000000000000000000000000", 1, 7, 17);
  ("80000000000000000000000000", 1, 7, 16);
  ("80000000000000000000000000", 1, 7, 15);
  ("80000000000000000000000000", 1, 7, 14);
  ("80000000000000000000000000", 1, 7, 13);
  ("80000000000000000000000000", 1, 7, 12);
  ("80000000000000000000000000", 1, 7, 11);
  ("80000000000000000000000000", 1, 7, 10);
  ("80000000000000000000000000", 1, 7, 9);
  ("80000000000000000000000000", 1, 7, 8);
  ("80000000000000000000000000", 1, 7, 7);
  ("80000000000000000000000000", 1, 7, 6);
  ("80000000000000000000000000", 1, 7, 5);
  ("80000000000000000000000000", 1, 7, 4);
  ("80000000000000000000000000", 1, 7, 3);
  ("80000000000000000000000000", 1, 7, 2);
  ("80000000000000000000000000", 1, 7, 1);
  ("40000000000000000000000000", 1, 6, 32);
  ("40000000000000000000000000", 1, 6, 31);
  ("40000000000000000000000000", 1, 6, 30);
  ("40000000000000000000000000", 1, 6, 29);
  ("40000000000000000000000000", 1, 6, 28);
  ("40000000000000000000000000", 1, 6, 27);
  ("40000000000000000000000000", 1, 6, 26);
  ("40000000000000000000000000", 1, 6, 25);
  ("40000000000000000000000000", 1, 6, 24);
  ("40000000000000000000000000", 1, 6, 23);
  ("40000000000000000000000000", 1, 6, 22);
  ("40000000000000000000000000", 1, 6, 21);
  ("40000000000000000000000000", 1, 6, 20);
  ("40000000000000000000000000", 1, 6, 19);
  ("40000000000000000000000000", 1, 6, 18);
  ("40000000000000000000000000", 1, 6, 17);
  ("40000000000000000000000000", 1, 6, 16);
  ("40000000000000000000000000", 1, 6, 15);
  ("40000000000000000000000000", 1, 6, 14);
  ("40000000000000000000000000", 1, 6, 13);
  ("40000000000000000000000000", 1, 6, 12);
  ("40000000000000000000000000", 1, 6, 11);
  ("40000000000000000000000000", 1, 6, 10);
  ("40000000000000000000000000", 1, 6, 9);
  ("40000000000000000000000000", 1, 6, 8);
  ("40000000000000000000000000", 1, 6, 7);
  ("40000000000000000000000000", 1, 6, 6);
  ("40000000000000000000000000", 1, 6, 5);
  ("40000000000000000000000000", 1, 6, 4);
  ("40000000000000000000000000", 1, 6, 3);
  ("40000000000000000000000000", 1, 6, 2);
  ("40000000000000000000000000", 1, 6, 1);
  ("20000000000000000000000000", 1, 5, 32);
  ("20000000000000000000000000", 1, 5, 31);
  ("20000000000000000000000000", 1, 5, 30);
  ("20000000000000000000000000", 1, 5, 29);
  ("20000000000000000000000000", 1, 5, 28);
  ("20000000000000000000000000", 1, 5, 27);
  ("20000000000000000000000000", 1, 5, 26);
  ("20000000000000000000000000", 1, 5, 25);
  ("20000000000000000000000000", 1, 5, 24);
  ("20000000000000000000000000", 1, 5, 23);
  ("20000000000000000000000000", 1, 5, 22);
  ("20000000000000000000000000", 1, 5, 21);
  ("20000000000000000000000000", 1, 5, 20);
  ("20000000000000000000000000", 1, 5, 19);
  ("20000000000000000000000000", 1, 5, 18);
  ("20000000000000000000000000", 1, 5, 17);
  ("20000000000000000000000000", 1, 5, 16);
  ("20000000000000000000000000", 1, 5, 15);
  ("20000000000000000000000000", 1, 5, 14);
  ("20000000000000000000000000", 1, 5, 13);
  ("20000000000000000000000000", 1, 5, 12);
  ("20000000000000000000000000", 1, 5, 11);
  ("20000000000000000000000000", 1, 5, 10);
  ("20000000000000000000000000", 1, 5, 9);
  ("20000000000000000000000000", 1, 5, 8);
  ("20000000000000000000000000", 1, 5, 7);
  ("20000000000000000000000000", 1, 5, 6);
  ("20000000000000000000000000", 1, 5, 5);
  ("20000000000000000000000000", 1, 5, 4);
  ("20000000000000000000000000", 1, 5, 3);
  ("20000000000000000000000000", 1, 5, 2);
  ("20000000000000000000000000", 1, 5, 1);
  ("10000000000000000000000000", 1, 4, 32);
  ("10000000000000000000000000", 1, 4, 31);
  ("10000000000000000000000000", 1, 4, 30);
  ("10000000000000000000000000", 1, 4, 29);
  ("10000000000000000000000000", 1, 4, 28);
  ("10000000000000000000000000", 1, 4, 27);
  ("10000000000000000000000000", 1, 4, 26);
  ("10000000000000000000000000", 1, 4, 25);
  ("10000000000000000000000000", 1, 4, 24);
  ("10000000000000000000000000", 1, 4, 23);
  ("10000000000000000000000000", 1, 4, 22);
  ("10000000000000000000000000", 1, 4, 21);
  ("10000000000000000000000000", 1, 4, 20);
  ("10000000000000000000000000", 1, 4, 19);
  ("10000000000000000000000000", 1, 4, 18);
  ("10000000000000000000000000", 1, 4, 17);
  ("10000000000000000000000000", 1, 4, 16);
  ("10000000000000000000000000", 1, 4, 15);
  ("10000000000000000000000000", 1, 4, 14);
  ("10000000000000000000000000", 1, 4, 13);
  ("10000000000000000000000000", 1, 4, 12);
  ("10000000000000000000000000", 1, 4, 11);
  ("10000000000000000000000000", 1, 4, 10);
  ("10000000000000000000000000", 1, 4, 9);
  ("10000000000000000000000000", 1, 4, 8);
  ("10000000000000000000000000", 1, 4, 7);
  ("10000000000000000000000000", 1, 4, 6);
  ("10000000000000000000000000", 1, 4, 5);
  ("10000000000000000000000000", 1, 4, 4);
  ("10000000000000000000000000", 1, 4, 3);
  ("10000000000000000000000000", 1, 4, 2);
  ("10000000000000000000000000", 1, 4, 1);
  ("08000000000000000000000000", 1, 3, 32);
  ("08000000000000000000000000", 1, 3, 31);
  ("08000000000000000000000000", 1, 3, 30);
  ("08000000000000000000000000", 1, 3, 29);
  ("08000000000000000000000000", 1, 3, 28);
  ("08000000000000000000000000", 1, 3, 27);
  ("08000000000000000000000000", 1, 3, 26);
  ("08000000000000000000000000", 1, 3, 25);
  ("08000000000000000000000000", 1, 3, 24);
  ("08000000000000000000000000", 1, 3, 23);
  ("08000000000000000000000000", 1, 3, 22);
  ("08000000000000000000000000", 1, 3, 21);
  ("08000000000000000000000000", 1, 3, 20);
  ("08000000000000000000000000", 1, 3, 19);
  ("08000000000000000000000000", 1, 3, 18);
  ("08000000000000000000000000", 1, 3, 17);
  ("08000000000000000000000000", 1, 3, 16);
  ("08000000000000000000000000", 1, 3, 15);
  ("08000000000000000000000000", 1, 3, 14);
  ("08000000000000000000000000", 1, 3, 13);
  ("08000000000000000000000000", 1, 3, 12);
  ("08000000000000000000000000", 1, 3, 11);
  ("08000000000000000000000000", 1, 3, 10);
  ("08000000000000000000000000", 1, 3, 9);
  ("08000000000000000000000000", 1, 3, 8);
  ("08000000000000000000000000", 1, 3, 7);
  ("08000000000000000000000000", 1, 3, 6);
  ("08000000000000000000000000", 1, 3, 5);
  ("08000000000000000000000000", 1, 3, 4);
  ("08000000000000000000000000", 1, 3, 3);
  ("08000000000000000000000000", 1, 3, 2);
  ("08000000000000000000000000", 1, 3, 1);
  ("04000000000000000000000000", 1, 2, 32);
  ("04000000000000000000000000", 1, 2, 31);
  ("04000000000000000000000000", 1, 2, 30);
  ("04000000000000000000000000", 1, 2, 29);
  ("04000000000000000000000000", 1, 2, 28);
  ("04000000000000000000000000", 1, 2, 27);
  ("04000000000000000000000000", 1, 2, 26);
  ("04000000000000000000000000", 1, 2, 25);
  ("04000000000000000000000000", 1, 2, 24);
  ("04000000000000000000000000", 1, 2, 23);
  ("04000000000000000000000000", 1, 2, 22);
  ("04000000000000000000000000", 1, 2, 21);
  ("04000000000000000000000000", 1, 2, 20);
  ("04000000000000000000000000", 1, 2, 19);
  ("04000000000000000000000000", 1, 2, 18);
  ("04000000000000000000000000", 1, 2, 17);
  ("04000000000000000000000000", 1, 2, 16);
  ("04000000000000000000000000", 1, 2, 15);
  ("04000000000000000000000000", 1, 2, 14);
  ("04000000000000000000000000", 1, 2, 13);
  ("04000000000000000000000000", 1, 2, 12);
  ("04000000000000000000000000", 1, 2, 11);
  ("04000000000000000000000000", 1, 2, 10);
  ("04000000000000000000000000", 1, 2, 9);
  ("04000000000000000000000000", 1, 2, 8);
  ("04000000000000000000000000", 1, 2, 7);
  ("04000000000000000000000000", 1, 2, 6);
  ("04000000000000000000000000", 1, 2, 5);
  ("04000000000000000000000000", 1, 2, 4);
  ("04000000000000000000000000", 1, 2, 3);
  ("04000000000000000000000000", 1, 2, 2);
  ("04000000000000000000000000", 1, 2, 1);
  ("02000000000000000000000000", 1, 1, 32);
  ("02000000000000000000000000", 1, 1, 31);
  ("02000000000000000000000000", 1, 1, 30);
  ("02000000000000000000000000", 1, 1, 29);
  ("02000000000000000000000000", 1, 1, 28);
  ("02000000000000000000000000", 1, 1, 27);
  ("02000000000000000000000000", 1, 1, 26);
  ("02000000000000000000000000", 1, 1, 25);
  ("02000000000000000000000000", 1, 1, 24);
  ("02000000000000000000000000", 1, 1, 23);
  ("02000000000000000000000000", 1, 1, 22);
  ("02000000000000000000000000", 1, 1, 21);
  ("02000000000000000000000000", 1, 1, 20);
  ("02000000000000000000000000", 1, 1, 19);
  ("02000000000000000000000000", 1, 1, 18);
  ("02000000000000000000000000", 1, 1, 17);
  ("02000000000000000000000000", 1, 1, 16);
  ("02000000000000000000000000", 1, 1, 15);
  ("02000000000000000000000000", 1, 1, 14);
  ("02000000000000000000000000", 1, 1, 13);
  ("02000000000000000000000000", 1, 1, 12);
  ("02000000000000000000000000", 1, 1, 11);
  ("02000000000000000000000000", 1, 1, 10);
  ("02000000000000000000000000", 1, 1, 9);
  ("02000000000000000000000000", 1, 1, 8);
  ("02000000000000000000000000", 1, 1, 7);
  ("02000000000000000000000000", 1, 1, 6);
  ("02000000000000000000000000", 1, 1, 5);
  ("02000000000000000000000000", 1, 1, 4);
  ("02000000000000000000000000", 1, 1, 3);
  ("02000000000000000000000000", 1, 1, 2);
  ("02000000000000000000000000", 1, 1, 1);
  ("010000000000000000000000", 1, 0, 32);
  ("010000000000000000000000", 1, 0, 31);
  ("010000000000000000000000", 1, 0, 30);
  ("010000000000000000000000", 1, 0, 29);
  ("010000000000000000000000", 1, 0, 28);
  ("010000000000000000000000", 1, 0, 27);
  ("010000000000000000000000", 1, 0, 26);
  ("010000000000000000000000", 1, 0, 25);
  ("010000000000000000000000", 1, 0, 24);
  ("010000000000000000000000", 1, 0, 23);
  ("010000000000000000000000", 1, 0, 22);
  ("010000000000000000000000", 1, 0, 21);
  ("010000000000000000000000", 1, 0, 20);
  ("010000000000000000000000", 1, 0, 19);
  ("010000000000000000000000", 1, 0, 18);
  ("010000000000000000000000", 1, 0, 17);
  ("010000000000000000000000", 1, 0, 16);
  ("010000000000000000000000", 1, 0, 15);
  ("010000000000000000000000", 1, 0, 14);
  ("010000000000000000000000", 1, 0, 13);
  ("010000000000000000000000", 1, 0, 12);
  ("010000000000000000000000", 1, 0, 11);
  ("010000000000000000000000", 1, 0, 10);
  ("010000000000000000000000", 1, 0, 9);
  ("010000000000000000000000", 1, 0, 8);
  ("010000000000000000000000", 1, 0, 7);
  ("010000000000000000000000", 1, 0, 6);
  ("010000000000000000000000", 1, 0, 5);
  ("010000000000000000000000", 1, 0, 4);
  ("010000000000000000000000", 1, 0, 3);
  ("010000000000000000000000", 1, 0, 2);
  ("010000000000000000000000", 1, 0, 1);
  ("0001000000000000000000000000000000", 1, 8, 64);
  ("0001000000000000000000000000000000", 1, 8, 63);
  ("0001000000000000000000000000000000", 1, 8, 62);
  ("0001000000000000000000000000000000", 1, 8, 61);
  ("0001000000000000000000000000000000", 1, 8, 60);
  ("0001000000000000000000000000000000", 1, 8, 59);
  ("0001000000000000000000000000000000", 1, 8, 58);
  ("0001000000000000000000000000000000", 1, 8, 57);
  ("0001000000000000000000000000000000", 1, 8, 56);
  ("0001000000000000000000000000000000", 1, 8, 55);
  ("0001000000000000000000000000000000", 1, 8, 54);
  ("0001000000000000000000000000000000", 1, 8, 53);
  ("0001000000000000000000000000000000", 1, 8, 52);
  ("0001000000000000000000000000000000", 1, 8, 51);
  ("0001000000000000000000000000000000", 1, 8, 50);
  ("0001000000000000000000000000000000", 1, 8, 49);
  ("0001000000000000000000000000000000", 1, 8, 48);
  ("0001000000000000000000000000000000", 1, 8, 47);
  ("0001000000000000000000000000000000", 1, 8, 46);
  ("0001000000000000000000000000000000", 1, 8, 45);
  ("0001000000000000000000000000000000", 1, 8, 44);
  ("0001000000000000000000000000000000", 1, 8, 43);
  ("0001000000000000000000000000000000", 1, 8, 42);
  ("0001000000000000000000000000000000", 1, 8, 41);
  ("0001000000000000000000000000000000", 1, 8, 40);
  ("0001000000000000000000000000000000", 1, 8, 39);
  ("0001000000000000000000000000000000", 1, 8, 38);
  ("0001000000000000000000000000000000", 1, 8, 37);
  ("0001000000000000000000000000000000", 1, 8, 36);
  ("0001000000000000000000000000000000", 1, 8, 35);
  ("0001000000000000000000000000000000", 1, 8, 34);
  ("0001000000000000000000000000000000", 1, 8, 33);
  ("0001000000000000000000000000000000", 1, 8, 32);
  ("0001000000000000000000000000000000", 1, 8, 31);
  ("0001000000000000000000000000000000", 1, 8, 30);
  ("0001000000000000000000000000000000", 1, 8, 29);
  ("0001000000000000000000000000000000", 1, 8, 28);
  ("0001000000000000000000000000000000", 1, 8, 27);
  ("0001000000000000000000000000000000", 1, 8, 26);
  ("0001000000000000000000000000000000", 1, 8, 25);
  ("0001000000000000000000000000000000", 1, 8, 24);
  ("0001000000000000000000000000000000", 1, 8, 23);
  ("0001000000000000000000000000000000", 1, 8, 22);
  ("0001000000000000000000000000000000", 1, 8, 21);
  ("0001000000000000000000000000000000", 1, 8, 20);
  ("0001000000000000000000000000000000", 1, 8, 19);
  ("0001000000000000000000000000000000", 1, 8, 18);
  ("0001000000000000000000000000000000", 1, 8, 17);
  ("0001000000000000000000000000000000", 1, 8, 16);
  ("0001000000000000000000000000000000", 1, 8, 15);
  ("0001000000000000000000000000000000", 1, 8, 14);
  ("0001000000000000000000000000000000", 1, 8, 13);
  ("0001000000000000000000000000000000", 1, 8, 12);
  ("0001000000000000000000000000000000", 1, 8, 11);
  ("0001000000000000000000000000000000", 1, 8, 10);
  ("0001000000000000000000000000000000", 1, 8, 9);
  ("0001000000000000000000000000000000", 1, 8, 8);
  ("0001000000000000000000000000000000", 1, 8, 7);
  ("0001000000000000000000000000000000", 1, 8, 6);
  ("0001000000000000000000000000000000", 1, 8, 5);
  ("0001000000000000000000000000000000", 1, 8, 4);
  ("0001000000000000000000000000000000", 1, 8, 3);
  ("0001000000000000000000000000000000", 1, 8, 2);
  ("0001000000000000000000000000000000", 1, 8, 1);
  ("8000000000000000000000000000000000", 1, 7, 64);
  ("8000000000000000000000000000000000", 1, 7, 63);
  ("8000000000000000000000000000000000", 1, 7, 62);
  ("8000000000000000000000000000000000", 1, 7, 61);
  ("8000000000000000000000000000000000", 1, 7, 60);
  ("8000000000000000000000000000000000", 1, 7, 59);
  ("8000000000000000000000000000000000", 1, 7, 58);
  ("8000000000000000000000000000000000", 1, 7, 57);
  ("8000000000000000000000000000000000", 1, 7, 56);
  ("8000000000000000000000000000000000", 1, 7, 55);
  ("8000000000000000000000000000000000", 1, 7, 54);
  ("8000000000000000000000000000000000", 1, 7, 53);
  ("8000000000000000000000000000000000", 1, 7, 52);
  ("8000000000000000000000000000000000", 1, 7, 51);
  ("8000000000000000000000000000000000", 1, 7, 50);
  ("8000000000000000000000000000000000", 1, 7, 49);
  ("8000000000000000000000000000000000", 1, 7, 48);
  ("8000000000000000000000000000000000", 1, 7, 47);
  ("8000000000000000000000000000000000", 1, 7, 46);
  ("8000000000000000000000000000000000", 1, 7, 45);
  ("8000000000000000000000000000000000", 1, 7, 44);
  ("8000000000000000000000000000000000", 1, 7, 43);
  ("8000000000000000000000000000000000", 1, 7, 42);
  ("8000000000000000000000000000000000", 1, 7, 41);
  ("8000000000000000000000000000000000", 1, 7, 40);
  ("8000000000000000000000000000000000", 1, 7, 39);
  ("8000000000000000000000000000000000", 1, 7, 38);
  ("8000000000000000000000000000000000", 1, 7, 37);
  ("8000000000000000000000000000000000", 1, 7, 36);
  ("8000000000000000000000000000000000", 1, 7, 35);
  ("8000000000000000000000000000000000", 1, 7, 34);
  ("8000000000000000000000000000000000", 1, 7, 33);
  ("8000000000000000000000000000000000", 1, 7, 32);
  ("8000000000000000000000000000000000", 1, 7, 31);
  ("8000000000000000000000000000000000", 1, 7, 30);
  ("8000000000000000000000000000000000", 1, 7, 29);
  ("8000000000000000000000000000000000", 1, 7, 28);
  ("8000000000000000000000000000000000", 1, 7, 27);
  ("8000000000000000000000000000000000", 1, 7, 26);
  ("8000000000000000000000000000000000", 1, 7, 25);
  ("8000000000000000000000000000000000", 1, 7, 24);
  ("8000000000000000000000000000000000", 1, 7, 23);
  ("8000000000000000000000000000000000", 1, 7, 22);
  ("8000000000000000000000000000000000", 1, 7, 21);
  ("8000000000000000000000000000000000", 1, 7, 20);
  ("8000000000000000000000000000000000", 1, 7, 19);
  ("8000000000000000000000000000000000", 1, 7, 18);
  ("8000000000000000000000000000000000", 1, 7, 17);
  ("8000000000000000000000000000000000", 1, 7, 16);
  ("8000000000000000000000000000000000", 1, 7, 15);
  ("8000000000000000000000000000000000", 1, 7, 14);
  ("8000000000000000000000000000000000", 1, 7, 13);
  ("8000000000000000000000000000000000", 1, 7, 12);
  ("8000000000000000000000000000000000", 1, 7, 11);
  ("8000000000000000000000000000000000", 1, 7, 10);
  ("8000000000000000000000000000000000", 1, 7, 9);
  ("8000000000000000000000000000000000", 1, 7, 8);
  ("8000000000000000000000000000000000", 1, 7, 7);
  ("8000000000000000000000000000000000", 1, 7, 6);
  ("8000000000000000000000000000000000", 1, 7, 5);
  ("8000000000000000000000000000000000", 1, 7, 4);
  ("8000000000000000000000000000000000", 1, 7, 3);
  ("8000000000000000000000000000000000", 1, 7, 2);
  ("8000000000000000000000000000000000", 1, 7, 1);
  ("4000000000000000000000000000000000", 1, 6, 64);
  ("4000000000000000000000000000000000", 1, 6, 63);
  ("4000000000000000000000000000000000", 1, 6, 62);
  ("4000000000000000000000000000000000", 1, 6, 61);
  ("4000000000000000000000000000000000", 1, 6, 60);
  ("4000000000000000000000000000000000", 1, 6, 59);
  ("4000000000000000000000000000000000", 1, 6, 58);
  ("4000000000000000000000000000000000", 1, 6, 57);
  ("4000000000000000000000000000000000", 1, 6, 56);
  ("4000000000000000000000000000000000", 1, 6, 55);
  ("4000000000000000000000000000000000", 1, 6, 54);
  ("4000000000000000000000000000000000", 1, 6, 53);
  ("4000000000000000000000000000000000", 1, 6, 52);
  ("4000000000000000000000000000000000", 1, 6, 51);
  ("4000000000000000000000000000000000", 1, 6, 50);
  ("4000000000000000000000000000000000", 1, 6, 49);
  ("4000000000000000000000000000000000", 1, 6, 48);
  ("4000000000000000000000000000000000", 1, 6, 47);
  ("4000000000000000000000000000000000", 1, 6, 46);
  ("4000000000000000000000000000000000", 1, 6, 45);
  ("4000000000000000000000000000000000", 1, 6, 44);
  ("4000000000000000000000000000000000", 1, 6, 43);
  ("4000000000000000000000000000000000", 1, 6, 42);
  ("4000000000000000000000000000000000", 1, 6, 41);
  ("4000000000000000000000000000000000", 1, 6, 40);
  ("4000000000000000000000000000000000", 1, 6, 39);
  ("4000000000000000000000000000000000", 1, 6, 38);
  ("4000000000000000000000000000000000", 1, 6, 37);
  ("4000000000000000000000000000000000", 1, 6, 36);
  ("4000000000000000000000000000000000", 1, 6, 35);
  ("4000000000000000000000000000000000", 1, 6, 34);
  ("4000000000000000000000000000000000", 1, 6, 33);
  ("4000000000000000000000000000000000", 1, 6, 32);
  ("4000000000000000000000000000000000", 1, 6, 31);
  ("4000000000000000000000000000000000", 1, 6, 30);
  ("4000000000000000000000000000000000", 1, 6, 29);
  ("4000000000000000000000000000000000", 1, 6, 28);
  ("4000000000000000000000000000000000", 1, 6, 27);
  ("4000000000000000000000000000000000", 1, 6, 26);
  ("4000000000000000000000000000000000", 1, 6, 25);
  ("4000000000000000000000000000000000", 1, 6, 24);
  ("4000000000000000000000000000000000", 1, 6, 23);
  ("4000000000000000000000000000000000", 1, 6, 22);
  ("4000000000000000000000000000000000", 1, 6, 21);
  ("4000000000000000000000000000000000", 1, 6, 20);
  ("4000000000000000000000000000000000", 1, 6, 19);
  ("4000000000000000000000000000000000", 1, 6, 18);
  ("4000000000000000000000000000000000", 1, 6, 17);
  ("4000000000000000000000000000000000", 1, 6, 16);
  ("4000000000000000000000000000000000", 1, 6, 15);
  ("4000000000000000000000000000000000", 1, 6, 14);
  ("4000000000000000000000000000000000", 1, 6, 13);
  ("4000000000000000000000000000000000", 1, 6, 12);
  ("4000000000000000000000000000000000", 1, 6, 11);
  ("4000000000000000000000000000000000", 1, 6, 10);
  ("4000000000000000000000000000000000", 1, 6, 9);
  ("4000000000000000000000000000000000", 1, 6, 8);
  ("4000000000000000000000000000000000", 1, 6, 7);
  ("4000000000000000000000000000000000", 1, 6, 6);
  ("4000000000000000000000000000000000", 1, 6, 5);
  ("4000000000000000000000000000000000", 1, 6, 4);
  ("4000000000000000000000000000000000", 1, 6, 3);
  ("4000000000000000000000000000000000", 1, 6, 2);
  ("4000000000000000000000000000000000", 1, 6, 1);
  ("2000000000000000000000000000000000", 1, 5, 64);
  ("2000000000000000000000000000000000", 1, 5, 63);
  ("2000000000000000000000000000000000", 1, 5, 62);
  ("2000000000000000000000000000000000", 1, 5, 61);
  ("2000000000000000000000000000000000", 1, 5, 60);
  ("2000000000000000000000000000000000", 1, 5, 59);
  ("2000000000000000000000000000000000", 1, 5, 58);
  ("2000000000000000000000000000000000", 1, 5, 57);
  ("2000000000000000000000000000000000", 1, 5, 56);
  ("2000000000000000000000000000000000", 1, 5, 55);
  ("2000000000000000000000000000000000", 1, 5, 54);
  ("2000000000000000000000000000000000", 1, 5, 53);
  ("2000000000000000000000000000000000", 1, 5, 52);
  ("2000000000000000000000000000000000", 1, 5, 51);
  ("2000000000000000000000000000000000", 1, 5, 50);
  ("2000000000000000000000000000000000", 1, 5, 49);
  ("2000000000000000000000000000000000", 1, 5, 48);
  ("2000000000000000000000000000000000", 1, 5, 47);
  ("2000000000000000000000000000000000", 1, 5, 46);
  ("2000000000000000000000000000000000", 1, 5, 45);
  ("2000000000000000000000000000000000", 1, 5, 44);
  ("2000000000000000000000000000000000", 1, 5, 43);
  ("2000000000000000000000000000000000", 1, 5, 42);
  ("2000000000000000000000000000000000", 1, 5, 41);
  ("2000000000000000000000000000000000", 1, 5, 40);
  ("2000000000000000000000000000000000", 1, 5, 39);
  ("2000000000000000000000000000000000", 1, 5, 38);
  ("2000000000000000000000000000000000", 1, 5, 37);
  ("2000000000000000000000000000000000", 1, 5, 36);
  ("2000000000000000000000000000000000", 1, 5, 35);
  ("2000000000000000000000000000000000", 1, 5, 34);
  ("2000000000000000000000000000000000", 1, 5, 33);
  ("2000000000000000000000000000000000", 1, 5, 32);
  ("2000000000000000000000000000000000", 1, 5, 31);
  ("2000000000000000000000000000000000", 1, 5, 30);
  ("2000000000000000000000000000000000", 1, 5, 29);
  ("2000000000000000000000000000000000", 1, 5, 28);
  ("2000000000000000000000000000000000", 1, 5, 27);
  ("2000000000000000000000000000000000", 1, 5, 26);
  ("2000000000000000000000000000000000", 1, 5, 25);
  ("2000000000000000000000000000000000", 1, 5, 24);
  ("2000000000000000000000000000000000", 1, 5, 23);
  ("2000000000000000000000000000000000", 1, 5, 22);
  ("2000000000000000000000000000000000", 1, 5, 21);
  ("2000000000000000000000000000000000", 1, 5, 20);
  ("2000000000000000000000000000000000", 1, 5, 19);
  ("2000000000000000000000000000000000", 1, 5, 18);
  ("2000000000000000000000000000000000", 1, 5, 17);
  ("2000000000000000000000000000000000", 1, 5, 16);
  ("2000000000000000000000000000000000", 1, 5, 15);
  ("2000000000000000000000000000000000", 1, 5, 14);
  ("2000000000000000000000000000000000", 1, 5, 13);
  ("2000000000000000000000000000000000", 1, 5, 12);
  ("2000000000000000000000000000000000", 1, 5, 11);
  ("2000000000000000000000000000000000", 1, 5, 10);
  ("2000000000000000000000000000000000", 1, 5, 9);
  ("2000000000000000000000000000000000", 1, 5, 8);
  ("2000000000000000000000000000000000", 1, 5, 7);
  ("2000000000000000000000000000000000", 1, 5, 6);
  ("2000000000000000000000000000000000", 1, 5, 5);
  ("2000000000000000000000000000000000", 1, 5, 4);
  ("2000000000000000000000000000000000", 1, 5, 3);
  ("2000000000000000000000000000000000", 1, 5, 2);
  ("2000000000000000000000000000000000", 1, 5, 1);
  ("1000000000000000000000000000000000", 1, 4, 64);
  ("1000000000000000000000000000000000", 1, 4, 63);
  ("1000000000000000000000000000000000", 1, 4, 62);
  ("1000000000000000000000000000000000", 1, 4, 61);
  ("1000000000000000000000000000000000", 1, 4, 60);
  ("1000000000000000000000000000000000", 1, 4, 59);
  ("1000000000000000000000000000000000", 1, 4, 58);
  ("1000000000000000000000000000000000", 1, 4, 57);
  ("1000000000000000000000000000000000", 1, 4, 56);
  ("1000000000000000000000000000000000", 1, 4, 55);
  ("1000000000000000000000000000000000", 1, 4, 54);
  ("1000000000000000000000000000000000", 1, 4, 53);
  ("1000000000000000000000000000000000", 1, 4, 52);
  ("1000000000000000000000000000000000", 1, 4, 51);
  ("1000000000000000000000000000000000", 1, 4, 50);
  ("1000000000000000000000000000000000", 1, 4, 49);
  ("1000000000000000000000000000000000", 1, 4, 48);
  ("1000000000000000000000000000000000", 1, 4, 47);
  ("1000000000000000000000000000000000", 1, 4, 46);
  ("1000000000000000000000000000000000", 1, 4, 45);
  ("1000000000000000000000000000000000", 1, 4, 44);
  ("1000000000000000000000000000000000", 1, 4, 43);
  ("1000000000000000000000000000000000", 1, 4, 42);
  ("1000000000000000000000000000000000", 1, 4, 41);
  ("1000000000000000000000000000000000", 1, 4, 40);
  ("1000000000000000000000000000000000", 1, 4, 39);
  ("1000000000000000000000000000000000", 1, 4, 38);
  ("1000000000000000000000000000000000", 1, 4, 37);
  ("1000000000000000000000000000000000", 1, 4, 36);
  ("1000000000000000000000000000000000", 1, 4, 35);
  ("1000000000000000000000000000000000", 1, 4, 34);
  ("1000000000000000000000000000000000", 1, 4, 33);
  ("1000000000000000000000000000000000", 1, 4, 32);
  ("1000000000000000000000000000000000", 1, 4, 31);
  ("1000000000000000000000000000000000", 1, 4, 30);
  ("1000000000000000000000000000000000", 1, 4, 29);
  ("1000000000000000000000000000000000", 1, 4, 28);
  ("1000000000000000000000000000000000", 1, 4, 27);
  ("1000000000000000000000000000000000", 1, 4, 26);
  ("1000000000000000000000000000000000", 1, 4, 25);
  ("1000000000000000000000000000000000", 1, 4, 24);
  ("1000000000000000000000000000000000", 1, 4, 23);
  ("1000000000000000000000000000000000", 1, 4, 22);
  ("1000000000000000000000000000000000", 1, 4, 21);
  ("1000000000000000000000000000000000", 1, 4, 20);
  ("1000000000000000000000000000000000", 1, 4, 19);
  ("1000000000000000000000000000000000", 1, 4, 18);
  ("1000000000000000000000000000000000", 1, 4, 17);
  ("1000000000000000000000000000000000", 1, 4, 16);
  ("1000000000000000000000000000000000", 1, 4, 15);
  ("1000000000000000000000000000000000", 1, 4, 14);
  ("1000000000000000000000000000000000", 1, 4, 13);
  ("1000000000000000000000000000000000", 1, 4, 12);
  ("1000000000000000000000000000000000", 1, 4, 11);
  ("1000000000000000000000000000000000", 1, 4, 10);
  ("1000000000000000000000000000000000", 1, 4, 9);
  ("1000000000000000000000000000000000", 1, 4, 8);
  ("1000000000000000000000000000000000", 1, 4, 7);
  ("1000000000000000000000000000000000", 1, 4, 6);
  ("1000000000000000000000000000000000", 1, 4, 5);
  ("1000000000000000000000000000000000", 1, 4, 4);
  ("1000000000000000000000000000000000", 1, 4, 3);
  ("1000000000000000000000000000000000", 1, 4, 2);
  ("1000000000000000000000000000000000", 1, 4, 1);
  ("0800000000000000000000000000000000", 1, 3, 64);
  ("0800000000000000000000000000000000", 1, 3, 63);
  ("0800000000000000000000000000000000", 1, 3, 62);
  ("0800000000000000000000000000000000", 1, 3, 61);
  ("0800000000000000000000000000000000", 1, 3, 60);
  ("0800000000000000000000000000000000", 1, 3, 59);
  ("0800000000000000000000000000000000", 1, 3, 58);
  ("0800000000000000000000000000000000", 1, 3, 57);
  ("0800000000000000000000000000000000", 1, 3, 56);
  ("0800000000000000000000000000000000", 1, 3, 55);
  ("0800000000000000000000000000000000", 1, 3, 54);
  ("0800000000000000000000000000000000", 1, 3, 53);
  ("0800000000000000000000000000000000", 1, 3, 52);
  ("0800000000000000000000000000000000", 1, 3, 51);
  ("0800000000000000000000000000000000", 1, 3, 50);
  ("0800000000000000000000000000000000", 1, 3, 49);
  ("0800000000000000000000000000000000", 1, 3, 48);
  ("0800000000000000000000000000000000", 1, 3, 47);
  ("0800000000000000000000000000000000", 1, 3, 46);
  ("0800000000000000000000000000000000", 1, 3, 45);
  ("0800000000000000000000000000000000", 1, 3, 44);
  ("0800000000000000000000000000000000", 1, 3, 43);
  ("0800000000000000000000000000000000", 1, 3, 42);
  ("0800000000000000000000000000000000", 1, 3, 41);
  ("0800000000000000000000000000000000", 1, 3, 40);
  ("0800000000000000000000000000000000", 1, 3, 39);
  ("0800000000000000000000000000000000", 1, 3, 38);
  ("0800000000000000000000000000000000", 1, 3, 37);
  ("0800000000000000000000000000000000", 1, 3, 36);
  ("0800000000000000000000000000000000", 1, 3, 35);
  ("0800000000000000000000000000000000", 1, 3, 34);
  ("0800000000000000000000000000000000", 1, 3, 33);
  ("0800000000000000000000000000000000", 1, 3, 32);
  ("0800000000000000000000000000000000", 1, 3, 31);
  ("0800000000000000000000000000000000", 1, 3, 30);
  ("0800000000000000000000000000000000", 1, 3, 29);
  ("0800000000000000000000000000000000", 1, 3, 28);
  ("0800000000000000000000000000000000", 1, 3, 27);
  ("0800000000000000000000000000000000", 1, 3, 26);
  ("0800000000000000000000000000000000", 1, 3, 25);
  ("0800000000000000000000000000000000", 1, 3, 24);
  ("0800000000000000000000000000000000", 1, 3, 23);
  ("0800000000000000000000000000000000", 1, 3, 22);
  ("0800000000000000000000000000000000", 1, 3, 21);
  ("0800000000000000000000000000000000", 1, 3, 20);
  ("0800000000000000000000000000000000", 1, 3, 19);
  ("0800000000000000000000000000000000", 1, 3, 18);
  ("0800000000000000000000000000000000", 1, 3, 17);
  ("0800000000000000000000000000000000", 1, 3, 16);
  ("0800000000000000000000000000000000", 1, 3, 15);
  ("0800000000000000000000000000000000", 1, 3, 14);
  ("0800000000000000000000000000000000", 1, 3, 13);
  ("0800000000000000000000000000000000", 1, 3, 12);
  ("0800000000000000000000000000000000", 1, 3, 11);
  ("0800000000000000000000000000000000", 1, 3, 10);
  ("0800000000000000000000000000000000", 1, 3, 9);
  ("0800000000000000000000000000000000", 1, 3, 8);
  ("0800000000000000000000000000000000", 1, 3, 7);
  ("0800000000000000000000000000000000", 1, 3, 6);
  ("0800000000000000000000000000000000", 1, 3, 5);
  ("0800000000000000000000000000000000", 1, 3, 4);
  ("0800000000000000000000000000000000", 1, 3, 3);
  ("0800000000000000000000000000000000", 1, 3, 2);
  ("0800000000000000000000000000000000", 1, 3, 1);
  ("0400000000000000000000000000000000", 1, 2, 64);
  ("0400000000000000000000000000000000", 1, 2, 63);
  ("0400000000000000000000000000000000", 1, 2, 62);
  ("0400000000000000000000000000000000", 1, 2, 61);
  ("0400000000000000000000000000000000", 1, 2, 60);
  ("0400000000000000000000000000000000", 1, 2, 59);
  ("0400000000000000000000000000000000", 1, 2, 58);
  ("0400000000000000000000000000000000", 1, 2, 57);
  ("0400000000000000000000000000000000", 1, 2, 56);
  ("0400000000000000000000000000000000", 1, 2, 55);
  ("0400000000000000000000000000000000", 1, 2, 54);
  ("0400000000000000000000000000000000", 1, 2, 53);
  ("0400000000000000000000000000000000", 1, 2, 52);
  ("0400000000000000000000000000000000", 1, 2, 51);
  ("0400000000000000000000000000000000", 1, 2, 50);
  ("0400000000000000000000000000000000", 1, 2, 49);
  ("0400000000000000000000000000000000", 1, 2, 48);
  ("0400000000000000000000000000000000", 1, 2, 47);
  ("0400000000000000000000000000000000", 1, 2, 46);
  ("0400000000000000000000000000000000", 1, 2, 45);
  ("0400000000000000000000000000000000", 1, 2, 44);
  ("0400000000000000000000000000000000", 1, 2, 43);
  ("0400000000000000000000000000000000", 1, 2, 42);
  ("0400000000000000000000000000000000", 1, 2, 41);
  ("0400000000000000000000000000000000", 1, 2, 40);
  ("0400000000000000000000000000000000", 1, 2, 39);
  ("0400000000000000000000000000000000", 1, 2, 38);
  ("0400000000000000000000000000000000", 1, 2, 37);
  ("0400000000000000000000000000000000", 1, 2, 36);
  ("0400000000000000000000000000000000", 1, 2, 35);
  ("0400000000000000000000000000000000", 1, 2, 34);
  ("0400000000000000000000000000000000", 1, 2, 33);
  ("0400000000000000000000000000000000", 1, 2, 32);
  ("0400000000000000000000000000000000", 1, 2, 31);
  ("0400000000000000000000000000000000", 1, 2, 30);
  ("0400000000000000000000000000000000", 1, 2, 29);
  ("0400000000000000000000000000000000", 1, 2, 28);
  ("0400000000000000000000000000000000", 1, 2, 27);
  ("0400000000000000000000000000000000", 1, 2, 26);
  ("0400000000000000000000000000000000", 1, 2, 25);
  ("0400000000000000000000000000000000", 1, 2, 24);
  ("0400000000000000000000000000000000", 1, 2, 23);
  ("0400000000000000000000000000000000", 1, 2, 22);
  ("0400000000000000000000000000000000", 1, 2, 21);
  ("0400000000000000000000000000000000", 1, 2, 20);
  ("0400000000000000000000000000000000", 1, 2, 19);
  ("0400000000000000000000000000000000", 1, 2, 18);
  ("0400000000000000000000000000000000", 1, 2, 17);
  ("0400000000000000000000000000000000", 1, 2, 16);
  ("0400000000000000000000000000000000", 1, 2, 15);
  ("0400000000000000000000000000000000", 1, 2, 14);
  ("0400000000000000000000000000000000", 1, 2, 13);
  ("0400000000000000000000000000000000", 1, 2, 12);
  ("0400000000000000000000000000000000", 1, 2, 11);
  ("0400000000000000000000000000000000", 1, 2, 10);
  ("0400000000000000000000000000000000", 1, 2, 9);
  ("0400000000000000000000000000000000", 1, 2, 8);
  ("0400000000000000000000000000000000", 1, 2, 7);
  ("0400000000000000000000000000000000", 1, 2, 6);
  ("0400000000000000000000000000000000", 1, 2, 5);
  ("0400000000000000000000000000000000", 1, 2, 4);
  ("0400000000000000000000000000000000", 1, 2, 3);
  ("0400000000000000000000000000000000", 1, 2, 2);
  ("0400000000000000000000000000000000", 1, 2, 1);
  ("0200000000000000000000000000000000", 1, 1, 64);
  ("0200000000000000000000000000000000", 1, 1, 63);
  ("0200000000000000000000000000000000", 1, 1, 62);
  ("0200000000000000000000000000000000", 1, 1, 61);
  ("0200000000000000000000000000000000", 1, 1, 60);
  ("0200000000000000000000000000000000", 1, 1, 59);
  ("0200000000000000000000000000000000", 1, 1, 58);
  ("0200000000000000000000000000000000", 1, 1, 57);
  ("0200000000000000000000000000000000", 1, 1, 56);
  ("0200000000000000000000000000000000", 1, 1, 55);
  ("0200000000000000000000000000000000", 1, 1, 54);
  ("0200000000000000000000000000000000", 1, 1, 53);
  ("0200000000000000000000000000000000", 1, 1, 52);
  ("0200000000000000000000000000000000", 1, 1, 51);
  ("0200000000000000000000000000000000", 1, 1, 50);
  ("0200000000000000000000000000000000", 1, 1, 49);
  ("0200000000000000000000000000000000", 1, 1, 48);
  ("0200000000000000000000000000000000", 1, 1, 47);
  ("0200000000000000000000000000000000", 1, 1, 46);
  ("0200000000000000000000000000000000", 1, 1, 45);
  ("0200000000000000000000000000000000", 1, 1, 44);
  ("0200000000000000000000000000000000", 1, 1, 43);
  ("0200000000000000000000000000000000", 1, 1, 42);
  ("0200000000000000000000000000000000", 1, 1, 41);
  ("0200000000000000000000000000000000", 1, 1, 40);
  ("0200000000000000000000000000000000", 1, 1, 39);
  ("0200000000000000000000000000000000", 1, 1, 38);
  ("0200000000000000000000000000000000", 1, 1, 37);
  ("0200000000000000000000000000000000", 1, 1, 36);
  ("0200000000000000000000000000000000", 1, 1, 35);
  ("0200000000000000000000000000000000", 1, 1, 34);
  ("0200000000000000000000000000000000", 1, 1, 33);
  ("0200000000000000000000000000000000", 1, 1, 32);
  ("0200000000000000000000000000000000", 1, 1, 31);
  ("0200000000000000000000000000000000", 1, 1, 30);
  ("0200000000000000000000000000000000", 1, 1, 29);
  ("0200000000000000000000000000000000", 1, 1, 28);
  ("0200000000000000000000000000000000", 1, 1, 27);
  ("0200000000000000000000000000000000", 1, 1, 26);
  ("0200000000000000000000000000000000", 1, 1, 25);
  ("0200000000000000000000000000000000", 1, 1, 24);
  ("0200000000000000000000000000000000", 1, 1, 23);
  ("0200000000000000000000000000000000", 1, 1, 22);
  ("0200000000000000000000000000000000", 1, 1, 21);
  ("0200000000000000000000000000000000", 1, 1, 20);
  ("0200000000000000000000000000000000", 1, 1, 19);
  ("0200000000000000000000000000000000", 1, 1, 18);
  ("0200000000000000000000000000000000", 1, 1, 17);
  ("0200000000000000000000000000000000", 1, 1, 16);
  ("0200000000000000000000000000000000", 1, 1, 15);
  ("0200000000000000000000000000000000", 1, 1, 14);
  ("0200000000000000000000000000000000", 1, 1, 13);
  ("0200000000000000000000000000000000", 1, 1, 12);
  ("0200000000000000000000000000000000", 1, 1, 11);
  ("0200000000000000000000000000000000", 1, 1, 10);
  ("0200000000000000000000000000000000", 1, 1, 9);
  ("0200000000000000000000000000000000", 1, 1, 8);
  ("0200000000000000000000000000000000", 1, 1, 7);
  ("0200000000000000000000000000000000", 1, 1, 6);
  ("0200000000000000000000000000000000", 1, 1, 5);
  ("0200000000000000000000000000000000", 1, 1, 4);
  ("0200000000000000000000000000000000", 1, 1, 3);
  ("0200000000000000000000000000000000", 1, 1, 2);
  ("0200000000000000000000000000000000", 1, 1, 1);
  ("01000000000000000000000000000000", 1, 0, 64);
  ("01000000000000000000000000000000", 1, 0, 63);
  ("01000000000000000000000000000000", 1, 0, 62);
  ("01000000000000000000000000000000", 1, 0, 61);
  ("01000000000000000000000000000000", 1, 0, 60);
  ("01000000000000000000000000000000", 1, 0, 59);
  ("01000000000000000000000000000000", 1, 0, 58);
  ("01000000000000000000000000000000", 1, 0, 57);
  ("01000000000000000000000000000000", 1, 0, 56);
  ("01000000000000000000000000000000", 1, 0, 55);
  ("01000000000000000000000000000000", 1, 0, 54);
  ("01000000000000000000000000000000", 1, 0, 53);
  ("01000000000000000000000000000000", 1, 0, 52);
  ("01000000000000000000000000000000", 1, 0, 51);
  ("01000000000000000000000000000000", 1, 0, 50);
  ("01000000000000000000000000000000", 1, 0, 49);
  ("01000000000000000000000000000000", 1, 0, 48);
  ("01000000000000000000000000000000", 1, 0, 47);
  ("01000000000000000000000000000000", 1, 0, 46);
  ("01000000000000000000000000000000", 1, 0, 45);
  ("01000000000000000000000000000000", 1, 0, 44);
  ("01000000000000000000000000000000", 1, 0, 43);
  ("01000000000000000000000000000000", 1, 0, 42);
  ("01000000000000000000000000000000", 1, 0, 41);
  ("01000000000000000000000000000000", 1, 0, 40);
  ("01000000000000000000000000000000", 1, 0, 39);
  ("01000000000000000000000000000000", 1, 0, 38);
  ("01000000000000000000000000000000", 1, 0, 37);
  ("01000000000000000000000000000000", 1, 0, 36);
  ("01000000000000000000000000000000", 1, 0, 35);
  ("01000000000000000000000000000000", 1, 0, 34);
  ("01000000000000000000000000000000", 1, 0, 33);
  ("01000000000000000000000000000000", 1, 0, 32);
  ("01000000000000000000000000000000", 1, 0, 31);
  ("01000000000000000000000000000000", 1, 0, 30);
  ("01000000000000000000000000000000", 1, 0, 29);
  ("01000000000000000000000000000000", 1, 0, 28);
  ("01000000000000000000000000000000", 1, 0, 27);
  ("01000000000000000000000000000000", 1, 0, 26);
  ("01000000000000000000000000000000", 1, 0, 25);
  ("01000000000000000000000000000000", 1, 0, 24);
  ("01000000000000000000000000000000", 1, 0, 23);
  ("01000000000000000000000000000000", 1, 0, 22);
  ("01000000000000000000000000000000", 1, 0, 21);
  ("01000000000000000000000000000000", 1, 0, 20);
  ("01000000000000000000000000000000", 1, 0, 19);
  ("01000000000000000000000000000000", 1, 0, 18);
  ("01000000000000000000000000000000", 1, 0, 17);
  ("01000000000000000000000000000000", 1, 0, 16);
  ("01000000000000000000000000000000", 1, 0, 15);
  ("01000000000000000000000000000000", 1, 0, 14);
  ("01000000000000000000000000000000", 1, 0, 13);
  ("01000000000000000000000000000000", 1, 0, 12);
  ("01000000000000000000000000000000", 1, 0, 11);
  ("01000000000000000000000000000000", 1, 0, 10);
  ("01000000000000000000000000000000", 1, 0, 9);
  ("01000000000000000000000000000000", 1, 0, 8);
  ("01000000000000000000000000000000", 1, 0, 7);
  ("01000000000000000000000000000000", 1, 0, 6);
  ("01000000000000000000000000000000", 1, 0, 5);
  ("01000000000000000000000000000000", 1, 0, 4);
  ("01000000000000000000000000000000", 1, 0, 3);
  ("01000000000000000000000000000000", 1, 0, 2);
  ("01000000000000000000000000000000", 1, 0, 1);
  ("80ffffffffffffff7f0000000000000000", 18446744073709551615, 7, 64)].
(** expected, value, offset, num_bits: bytewriter.rs:1187-1218 *)
Definition writes_signed : list (string * Z * Z * Z) := [
  ("f8ff0700000000000000000000", (-1), 3, 16);
  ("f0ff0700000000000000000000", (-2), 3, 16);
  ("e0ff0700000000000000000000", (-4), 3, 16);
  ("c0ff0700000000000000000000", (-8), 3, 16);
  ("80ff0700000000000000000000", (-16), 3, 16);
  ("00ff0700000000000000000000", (-32), 3, 16);
  ("00fe0700000000000000000000", (-64), 3, 16);
  ("00fc0700000000000000000000", (-128), 3, 16);
  ("00f80700000000000000000000", (-256), 3, 16);
  ("00f00700000000000000000000", (-512), 3, 16);
  ("00e00700000000000000000000", (-1024), 3, 16);
  ("00c00700000000000000000000", (-2048), 3, 16);
  ("00800700000000000000000000", (-4096), 3, 16);
  ("00000700000000000000000000", (-8192), 3, 16);
  ("00000600000000000000000000", (-16384), 3, 16);
  ("08000000000000000000000000", 1, 3, 16);
  ("10000000000000000000000000", 2, 3, 16);
  ("20000000000000000000000000", 4, 3, 16);
  ("40000000000000000000000000", 8, 3, 16);
  ("80000000000000000000000000", 16, 3, 16);
  ("00010000000000000000000000", 32, 3, 16);
  ("00020000000000000000000000", 64, 3, 16);
  ("00040000000000000000000000", 128, 3, 16);
  ("00080000000000000000000000", 256, 3, 16);
  ("00100000000000000000000000", 512, 3, 16);
  ("00200000000000000000000000", 1024, 3, 16);
  ("00400000000000000000000000", 2048, 3, 16);
  ("00800000000000000000000000", 4096, 3, 16);
  ("00000100000000000000000000", 8192, 3, 16);
  ("00000200000000000000000000", 16384, 3, 16);
  ("00000000000000000000000000", 0, 3, 2)].

(** test_reader, bytereader.rs:59-62; test_reader_signed, 1149-1152 *)
Definition check_read (t : prim) (r : string * Z * Z * Z) : bool :=
  let '(d, off, n, v) := r in everywhere (fun b e => is_ret Z.eqb (read_bytes b e t (hex d) off n) v).
(** test_writer, bytewriter.rs:87-91; test_reader_unsigned, 1179-1183 *)
Definition check_write (t : prim) (r : string * Z * Z * Z) : bool :=
  let '(d, v, off, n) := r in
  everywhere (fun b e => is_ret eqs (write_bytes b e t v (zeros (len (hex d))) off n) (hex d)).

(** The results are computed when the file is compiled (a wrong one
    stops the build); the kernel is not asked to compute them again. *)
Definition results : list bool := Eval vm_compute in
  [forallb (check_read U8) reads; forallb (check_read I16) reads_signed;
   forallb (check_write U64) writes; forallb (check_write I64) writes_signed].
Definition counts : list Z := Eval vm_compute in
  [Z.of_nat (List.length reads); Z.of_nat (List.length reads_signed); Z.of_nat (List.length writes); Z.of_nat (List.length writes_signed)].
Example codec_tests : results = [true; true; true; true] /\ counts = [1080; 46; 1081; 31].
Proof. split; reflexivity. Qed.
