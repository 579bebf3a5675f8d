(** Base definitions shared by the whole model: outcomes of Rust computations,
    machine integers, raw memory and byte slices. *)
From Coq Require Export List ZArith Lia Bool.
From Coq Require Export ZifyBool ZifyNat.
Export ListNotations.
Global Open Scope Z_scope.

Global Arguments Z.mul : simpl never.
Global Arguments Z.add : simpl never.
Global Arguments Z.sub : simpl never.
Global Arguments Z.opp : simpl never.
Global Arguments Z.pow : simpl never.
Global Arguments Z.div : simpl never.
Global Arguments Z.modulo : simpl never.
Global Arguments Z.of_nat : simpl never.
Global Arguments Z.to_nat : simpl never.
Global Arguments Z.leb : simpl never.
Global Arguments Z.ltb : simpl never.
Global Arguments Z.eqb : simpl never.

(** Outcome of running a piece of Rust code.
    - [Ret a]: returns normally with [a];
    - [Panic]: a Rust panic (assert!, slice index, arithmetic overflow in a
      build with overflow checks, explicit panic!);
    - [UB]: undefined behaviour: a raw pointer access outside of the allocation;
    - [Crash]: the process was killed (only produced by injected faults). *)
Inductive outcome (A : Type) : Type :=
| Ret (a : A)
| Panic
| UB
| Crash.
Arguments Ret {A} a.
Arguments Panic {A}.
Arguments UB {A}.
Arguments Crash {A}.

Definition obind {A B} (x : outcome A) (k : A -> outcome B) : outcome B :=
  match x with
  | Ret a => k a
  | Panic => Panic
  | UB => UB
  | Crash => Crash
  end.

Definition omap {A B} (f : A -> B) (x : outcome A) : outcome B :=
  obind x (fun a => Ret (f a)).

Notation "x <- a ;; b" := (obind a (fun x => b))
  (at level 61, a at next level, right associativity).

(** Build profile: [Debug] has overflow checks and debug assertions enabled,
    [Release] has neither (rustc defaults). *)
Inductive build := Debug | Release.

Definition usize_limit : Z := 2 ^ 64.

(** [usize]/[u64] addition, subtraction and multiplication with the overflow
    behaviour of the build profile (64-bit target). *)
Definition wrap_or_panic (b : build) (x : Z) : outcome Z :=
  if (0 <=? x) && (x <? usize_limit) then Ret x
  else match b with Debug => Panic | Release => Ret (x mod usize_limit) end.
Definition uadd (b : build) (x y : Z) : outcome Z := wrap_or_panic b (x + y).
Definition usub (b : build) (x y : Z) : outcome Z := wrap_or_panic b (x - y).
Definition umul (b : build) (x y : Z) : outcome Z := wrap_or_panic b (x * y).

(** A value a Rust program can hold in a [usize]. *)
Definition is_usize (x : Z) : Prop := 0 <= x < usize_limit.

(** Bytes and buffers. *)
Definition is_byte (x : Z) : Prop := 0 <= x < 256.
Definition bytes_ok (l : list Z) : Prop := Forall is_byte l.

Definition len (l : list Z) : Z := Z.of_nat (length l).

(** Raw memory access through a pointer [p]: the memory reachable through [p]
    is the list of bytes from [p] to the end of the allocation. *)
Definition mem_get (m : list Z) (i : Z) : outcome Z :=
  if (0 <=? i) && (i <? len m) then Ret (nth (Z.to_nat i) m 0) else UB.

Definition mem_read (m : list Z) (pos n : Z) : outcome (list Z) :=
  if (0 <=? pos) && (0 <=? n) && (pos + n <=? len m)
  then Ret (firstn (Z.to_nat n) (skipn (Z.to_nat pos) m))
  else UB.

Definition mem_write (m : list Z) (pos : Z) (l : list Z) : outcome (list Z) :=
  if (0 <=? pos) && (pos + len l <=? len m)
  then Ret (firstn (Z.to_nat pos) m ++ l ++ skipn (Z.to_nat pos + length l) m)
  else UB.

(** A byte slice [&[u8]]: the bytes from its start to the end of the
    underlying allocation, and the length of the slice itself. *)
Record slice := mkSlice { sl_mem : list Z; sl_len : Z }.

(** Rust allocations have at most isize::MAX bytes. *)
Definition isize_max : Z := 2 ^ 63 - 1.

Definition slice_ok (s : slice) : Prop :=
  0 <= sl_len s <= len (sl_mem s) /\ sl_len s <= isize_max /\ bytes_ok (sl_mem s).

(** The bytes the slice denotes. *)
Definition sl_bytes (s : slice) : list Z := firstn (Z.to_nat (sl_len s)) (sl_mem s).

(** [&s[a..b]]: panics unless a <= b <= len (core::slice::index). *)
Definition slice_range (s : slice) (a b : Z) : outcome slice :=
  if (0 <=? a) && (a <=? b) && (b <=? sl_len s)
  then Ret (mkSlice (skipn (Z.to_nat a) (sl_mem s)) (b - a))
  else Panic.

(** [&s[a..]] *)
Definition slice_from (s : slice) (a : Z) : outcome slice :=
  slice_range s a (sl_len s).

(** A whole allocation as a slice. *)
Definition whole (l : list Z) : slice := mkSlice l (len l).

Definition zeros (n : Z) : list Z := repeat 0 (Z.to_nat n).

(** src/memory.rs:1-3: [SizeType = u64], [PADDING_SIZE = 8]. *)
Definition PADDING_SIZE : Z := 8.
Definition SIZE_OF_SIZE_TYPE : Z := 8.
