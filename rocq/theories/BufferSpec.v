(** Specification of how much a writer keeps in memory; independent of the
    model of the writers. *)
From Coq Require Import ZArith List.
Import ListNotations.
Local Open Scope Z_scope.

(** A buffer starts with 8 bytes.  Before an element of [size] bytes is added to
    it, it is emptied if it is longer than [limit]: it takes [capacity] elements. *)
Definition capacity (limit size : Z) : Z := (limit - 8) / size + 1.

(** How many of [n] elements are still in the buffer. *)
Definition pending (limit size n : Z) : Z :=
  if n =? 0 then 0 else (n - 1) mod capacity limit size + 1.

(** Sizes of the last entries of a list that are still in the buffer, if entries
    have different sizes: it was not longer than [limit] before the last one. *)
Definition sum (l : list Z) : Z := fold_right Z.add 0 l.
Definition still_pending (limit : Z) (l : list Z) : Prop :=
  forall front last, l = front ++ [last] -> 8 + sum front <= limit.
