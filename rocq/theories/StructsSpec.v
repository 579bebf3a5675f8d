(** Specification of structs: a struct is a record of independent field values. *)
From Verif Require Import Base Codec CodecSpec Structs.

(** A field that fits its type, lies inside the struct and has a layout the
    codec supports.  A one-bit signed field cannot hold -1 (see C51). *)
Definition wf_field (size : Z) (f : field) : Prop :=
  0 <= f_off f /\ 1 <= f_bits f <= width (f_prim f) /\
  f_off f + f_bits f <= 8 * size /\
  layout_ok (f_off f) (f_bits f) /\
  (is_signed (f_prim f) = true -> 2 <= f_bits f).

(** Two fields occupy disjoint bits. *)
Definition disjoint (f g : field) : Prop :=
  f_off f + f_bits f <= f_off g \/ f_off g + f_bits g <= f_off f.

Definition wf_struct (s : sdesc) : Prop :=
  0 < s_size s /\ Forall (wf_field (s_size s)) (s_fields s) /\
  (forall i j, (i < length (s_fields s))%nat -> (j < length (s_fields s))%nat -> i <> j ->
     disjoint (field_nth s i) (field_nth s j)).

(** A record: the values of all fields in order. *)
Definition decode (s : sdesc) (m : list Z) : list Z :=
  map (fun f => field_value (f_prim f) m (f_off f) (f_bits f)) (s_fields s).

(** Assigning position [i] of a record. *)
Fixpoint upd (i : nat) (v : Z) (r : list Z) : list Z :=
  match r, i with
  | [], _ => []
  | _ :: t, O => v :: t
  | x :: t, S k => x :: upd k v t
  end.

(** A sequence of assignments. *)
Definition apply_sets (ops : list (nat * Z)) (r : list Z) : list Z :=
  fold_left (fun r o => upd (fst o) (snd o) r) ops r.

(** Assignments that name an existing field and an in-range value. *)
Definition sets_ok (s : sdesc) (ops : list (nat * Z)) : Prop :=
  Forall (fun o => (fst o < length (s_fields s))%nat /\
     in_range (f_prim (field_nth s (fst o))) (f_bits (field_nth s (fst o))) (snd o)) ops.

(** The record a zero-initialised struct holds. *)
Definition zero_record (s : sdesc) : list Z := map (fun _ => 0) (s_fields s).

(** The last value a sequence of setter calls gives to field [i]. *)
Fixpoint last_set (i : nat) (ops : list (nat * Z)) : option Z :=
  match ops with
  | [] => None
  | (j, v) :: r =>
      match last_set i r with
      | Some w => Some w
      | None => if Nat.eqb j i then Some v else None
      end
  end.
