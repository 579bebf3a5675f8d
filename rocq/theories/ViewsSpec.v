(** Specification of arrays of structs: lists of records. *)
From Verif Require Import Base Codec CodecSpec Structs StructsSpec Views.

(** Element [i] of a byte string divided into elements of [n] bytes. *)
Definition chunk (n : Z) (bytes : list Z) (i : nat) : list Z :=
  firstn (Z.to_nat n) (skipn (i * Z.to_nat n) bytes).

(** The records stored in a byte string (an incomplete rest is ignored). *)
Definition records (s : sdesc) (bytes : list Z) : list (list Z) :=
  map (fun i => decode s (chunk (s_size s) bytes i))
    (seq 0 (Z.to_nat (len bytes / s_size s))).

(** What a sequence of vector operations means for a list of records. *)
Fixpoint updl {A} (i : nat) (f : A -> A) (l : list A) : list A :=
  match l, i with
  | [], _ => []
  | x :: t, O => f x :: t
  | x :: t, S k => x :: updl k f t
  end.

Definition list_step (s : sdesc) (o : vec_op) (l : list (list Z)) : list (list Z) :=
  match o with
  | VGrow sets => l ++ [apply_sets sets (zero_record s)]
  | VSet i sets => updl (Z.to_nat i) (apply_sets sets) l
  | VReserve _ => l
  end.

(** Valid uses: in-range values, existing indices, no capacity overflow.
    [n] is the current number of elements. *)
Fixpoint vec_ops_ok (s : sdesc) (ops : list vec_op) (n : Z) : Prop :=
  match ops with
  | [] => True
  | VGrow sets :: r =>
      sets_ok s sets /\ (n + 1) * s_size s + 8 <= isize_max /\ vec_ops_ok s r (n + 1)
  | VSet i sets :: r => 0 <= i < n /\ sets_ok s sets /\ vec_ops_ok s r n
  | VReserve a :: r =>
      0 <= a /\ (n + a) * s_size s + 16 <= isize_max /\ vec_ops_ok s r n
  end.

(** A double-ended queue: what next (false) and next_back (true) return. *)
Fixpoint deque_run {A} (calls : list bool) (l : list A) : list (option A) * list A :=
  match calls with
  | [] => ([], l)
  | false :: r =>
      match l with
      | [] => let p := deque_run r [] in (None :: fst p, snd p)
      | x :: t => let p := deque_run r t in (Some x :: fst p, snd p)
      end
  | true :: r =>
      match rev l with
      | [] => let p := deque_run r [] in (None :: fst p, snd p)
      | x :: t => let p := deque_run r (rev t) in (Some x :: fst p, snd p)
      end
  end.

(** First and one-past-last index of a range over [n] elements. *)
Definition range_lo (lo : bound) : Z :=
  match lo with Included i => i | Excluded i => i + 1 | Unbounded => 0 end.
Definition range_hi (hi : bound) (n : Z) : Z :=
  match hi with Included i => i + 1 | Excluded i => i | Unbounded => n end.
Definition bound_usize (x : bound) : Prop :=
  match x with Included i | Excluded i => is_usize i | Unbounded => True end.

(** [n] elements from position [a]. *)
Definition sublist {A} (a n : Z) (l : list A) : list A :=
  firstn (Z.to_nat n) (skipn (Z.to_nat a) l).

(** A view lying inside a slice, and an element handle with all its bytes
    inside a slice. *)
Definition view_inside (v w : slice) : Prop :=
  exists p, 0 <= p /\ p + sl_len w <= sl_len v /\ 0 <= sl_len w /\
    sl_mem w = skipn (Z.to_nat p) (sl_mem v).
Definition handle_inside (s : sdesc) (v : slice) (m : list Z) : Prop :=
  exists p, 0 <= p /\ p + s_size s <= sl_len v /\ m = skipn (Z.to_nat p) (sl_mem v).
Definition call_usize (c : view_call) : Prop :=
  match c with
  | CAt i => is_usize i
  | CSlice lo hi => bound_usize lo /\ bound_usize hi
  | _ => True
  end.

(** A handle showing the record [r]. *)
Definition shows (b : build) (e : endian) (s : sdesc) (m : list Z) (r : list Z) : Prop :=
  s_size s <= len m /\ get_all b e s m = Ret r.
Definition shows_opt (b : build) (e : endian) (s : sdesc) (m r : option (list Z)) : Prop :=
  match m, r with
  | Some m, Some r => shows b e s m r
  | None, None => True
  | _, _ => False
  end.
