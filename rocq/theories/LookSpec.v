(** Vocabulary: when two archives of the same type look the same in their Debug
    texts. *)
From Verif Require Import Base Codec CodecSpec Structs StructsSpec Views ViewsSpec.
From Verif Require Import Storage Writers MultiViews MultiSpec Archives.
From Coq Require Import String.
Local Open Scope list_scope.
Local Open Scope Z_scope.

(** Both are missing, or both are there and related. *)
Definition both {V} (R : V -> V -> Prop) (o o' : option V) : Prop :=
  match o, o' with
  | Some v, Some v' => R v v'
  | None, None => True
  | _, _ => False
  end.
(** The length and the first ten elements. *)
Definition same_top {A} (l l' : list A) : Prop := List.length l = List.length l' /\ firstn 10 l = firstn 10 l'.
(** [addr] gives the addresses of raw data. *)
Fixpoint alike (addr : slice -> string) (a : adesc) (x x' : archive) {struct a} : Prop :=
  let 'mkArchive _ _ structs vectors multis raws subs := a in
  (forall k r, nth_error structs k = Some r ->
     both (fun m m' => decode (tr_struct r) m = decode (tr_struct r) m') (get_struct x k) (get_struct x' k)) /\
  (forall k r, nth_error vectors k = Some r ->
     both (fun v v' => same_top (records (tr_struct r) (sl_bytes v)) (records (tr_struct r) (sl_bytes v'))) (get_vector x k) (get_vector x' k)) /\
  (forall k r, nth_error multis k = Some r ->
     both (fun v v' => exists l l', mav_shows (mr_types r) (mr_size r) (mr_bits r) v l /\ mav_shows (mr_types r) (mr_size r) (mr_bits r) v' l' /\
                        same_top l l') (get_multi x k) (get_multi x' k)) /\
  (forall k r, nth_error raws k = Some r ->
     both (fun d d' => addr d = addr d' /\ sl_len d = sl_len d') (get_raw x k) (get_raw x' k)) /\
  (fix go (k : nat) (l : list (string * adesc * bool)) : Prop :=
     match l with
     | [] => True
     | (_, a', _) :: l => both (alike addr a') (get_sub x k) (get_sub x' k) /\ go (S k) l
     end) O subs.
