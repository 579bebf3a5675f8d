(** Model of src/arrayview.rs (ArrayView, ArrayViewIter) and of Vector in
    src/vector.rs. *)
From Verif Require Import Base Codec Structs.

(** * ArrayView, src/arrayview.rs:53-59: a byte slice. *)
Definition view := slice.

(** ArrayView::len, src/arrayview.rs:76-78 (integer division). *)
Definition av_len (s : sdesc) (v : view) : Z := sl_len v / s_size s.
(** is_empty, src/arrayview.rs:81-83 *)
Definition av_is_empty (s : sdesc) (v : view) : bool := av_len s v =? 0.
(** data_index, src/arrayview.rs:126-128 *)
Definition data_index (b : build) (s : sdesc) (i : Z) : outcome Z := umul b i (s_size s).

(** at, src/arrayview.rs:91-95.  The result is the handle: the memory from the
    element on. *)
Definition av_at (b : build) (s : sdesc) (v : view) (i : Z) : outcome (list Z) :=
  index <- data_index b s i ;;
  stop <- uadd b index (s_size s) ;;
  if stop <=? sl_len v then
    d <- slice_from v index ;;
    Ret (sl_mem d)
  else Panic.

(** std::ops::Bound *)
Inductive bound := Included (i : Z) | Excluded (i : Z) | Unbounded.

(** slice, src/arrayview.rs:102-114 *)
Definition av_slice (b : build) (s : sdesc) (v : view) (lo hi : bound) : outcome view :=
  data_start <- match lo with
                | Included i => data_index b s i
                | Excluded i => k <- uadd b i 1 ;; data_index b s k
                | Unbounded => Ret 0
                end ;;
  data_end <- match hi with
              | Included i => k <- uadd b i 1 ;; data_index b s k
              | Excluded i => data_index b s i
              | Unbounded => Ret (sl_len v)
              end ;;
  slice_range v data_start data_end.

(** as_bytes, src/arrayview.rs:122-124 *)
Definition av_as_bytes (v : view) : slice := v.

(** ArrayViewIter, src/arrayview.rs:208-213: just a view.
    next, src/arrayview.rs:220-228 *)
Definition av_next (b : build) (s : sdesc) (v : view) : outcome (option (list Z) * view) :=
  if negb (av_is_empty s v) then
    element <- av_at b s v 0 ;;
    v' <- av_slice b s v (Included 1) Unbounded ;;
    Ret (Some element, v')
  else Ret (None, v).

(** next_back, src/arrayview.rs:244-253 *)
Definition av_next_back (b : build) (s : sdesc) (v : view) : outcome (option (list Z) * view) :=
  if negb (av_is_empty s v) then
    last_pos <- usub b (av_len s v) 1 ;;
    element <- av_at b s v last_pos ;;
    v' <- av_slice b s v Unbounded (Excluded last_pos) ;;
    Ret (Some element, v')
  else Ret (None, v).

(** ExactSizeIterator::len, src/arrayview.rs:235-237 *)
Definition av_iter_len (s : sdesc) (v : view) : Z := av_len s v.
(** Iterator::size_hint is not overridden (src/arrayview.rs:215-229), so it is
    the default of core::iter::Iterator: (0, None). *)
Definition av_size_hint (s : sdesc) (v : view) : Z * option Z := (0, None).

(** A finite sequence of iterator calls: false = next, true = next_back. *)
Fixpoint av_iter_run (b : build) (s : sdesc) (calls : list bool) (v : view)
    : outcome (list (option (list Z)) * view) :=
  match calls with
  | [] => Ret ([], v)
  | c :: r =>
      x <- (if c then av_next_back b s v else av_next b s v) ;;
      y <- av_iter_run b s r (snd x) ;;
      Ret (fst x :: fst y, snd y)
  end.

(** [iter.take(n).collect()] *)
Fixpoint av_take (b : build) (s : sdesc) (n : nat) (v : view) : outcome (list (list Z)) :=
  match n with
  | O => Ret []
  | S k =>
      x <- av_next b s v ;;
      match fst x with
      | None => Ret []
      | Some m => r <- av_take b s k (snd x) ;; Ret (m :: r)
      end
  end.

(** src/lib.rs: DEBUG_PREVIEW_LEN = 10 *)
Definition DEBUG_PREVIEW_LEN : Z := 10.

(** Evaluating a list of items with all their getters, as their Debug
    implementation does. *)
Fixpoint map_outcome {A B} (f : A -> outcome B) (l : list A) : outcome (list B) :=
  match l with
  | [] => Ret []
  | x :: r => y <- f x ;; ys <- map_outcome f r ;; Ret (y :: ys)
  end.

(** debug_format, src/arrayview.rs:140-162: the length, the previewed elements
    (field values) and whether "..." follows. *)
Definition av_debug (b : build) (e : endian) (s : sdesc) (v : view)
    : outcome (Z * list (list Z) * bool) :=
  let l := av_iter_len s v in
  preview <- av_take b s (Z.to_nat DEBUG_PREVIEW_LEN) v ;;
  recs <- map_outcome (get_all b e s) preview ;;
  Ret (l, recs, negb (l <=? DEBUG_PREVIEW_LEN)).

(** * Vector, src/vector.rs:64-67: the state is the byte vector [data]. *)

(** Allocation of more than isize::MAX bytes panics (capacity overflow). *)
Definition vec_resize (data : list Z) (n : Z) : outcome (list Z) :=
  if n <=? isize_max then
    Ret (firstn (Z.to_nat n) data ++ zeros (n - len data))
  else Panic.

(** calc_size, src/vector.rs:159-161 *)
Definition calc_size (b : build) (s : sdesc) (n : Z) : outcome Z :=
  k <- umul b n (s_size s) ;; uadd b k PADDING_SIZE.

(** with_len, src/vector.rs:83-89; new is with_len(0), src/vector.rs:75-77 *)
Definition vec_with_len (b : build) (s : sdesc) (n : Z) : outcome (list Z) :=
  size <- calc_size b s n ;; vec_resize [] size.

(** size_in_bytes, src/vector.rs:93-95 *)
Definition vec_size_in_bytes (b : build) (data : list Z) : outcome Z :=
  usub b (len data) PADDING_SIZE.
(** len, src/vector.rs:99-101 *)
Definition vec_len (b : build) (s : sdesc) (data : list Z) : outcome Z :=
  n <- vec_size_in_bytes b data ;; Ret (n / s_size s).
(** is_empty, src/vector.rs:105-107 *)
Definition vec_is_empty (b : build) (s : sdesc) (data : list Z) : outcome bool :=
  n <- vec_len b s data ;; Ret (n =? 0).

(** reserve, src/vector.rs:115-118: no effect on the contents. *)
Definition vec_reserve (b : build) (s : sdesc) (data : list Z) (additional : Z)
    : outcome (list Z) :=
  l <- vec_len b s data ;;
  n <- uadd b l additional ;;
  c <- calc_size b s n ;;
  sz <- vec_size_in_bytes b data ;;
  add <- usub b c sz ;;
  if len data + add <=? isize_max then Ret data else Panic.

(** as_view / as_bytes, src/vector.rs:122-130 *)
Definition vec_as_view (b : build) (data : list Z) : outcome view :=
  n <- vec_size_in_bytes b data ;; slice_range (whole data) 0 n.

(** grow, src/vector.rs:135-140.  Returns the new data and the position the
    handle points to. *)
Definition vec_grow (b : build) (s : sdesc) (data : list Z) : outcome (list Z * Z) :=
  n <- uadd b (len data) (s_size s) ;;
  data <- vec_resize data n ;;
  l <- vec_len b s data ;;
  last_index <- usub b l 1 ;;
  p <- umul b last_index (s_size s) ;;
  _ <- slice_from (whole data) p ;;
  Ret (data, p).

(** at, src/vector.rs:145-147: the handle is the memory from the element on. *)
Definition vec_at (b : build) (s : sdesc) (data : list Z) (i : Z) : outcome (list Z) :=
  p <- umul b i (s_size s) ;;
  d <- slice_from (whole data) p ;;
  Ret (sl_mem d).

(** at_mut, src/vector.rs:152-154: position of the handle. *)
Definition vec_at_mut (b : build) (s : sdesc) (data : list Z) (i : Z) : outcome Z :=
  p <- umul b i (s_size s) ;;
  _ <- slice_from (whole data) p ;;
  Ret p.

(** Setter calls through a handle at position [p] of a byte vector. *)
Definition through_handle (b : build) (e : endian) (s : sdesc) (ops : list (nat * Z))
    (data : list Z) (p : Z) : outcome (list Z) :=
  m <- run_sets b e s ops (skipn (Z.to_nat p) data) ;;
  Ret (firstn (Z.to_nat p) data ++ m).

(** A use of a vector: the handle returned by grow/at_mut borrows the vector,
    so its setters run before the next call. *)
Inductive vec_op :=
| VGrow (sets : list (nat * Z))
| VSet (i : Z) (sets : list (nat * Z))
| VReserve (additional : Z).

Definition vec_step (b : build) (e : endian) (s : sdesc) (o : vec_op) (data : list Z)
    : outcome (list Z) :=
  match o with
  | VGrow sets => x <- vec_grow b s data ;; through_handle b e s sets (fst x) (snd x)
  | VSet i sets => p <- vec_at_mut b s data i ;; through_handle b e s sets data p
  | VReserve n => vec_reserve b s data n
  end.

Fixpoint vec_run (b : build) (e : endian) (s : sdesc) (ops : list vec_op) (data : list Z)
    : outcome (list Z) :=
  match ops with
  | [] => Ret data
  | o :: r => d <- vec_step b e s o data ;; vec_run b e s r d
  end.

(** An arbitrary sequence of calls on a view, its slices and iterators; every
    call acts on the view left by the previous one.  Returns all element
    handles handed out and the final view. *)
Inductive view_call := CAt (i : Z) | CSlice (lo hi : bound) | CNext | CNextBack.
Definition view_step (b : build) (s : sdesc) (c : view_call) (v : view)
    : outcome (option (list Z) * view) :=
  match c with
  | CAt i => m <- av_at b s v i ;; Ret (Some m, v)
  | CSlice lo hi => w <- av_slice b s v lo hi ;; Ret (None, w)
  | CNext => av_next b s v
  | CNextBack => av_next_back b s v
  end.
Fixpoint view_calls (b : build) (s : sdesc) (calls : list view_call) (v : view)
    : outcome (list (list Z) * view) :=
  match calls with
  | [] => Ret ([], v)
  | c :: r =>
      x <- view_step b s c v ;;
      y <- view_calls b s r (snd x) ;;
      Ret (match fst x with Some m => m :: fst y | None => fst y end, snd y)
  end.
