(** Model of src/multiarrayview.rs and of VariadicStruct::create in
    define_variadic_struct! (src/archive.rs). *)
From Verif Require Import Base Codec Structs Views Writers.
Local Open Scope list_scope.
Local Open Scope Z_scope.

(** MultiArrayView, multiarrayview.rs:16-24 *)
Record mav := mkMav { ma_index : view; ma_data : slice }.

(** An element of a bucket: which alternative ($name::$type), and its handle. *)
Definition item : Type := nat * list Z.

(** The arm of the match in create, archive.rs:387-394: the first with the
    given type index. *)
Fixpoint find_tag (ts : vdesc) (tag : Z) : option nat :=
  match ts with
  | [] => None
  | (g, _) :: r => if tag =? g then Some O else option_map S (find_tag r tag)
  end.

(** [d[i]]: panics if out of bounds. *)
Definition slice_get (d : slice) (i : Z) : outcome Z :=
  if (0 <=? i) && (i <? sl_len d) then mem_get (sl_mem d) i else Panic.

(** MultiArrayViewItemIter::next, multiarrayview.rs:114-124; the iterator is
    the slice [data].  size_in_bytes is archive.rs:355-361. *)
Definition item_next (ts : vdesc) (d : slice) : outcome (option item * slice) :=
  if negb (sl_len d =? 0) then
    tag <- slice_get d 0 ;;
    d1 <- slice_from d 1 ;;
    match find_tag ts tag with
    | None => Panic
    | Some t =>
        d2 <- slice_from d1 (s_size (v_struct ts t)) ;;
        Ret (Some (t, sl_mem d1), d2)
    end
  else Ret (None, d).

(** [k] calls of next. *)
Fixpoint item_run (ts : vdesc) (k : nat) (d : slice) : outcome (list (option item) * slice) :=
  match k with
  | O => Ret ([], d)
  | S k =>
      x <- item_next ts d ;;
      y <- item_run ts k (snd x) ;;
      Ret (fst x :: fst y, snd y)
  end.

(** Iterator::collect.  Every call of next consumes a byte, so the fuel
    S (length of the slice) is never used up; running out gives UB. *)
Fixpoint item_collect_fuel (ts : vdesc) (fuel : nat) (d : slice) : outcome (list item) :=
  match fuel with
  | O => UB
  | S k =>
      x <- item_next ts d ;;
      match fst x with
      | None => Ret []
      | Some i => r <- item_collect_fuel ts k (snd x) ;; Ret (i :: r)
      end
  end.
Definition item_collect (ts : vdesc) (d : slice) : outcome (list item) :=
  item_collect_fuel ts (S (Z.to_nat (sl_len d))) d.

(** All getters of an item. *)
Definition get_item (b : build) (e : endian) (ts : vdesc) (i : item) : outcome (nat * list Z) :=
  r <- get_all b e (v_struct ts (fst i)) (snd i) ;; Ret (fst i, r).

Section Env.
(** Build, byte order, size and width of the index type. *)
Variables (b : build) (e : endian) (size bits : Z).

(** len, multiarrayview.rs:46-49 *)
Definition mav_len (v : mav) : outcome Z :=
  usub b (av_len (index_struct size bits) (ma_index v)) 1.
(** is_empty, multiarrayview.rs:52-54 *)
Definition mav_is_empty (v : mav) : outcome bool := n <- mav_len v ;; Ret (n =? 0).

(** The index entry at a position. *)
Definition mav_index_at (v : mav) (i : Z) : outcome Z :=
  m <- av_at b (index_struct size bits) (ma_index v) i ;;
  get_index b e bits m.

(** at, multiarrayview.rs:62-69 *)
Definition mav_at (v : mav) (i : Z) : outcome slice :=
  start <- mav_index_at v i ;;
  j <- uadd b i 1 ;;
  stop <- mav_index_at v j ;;
  slice_range (ma_data v) start stop.

(** slice, multiarrayview.rs:76-89 *)
Definition mav_slice (v : mav) (lo hi : bound) : outcome mav :=
  index_start <- match lo with
                 | Included i => Ret i
                 | Excluded i => uadd b i 1
                 | Unbounded => Ret 0
                 end ;;
  index_end <- match hi with
               | Included i => uadd b i 2
               | Excluded i => uadd b i 1
               | Unbounded => Ret (av_len (index_struct size bits) (ma_index v))
               end ;;
  i <- av_slice b (index_struct size bits) (ma_index v) (Included index_start) (Excluded index_end) ;;
  Ret (mkMav i (ma_data v)).

(** MultiArrayViewIter, multiarrayview.rs:210-216: just a view.
    next, multiarrayview.rs:234-242 *)
Definition mav_next (v : mav) : outcome (option slice * mav) :=
  x <- mav_is_empty v ;;
  if negb x then
    element <- mav_at v 0 ;;
    v' <- mav_slice v (Included 1) Unbounded ;;
    Ret (Some element, v')
  else Ret (None, v).

(** next_back, multiarrayview.rs:250-259 *)
Definition mav_next_back (v : mav) : outcome (option slice * mav) :=
  x <- mav_is_empty v ;;
  if negb x then
    n <- mav_len v ;;
    last_pos <- usub b n 1 ;;
    element <- mav_at v last_pos ;;
    v' <- mav_slice v Unbounded (Excluded last_pos) ;;
    Ret (Some element, v')
  else Ret (None, v).

(** ExactSizeIterator::len, multiarrayview.rs:275-277; size_hint is the default
    (0, None) as it is not overridden. *)
Definition mav_iter_len (v : mav) : outcome Z := mav_len v.
Definition mav_size_hint (v : mav) : Z * option Z := (0, None).

(** A finite sequence of iterator calls: false = next, true = next_back. *)
Fixpoint mav_iter_run (calls : list bool) (v : mav) : outcome (list (option slice) * mav) :=
  match calls with
  | [] => Ret ([], v)
  | c :: r =>
      x <- (if c then mav_next_back v else mav_next v) ;;
      y <- mav_iter_run r (snd x) ;;
      Ret (fst x :: fst y, snd y)
  end.

(** [iter.take(n).map(|item| item.collect()).collect()] *)
Fixpoint mav_take (ts : vdesc) (n : nat) (v : mav) : outcome (list (list item)) :=
  match n with
  | O => Ret []
  | S k =>
      x <- mav_next v ;;
      match fst x with
      | None => Ret []
      | Some d =>
          l <- item_collect ts d ;;
          r <- mav_take ts k (snd x) ;;
          Ret (l :: r)
      end
  end.

(** debug_format, multiarrayview.rs:143-170: the length, the previewed buckets
    (alternatives and field values) and whether "..." follows. *)
Definition mav_debug (ts : vdesc) (v : mav) : outcome (Z * list (list (nat * list Z)) * bool) :=
  l <- mav_iter_len v ;;
  preview <- mav_take ts (Z.to_nat DEBUG_PREVIEW_LEN) v ;;
  vals <- map_outcome (map_outcome (get_item b e ts)) preview ;;
  Ret (l, vals, negb (l <=? DEBUG_PREVIEW_LEN)).

(** An arbitrary sequence of calls on a view, its slices and iterators; every
    call acts on the view left by the previous one.  Returns all buckets handed
    out and the final view. *)
Definition mav_step (c : view_call) (v : mav) : outcome (option slice * mav) :=
  match c with
  | CAt i => m <- mav_at v i ;; Ret (Some m, v)
  | CSlice lo hi => w <- mav_slice v lo hi ;; Ret (None, w)
  | CNext => mav_next v
  | CNextBack => mav_next_back v
  end.
Fixpoint mav_calls (calls : list view_call) (v : mav) : outcome (list slice * mav) :=
  match calls with
  | [] => Ret ([], v)
  | c :: r =>
      x <- mav_step c v ;;
      y <- mav_calls r (snd x) ;;
      Ret (match fst x with Some m => m :: fst y | None => fst y end, snd y)
  end.
End Env.
