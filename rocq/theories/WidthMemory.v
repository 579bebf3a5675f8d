(** Views and vectors in memory on a target whose [usize] has [W] bits (cf.
    Width.v).  The functions are those of Views.v and MultiViews.v. *)
From Verif Require Import Base Codec Structs Views MultiViews Writers Storage Width WidthVectors.
Local Open Scope list_scope.
Local Open Scope Z_scope.

Section Width.
Variable W : Z.

(** * ArrayView *)
(** slice, src/arrayview.rs:102-114 *)
Definition av_slice_w (b : build) (s : sdesc) (v : view) (lo hi : bound) : outcome view :=
  data_start <- match lo with
                | Included i => umul_w W b i (s_size s)
                | Excluded i => k <- uadd_w W b i 1 ;; umul_w W b k (s_size s)
                | Unbounded => Ret 0
                end ;;
  data_end <- match hi with
              | Included i => k <- uadd_w W b i 1 ;; umul_w W b k (s_size s)
              | Excluded i => umul_w W b i (s_size s)
              | Unbounded => Ret (sl_len v)
              end ;;
  slice_range v data_start data_end.
(** next, src/arrayview.rs:220-228 *)
Definition av_next_w (b : build) (s : sdesc) (v : view) : outcome (option (list Z) * view) :=
  if negb (av_is_empty s v) then
    element <- av_at_w W b s v 0 ;;
    v' <- av_slice_w b s v (Included 1) Unbounded ;;
    Ret (Some element, v')
  else Ret (None, v).
(** next_back, src/arrayview.rs:244-253 *)
Definition av_next_back_w (b : build) (s : sdesc) (v : view) : outcome (option (list Z) * view) :=
  if negb (av_is_empty s v) then
    last_pos <- usub_w W b (av_len s v) 1 ;;
    element <- av_at_w W b s v last_pos ;;
    v' <- av_slice_w b s v Unbounded (Excluded last_pos) ;;
    Ret (Some element, v')
  else Ret (None, v).
(** Any calls, as [view_calls]. *)
Definition view_step_w (b : build) (s : sdesc) (c : view_call) (v : view) : outcome (option (list Z) * view) :=
  match c with
  | CAt i => m <- av_at_w W b s v i ;; Ret (Some m, v)
  | CSlice lo hi => w <- av_slice_w b s v lo hi ;; Ret (None, w)
  | CNext => av_next_w b s v
  | CNextBack => av_next_back_w b s v
  end.
Fixpoint view_calls_w (b : build) (s : sdesc) (calls : list view_call) (v : view) : outcome (list (list Z) * view) :=
  match calls with
  | [] => Ret ([], v)
  | c :: r =>
      x <- view_step_w b s c v ;;
      y <- view_calls_w b s r (snd x) ;;
      Ret (match fst x with Some m => m :: fst y | None => fst y end, snd y)
  end.

(** * MultiArrayView *)
Section Multi.
Variables (b : build) (e : endian) (size bits : Z).
(** len, multiarrayview.rs:46-49 *)
Definition mav_len_w (v : mav) : outcome Z :=
  usub_w W b (av_len (index_struct size bits) (ma_index v)) 1.
(** is_empty, multiarrayview.rs:52-54 *)
Definition mav_is_empty_w (v : mav) : outcome bool := n <- mav_len_w v ;; Ret (n =? 0).
(** slice, multiarrayview.rs:76-89 *)
Definition mav_slice_w (v : mav) (lo hi : bound) : outcome mav :=
  index_start <- match lo with
                 | Included i => Ret i
                 | Excluded i => uadd_w W b i 1
                 | Unbounded => Ret 0
                 end ;;
  index_end <- match hi with
               | Included i => uadd_w W b i 2
               | Excluded i => uadd_w W b i 1
               | Unbounded => Ret (av_len (index_struct size bits) (ma_index v))
               end ;;
  i <- av_slice_w b (index_struct size bits) (ma_index v) (Included index_start) (Excluded index_end) ;;
  Ret (mkMav i (ma_data v)).
(** next, multiarrayview.rs:234-242 *)
Definition mav_next_w (v : mav) : outcome (option slice * mav) :=
  x <- mav_is_empty_w v ;;
  if negb x then
    element <- mav_at_w W b e size bits v 0 ;;
    v' <- mav_slice_w v (Included 1) Unbounded ;;
    Ret (Some element, v')
  else Ret (None, v).
(** next_back, multiarrayview.rs:250-259 *)
Definition mav_next_back_w (v : mav) : outcome (option slice * mav) :=
  x <- mav_is_empty_w v ;;
  if negb x then
    n <- mav_len_w v ;;
    last_pos <- usub_w W b n 1 ;;
    element <- mav_at_w W b e size bits v last_pos ;;
    v' <- mav_slice_w v Unbounded (Excluded last_pos) ;;
    Ret (Some element, v')
  else Ret (None, v).
(** Any calls, as [mav_calls]. *)
Definition mav_step_w (c : view_call) (v : mav) : outcome (option slice * mav) :=
  match c with
  | CAt i => m <- mav_at_w W b e size bits v i ;; Ret (Some m, v)
  | CSlice lo hi => w <- mav_slice_w v lo hi ;; Ret (None, w)
  | CNext => mav_next_w v
  | CNextBack => mav_next_back_w v
  end.
Fixpoint mav_calls_w (calls : list view_call) (v : mav) : outcome (list slice * mav) :=
  match calls with
  | [] => Ret ([], v)
  | c :: r =>
      x <- mav_step_w c v ;;
      y <- mav_calls_w r (snd x) ;;
      Ret (match fst x with Some m => m :: fst y | None => fst y end, snd y)
  end.
End Multi.

(** * Vector *)
(** calc_size, src/vector.rs:159-161 *)
Definition calc_size_w (b : build) (s : sdesc) (n : Z) : outcome Z :=
  k <- umul_w W b n (s_size s) ;; uadd_w W b k PADDING_SIZE.
(** with_len, src/vector.rs:83-89 *)
Definition vec_with_len_w (b : build) (s : sdesc) (n : Z) : outcome (list Z) :=
  size <- calc_size_w b s n ;; vec_resize_w W [] size.
(** size_in_bytes and len, src/vector.rs:93-101 *)
Definition vec_size_in_bytes_w (b : build) (data : list Z) : outcome Z :=
  usub_w W b (len data) PADDING_SIZE.
Definition vec_len_w (b : build) (s : sdesc) (data : list Z) : outcome Z :=
  n <- vec_size_in_bytes_w b data ;; Ret (n / s_size s).
(** reserve, src/vector.rs:115-118 *)
Definition vec_reserve_w (b : build) (s : sdesc) (data : list Z) (additional : Z) : outcome (list Z) :=
  l <- vec_len_w b s data ;;
  n <- uadd_w W b l additional ;;
  c <- calc_size_w b s n ;;
  sz <- vec_size_in_bytes_w b data ;;
  add <- usub_w W b c sz ;;
  if len data + add <=? isize_max_w W then Ret data else Panic.
(** as_view / as_bytes, src/vector.rs:122-130 *)
Definition vec_as_view_w (b : build) (data : list Z) : outcome view :=
  n <- vec_size_in_bytes_w b data ;; slice_range (whole data) 0 n.
(** grow, src/vector.rs:135-140 *)
Definition vec_grow_w (b : build) (s : sdesc) (data : list Z) : outcome (list Z * Z) :=
  n <- uadd_w W b (len data) (s_size s) ;;
  data <- vec_resize_w W data n ;;
  l <- vec_len_w b s data ;;
  last_index <- usub_w W b l 1 ;;
  p <- umul_w W b last_index (s_size s) ;;
  _ <- slice_from (whole data) p ;;
  Ret (data, p).
(** at, src/vector.rs:145-147 *)
Definition vec_at_w (b : build) (s : sdesc) (data : list Z) (i : Z) : outcome (list Z) :=
  p <- umul_w W b i (s_size s) ;;
  d <- slice_from (whole data) p ;;
  Ret (sl_mem d).
(** at_mut, src/vector.rs:152-154 *)
Definition vec_at_mut_w (b : build) (s : sdesc) (data : list Z) (i : Z) : outcome Z :=
  p <- umul_w W b i (s_size s) ;;
  _ <- slice_from (whole data) p ;;
  Ret p.
(** Any calls, as [vec_run]. *)
Definition vec_step_w (b : build) (e : endian) (s : sdesc) (o : vec_op) (data : list Z) : outcome (list Z) :=
  match o with
  | VGrow sets => x <- vec_grow_w b s data ;; through_handle b e s sets (fst x) (snd x)
  | VSet i sets => p <- vec_at_mut_w b s data i ;; through_handle b e s sets data p
  | VReserve n => vec_reserve_w b s data n
  end.
Fixpoint vec_run_w (b : build) (e : endian) (s : sdesc) (ops : list vec_op) (data : list Z) : outcome (list Z) :=
  match ops with
  | [] => Ret data
  | o :: r => d <- vec_step_w b e s o data ;; vec_run_w b e s r d
  end.
End Width.
