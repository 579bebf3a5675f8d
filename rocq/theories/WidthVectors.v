(** External vectors and multivectors on a target whose [usize] has [W] bits (cf.
    Width.v and WidthWriters.v).  The functions are those of Writers.v, with the
    sessions of Conc.v (close without the read at its end); lengths, positions,
    the count of flushed bytes and the offsets in the index are [usize]. *)
From Verif Require Import Base Codec Structs Views Storage Writers Width WidthWriters Conc.
Local Open Scope list_scope.
Local Open Scope Z_scope.

Section Width.
Variable W : Z.
Variables (b : build) (e : endian) (lim : Z).

Definition usub_w (x y : Z) : outcome Z := wrap_w W b (x - y).
(** isize::MAX of the target; larger allocations panic (capacity overflow). *)
Definition isize_max_w : Z := 2 ^ (W - 1) - 1.
Definition vec_resize_w (data : list Z) (n : Z) : outcome (list Z) :=
  if n <=? isize_max_w then Ret (firstn (Z.to_nat n) data ++ zeros (n - len data)) else Panic.

(** flush, vector.rs:317-324 *)
Definition ev_flush_w (v : ext_vec) : M (result unit io_kind * ext_vec) :=
  let! n := lift (usub_w (len (ev_data v)) PADDING_SIZE) in
  let! d := lift (slice_range (whole (ev_data v)) 0 n) in
  let! r := handle_write_w W b (ev_handle v) (sl_bytes d) in
  match r with
  | (Ok _, h) => mret (Ok tt, mkEV (zeros PADDING_SIZE) (ev_len v) h)
  | (Er k, h) => mret (Er k, mkEV (ev_data v) (ev_len v) h)
  end.
(** grow, vector.rs:304-314 *)
Definition ev_grow_w (s : sdesc) (v : ext_vec) : M (result Z io_kind * ext_vec) :=
  let! r := (if lim <? len (ev_data v) then ev_flush_w v else mret (Ok tt, v)) in
  match r with
  | (Er k, v) => mret (Er k, v)
  | (Ok _, v) =>
      let old_size := len (ev_data v) in
      let! n := lift (uadd_w W b old_size (s_size s)) in
      let! data := lift (vec_resize_w (ev_data v) n) in
      let! l := lift (uadd_w W b (ev_len v) 1) in
      let! p := lift (usub_w old_size PADDING_SIZE) in
      let! _ := lift (slice_from (whole data) p) in
      mret (Ok p, mkEV data l (ev_handle v))
  end.
(** close, vector.rs:336-343 *)
Definition ev_finish_w (v : ext_vec) : M (result unit rs_error) :=
  let! r := ev_flush_w v in
  match r with
  | (Er k, v) =>
      let! _ := handle_drop false (ev_handle v) in
      mret (Er (EIo k (h_name (ev_handle v))))
  | (Ok _, v) =>
      let! r := finish_handle b e (ev_handle v) in
      let! _ := handle_drop false (snd r) in
      mret (fst r)
  end.
Fixpoint ev_fill_w (s : sdesc) (els : list (list (nat * Z))) (v : ext_vec) : M (result ext_vec io_kind) :=
  match els with
  | [] => mret (Ok v)
  | sets :: els =>
      let! r := ev_grow_w s v in
      match r with
      | (Er k, v) => let! _ := handle_drop false (ev_handle v) in mret (Er k)
      | (Ok p, v) => let! v := ev_set b e s sets p v in ev_fill_w s els v
      end
  end.
Definition vector_session_w (s : sdesc) (st : storage) (name : string) (schema : list Z) (els : list (list (nat * Z))) : M (result unit rs_error) :=
  let? v :=(fun k => EIo k name) create_external_vector b e st name schema in
  let? v :=(fun k => EIo k name) ev_fill_w s els v in
  ev_finish_w v.

(** flush, multivector.rs:176-184 *)
Definition mv_flush_w (v : multi_vec) : M (result unit io_kind * multi_vec) :=
  let! n := lift (usub_w (len (mv_data v)) PADDING_SIZE) in
  let! d := lift (slice_range (whole (mv_data v)) 0 n) in
  let! r := handle_write_w W b (mv_handle v) (sl_bytes d) in
  match r with
  | (Ok _, h) =>
      let! f := lift (uadd_w W b (mv_flushed v) n) in
      mret (Ok tt, mkMV (mv_index v) (zeros PADDING_SIZE) h f)
  | (Er k, h) => mret (Er k, mkMV (mv_index v) (mv_data v) h (mv_flushed v))
  end.
(** add_to_index, multivector.rs:186-193; the offset is stored [as u64] *)
Definition mv_add_to_index_w (size bits : Z) (v : multi_vec) : M (result unit io_kind * multi_vec) :=
  let is := index_struct size bits in
  let! r := ev_grow_w is (mv_index v) in
  match r with
  | (Er k, i) => mret (Er k, mkMV i (mv_data v) (mv_handle v) (mv_flushed v))
  | (Ok p, i) =>
      let! x := lift (uadd_w W b (mv_flushed v) (len (mv_data v))) in
      let! x := lift (usub_w x PADDING_SIZE) in
      let! i := ev_set b e is [(0%nat, x)] p i in
      mret (Ok tt, mkMV i (mv_data v) (mv_handle v) (mv_flushed v))
  end.
(** grow, multivector.rs:165-171 *)
Definition mv_grow_w (size bits : Z) (v : multi_vec) : M (result unit io_kind * multi_vec) :=
  let! r := (if lim <? len (mv_data v) then mv_flush_w v else mret (Ok tt, v)) in
  match r with
  | (Er k, v) => mret (Er k, v)
  | (Ok _, v) => mv_add_to_index_w size bits v
  end.
(** $add_type_fn, archive.rs:369-377 *)
Definition item_add_w (ts : vdesc) (t : nat) (sets : list (nat * Z)) (data : list Z) : outcome (list Z) :=
  let s := v_struct ts t in
  let old_len := len data in
  increment <- uadd_w W b 1 (s_size s) ;;
  n <- uadd_w W b old_len increment ;;
  data <- vec_resize_w data n ;;
  p <- usub_w old_len PADDING_SIZE ;;
  if negb (p <? len data) then Panic else
  data <- mem_write data p [v_tag ts t] ;;
  q <- uadd_w W b 1 old_len ;;
  q <- usub_w q PADDING_SIZE ;;
  _ <- slice_from (whole data) q ;;
  through_handle b e s sets data q.
Fixpoint items_add_w (ts : vdesc) (items : list (nat * list (nat * Z))) (data : list Z) : outcome (list Z) :=
  match items with
  | [] => Ret data
  | (t, sets) :: r => data' <- item_add_w ts t sets data ;; items_add_w ts r data'
  end.
Definition mv_add_w (ts : vdesc) (items : list (nat * list (nat * Z))) (v : multi_vec) : M multi_vec :=
  let! data := lift (items_add_w ts items (mv_data v)) in
  mret (mkMV (mv_index v) data (mv_handle v) (mv_flushed v)).
(** close, multivector.rs:199-207 *)
Definition mv_finish_w (size bits : Z) (v : multi_vec) : M (result unit rs_error) :=
  let io k := EIo k (h_name (mv_handle v)) in
  let! r := mv_add_to_index_w size bits v in
  match r with
  | (Er k, v) => let! _ := mv_drop v in mret (Er (io k))
  | (Ok _, v) =>
  let! r := mv_flush_w v in
  match r with
  | (Er k, v) => let! _ := mv_drop v in mret (Er (io k))
  | (Ok _, v) =>
  let! r := ev_finish_w (mv_index v) in
  match r with
  | Er x => let! _ := handle_drop false (mv_handle v) in mret (Er x)
  | Ok _ =>
      let! r := finish_handle b e (mv_handle v) in
      let! _ := handle_drop false (snd r) in
      mret (fst r)
  end end end.
Fixpoint mv_fill_w (size bits : Z) (ts : vdesc) (els : list (list (nat * list (nat * Z)))) (v : multi_vec) : M (result multi_vec io_kind) :=
  match els with
  | [] => mret (Ok v)
  | items :: els =>
      let! r := mv_grow_w size bits v in
      match r with
      | (Er k, v) => let! _ := mv_drop v in mret (Er k)
      | (Ok _, v) => let! v := mv_add_w ts items v in mv_fill_w size bits ts els v
      end
  end.
Definition multi_session_w (size bits : Z) (ts : vdesc) (st : storage) (name : string) (schema : list Z)
    (els : list (list (nat * list (nat * Z)))) : M (result unit rs_error) :=
  let? v :=(fun k => EIo k name) create_multi_vector b e st name schema in
  let? v :=(fun k => EIo k name) mv_fill_w size bits ts els v in
  mv_finish_w size bits v.
End Width.
