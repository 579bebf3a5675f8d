(** Model of ExternalVector (src/vector.rs), MultiVector (src/multivector.rs),
    the builder of define_variadic_struct! (src/archive.rs) and the factory
    functions create_external_vector and create_multi_vector
    (src/storage.rs). *)
From Verif Require Import Base Codec Structs Views Storage.
Local Open Scope list_scope.
Local Open Scope Z_scope.

(** [format!("{}_index", resource_name)] and [format!("index({})", schema)],
    storage.rs:172-174 *)
Definition index_name (name : string) : string := (name ++ "_index")%string.
Definition index_schema (schema : list Z) : list Z := str "index(" ++ schema ++ str ")".

(** Flush threshold of grow, vector.rs:305 and multivector.rs:166. *)
Definition FLUSH_LIMIT : Z := 1024 * 1024 * 32.

(** One alternative of define_variadic_struct!, archive.rs:338-339:
    $type_index => ($type, $add_type_fn). *)
Definition vdesc : Type := list (Z * sdesc).
Definition v_tag (ts : vdesc) (t : nat) : Z := fst (nth t ts (0, mkStruct 0 [])).
Definition v_struct (ts : vdesc) (t : nat) : sdesc := snd (nth t ts (0, mkStruct 0 [])).

Section Env.
(** [lim] is the flush threshold; the code has FLUSH_LIMIT. *)
Variables (b : build) (e : endian) (lim : Z).

(** Schema stream, data stream and handle; common to create_external_vector,
    storage.rs:146-154, and create_multi_vector, storage.rs:177-185. *)
Definition create_handle (st : storage) (name : string) (schema : list Z)
    : M (result handle io_kind) :=
  let? s := create_output_stream st (schema_name name) in
  let? _ := write_schema schema s in
  let? s := create_output_stream st name in
  handle_try_new b e st name schema s.

(** * ExternalVector, vector.rs:266-271 *)
Record ext_vec := mkEV { ev_data : list Z; ev_len : Z; ev_handle : handle }.

(** new, vector.rs:278-285 *)
Definition ev_new (h : handle) : ext_vec := mkEV (zeros PADDING_SIZE) 0 h.

(** len is the field [ev_len], vector.rs:288-290; is_empty, vector.rs:293-295 *)
Definition ev_is_empty (v : ext_vec) : bool := ev_len v =? 0.
(** is_open, vector.rs:328-330 *)
Definition ev_is_open (v : ext_vec) : bool := is_open (ev_handle v).

(** flush, vector.rs:317-324 *)
Definition ev_flush (v : ext_vec) : M (result unit io_kind * ext_vec) :=
  let! n := lift (usub b (len (ev_data v)) PADDING_SIZE) in
  let! d := lift (slice_range (whole (ev_data v)) 0 n) in
  let! r := handle_write b (ev_handle v) (sl_bytes d) in
  match r with
  | (Ok _, h) => mret (Ok tt, mkEV (zeros PADDING_SIZE) (ev_len v) h)
  | (Er k, h) => mret (Er k, mkEV (ev_data v) (ev_len v) h)
  end.

(** grow, vector.rs:304-314.  The result is the position of the handle in
    [data]. *)
Definition ev_grow (s : sdesc) (v : ext_vec) : M (result Z io_kind * ext_vec) :=
  let! r := (if lim <? len (ev_data v) then ev_flush v else mret (Ok tt, v)) in
  match r with
  | (Er k, v) => mret (Er k, v)
  | (Ok _, v) =>
      let old_size := len (ev_data v) in
      let! n := lift (uadd b old_size (s_size s)) in
      let! data := lift (vec_resize (ev_data v) n) in
      let! l := lift (uadd b (ev_len v) 1) in
      let! p := lift (usub b old_size PADDING_SIZE) in
      let! _ := lift (slice_from (whole data) p) in
      mret (Ok p, mkEV data l (ev_handle v))
  end.

(** Setter calls through the handle returned by grow. *)
Definition ev_set (s : sdesc) (sets : list (nat * Z)) (p : Z) (v : ext_vec) : M ext_vec :=
  let! data := lift (through_handle b e s sets (ev_data v) p) in
  mret (mkEV data (ev_len v) (ev_handle v)).

(** close, vector.rs:336-343.  [self] is dropped at the end, which panics if
    the handle is still open. *)
Definition ev_close (v : ext_vec) : M (result view rs_error) :=
  let! r := ev_flush v in
  match r with
  | (Er k, v) =>
      let! _ := handle_drop false (ev_handle v) in
      mret (Er (EIo k (h_name (ev_handle v))))
  | (Ok _, v) =>
      let! r := handle_close b e (ev_handle v) in
      let! _ := handle_drop false (snd r) in
      mret (fst r)
  end.

(** create_external_vector, storage.rs:138-156 *)
Definition create_external_vector (st : storage) (name : string) (schema : list Z)
    : M (result ext_vec io_kind) :=
  let? h := create_handle st name schema in
  mret (Ok (ev_new h)).

(** * MultiVector, multivector.rs:131-137 *)
Record multi_vec := mkMV {
  mv_index : ext_vec; mv_data : list Z; mv_handle : handle; mv_flushed : Z }.

(** new, multivector.rs:145-153 *)
Definition mv_new (index : ext_vec) (h : handle) : multi_vec :=
  mkMV index (zeros PADDING_SIZE) h 0.

(** flush, multivector.rs:176-184 *)
Definition mv_flush (v : multi_vec) : M (result unit io_kind * multi_vec) :=
  let! n := lift (usub b (len (mv_data v)) PADDING_SIZE) in
  let! d := lift (slice_range (whole (mv_data v)) 0 n) in
  let! r := handle_write b (mv_handle v) (sl_bytes d) in
  match r with
  | (Ok _, h) =>
      let! f := lift (uadd b (mv_flushed v) n) in
      mret (Ok tt, mkMV (mv_index v) (zeros PADDING_SIZE) h f)
  | (Er k, h) => mret (Er k, mkMV (mv_index v) (mv_data v) h (mv_flushed v))
  end.

(** add_to_index, multivector.rs:186-193; the index type has [size] bytes and
    a value of [bits] bits. *)
Definition mv_add_to_index (size bits : Z) (v : multi_vec) : M (result unit io_kind * multi_vec) :=
  let is := index_struct size bits in
  let! r := ev_grow is (mv_index v) in
  match r with
  | (Er k, i) => mret (Er k, mkMV i (mv_data v) (mv_handle v) (mv_flushed v))
  | (Ok p, i) =>
      let! x := lift (uadd b (mv_flushed v) (len (mv_data v))) in
      let! x := lift (usub b x PADDING_SIZE) in
      let! i := ev_set is [(0%nat, x)] p i in
      mret (Ok tt, mkMV i (mv_data v) (mv_handle v) (mv_flushed v))
  end.

(** grow, multivector.rs:165-171; the builder refers to [data]. *)
Definition mv_grow (size bits : Z) (v : multi_vec) : M (result unit io_kind * multi_vec) :=
  let! r := (if lim <? len (mv_data v) then mv_flush v else mret (Ok tt, v)) in
  match r with
  | (Er k, v) => mret (Er k, v)
  | (Ok _, v) => mv_add_to_index size bits v
  end.

(** $add_type_fn, archive.rs:369-377, followed by setter calls through the
    handle it returns. *)
Definition item_add (ts : vdesc) (t : nat) (sets : list (nat * Z)) (data : list Z)
    : outcome (list Z) :=
  let s := v_struct ts t in
  let old_len := len data in
  increment <- uadd b 1 (s_size s) ;;
  n <- uadd b old_len increment ;;
  data <- vec_resize data n ;;
  p <- usub b old_len PADDING_SIZE ;;
  if negb (p <? len data) then Panic else
  data <- mem_write data p [v_tag ts t] ;;
  q <- uadd b 1 old_len ;;
  q <- usub b q PADDING_SIZE ;;
  _ <- slice_from (whole data) q ;;
  through_handle b e s sets data q.

(** Calls on one builder: alternative and setter calls of each item. *)
Fixpoint items_add (ts : vdesc) (items : list (nat * list (nat * Z))) (data : list Z)
    : outcome (list Z) :=
  match items with
  | [] => Ret data
  | (t, sets) :: r => data' <- item_add ts t sets data ;; items_add ts r data'
  end.
Definition mv_add (ts : vdesc) (items : list (nat * list (nat * Z))) (v : multi_vec) : M multi_vec :=
  let! data := lift (items_add ts items (mv_data v)) in
  mret (mkMV (mv_index v) data (mv_handle v) (mv_flushed v)).

(** Dropping a multivector drops its index and its data handle. *)
Definition mv_drop (v : multi_vec) : M unit :=
  if is_open (ev_handle (mv_index v)) || is_open (mv_handle v) then mpanic else mret tt.

(** close, multivector.rs:199-207; the result is the pair of MultiArrayView::new.
    On every early return the parts still owned are dropped. *)
Definition mv_close (size bits : Z) (v : multi_vec) : M (result (view * slice) rs_error) :=
  let io k := EIo k (h_name (mv_handle v)) in
  let! r := mv_add_to_index size bits v in
  match r with
  | (Er k, v) => let! _ := mv_drop v in mret (Er (io k))
  | (Ok _, v) =>
  let! r := mv_flush v in
  match r with
  | (Er k, v) => let! _ := mv_drop v in mret (Er (io k))
  | (Ok _, v) =>
  let! r := ev_close (mv_index v) in
  match r with
  | Er x => let! _ := handle_drop false (mv_handle v) in mret (Er x)
  | Ok iv =>
      let! r := handle_close b e (mv_handle v) in
      let! _ := handle_drop false (snd r) in
      match fst r with
      | Er x => mret (Er x)
      | Ok d => mret (Ok (iv, d))
      end
  end end end.

(** create_multi_vector, storage.rs:163-187.  If the second half fails, the
    open index is dropped, which panics. *)
Definition create_multi_vector (st : storage) (name : string) (schema : list Z)
    : M (result multi_vec io_kind) :=
  let? index := create_external_vector st (index_name name) (index_schema schema) in
  let! r := create_handle st name schema in
  match r with
  | Er k => let! _ := handle_drop false (ev_handle index) in mret (Er k)
  | Ok h => mret (Ok (mv_new index h))
  end.
End Env.

(** * Uses of a writer *)
(** A use of an external vector: grow and setters on the new element (which are
    not called if grow fails), or a step of the rest of the program. *)
Inductive ev_op := EGrow (sets : list (nat * Z)) | EOther (f : world -> world).

Definition ev_step (b : build) (e : endian) (lim : Z) (s : sdesc) (o : ev_op) (v : ext_vec)
    : M (bool * ext_vec) :=
  match o with
  | EGrow sets =>
      let! r := ev_grow b lim s v in
      match r with
      | (Ok p, v) => let! v := ev_set b e s sets p v in mret (true, v)
      | (Er _, v) => mret (false, v)
      end
  | EOther f => fun w => (Ret (true, v), f w)
  end.

(** Runs all operations, also after failures; reports which succeeded. *)
Fixpoint ev_run (b : build) (e : endian) (lim : Z) (s : sdesc) (ops : list ev_op) (v : ext_vec)
    : M (list bool * ext_vec) :=
  match ops with
  | [] => mret ([], v)
  | o :: r =>
      let! x := ev_step b e lim s o v in
      let! y := ev_run b e lim s r (snd x) in
      mret (fst x :: fst y, snd y)
  end.

Inductive mv_op := MGrow (items : list (nat * list (nat * Z))) | MOther (f : world -> world).

Definition mv_step (b : build) (e : endian) (lim size bits : Z) (ts : vdesc) (o : mv_op) (v : multi_vec)
    : M (bool * multi_vec) :=
  match o with
  | MGrow items =>
      let! r := mv_grow b e lim size bits v in
      match r with
      | (Ok _, v) => let! v := mv_add b e ts items v in mret (true, v)
      | (Er _, v) => mret (false, v)
      end
  | MOther f => fun w => (Ret (true, v), f w)
  end.

Fixpoint mv_run (b : build) (e : endian) (lim size bits : Z) (ts : vdesc) (ops : list mv_op) (v : multi_vec)
    : M (list bool * multi_vec) :=
  match ops with
  | [] => mret ([], v)
  | o :: r =>
      let! x := mv_step b e lim size bits ts o v in
      let! y := mv_run b e lim size bits ts r (snd x) in
      mret (fst x :: fst y, snd y)
  end.
