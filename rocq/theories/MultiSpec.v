(** Vocabulary for multivectors and multi array views. *)
From Verif Require Import Base Codec CodecSpec Structs StructsSpec Views ViewsSpec.
From Verif Require Import Storage PathFacts StorageSpec Writers WritersSpec MultiViews.
Local Open Scope list_scope.
Local Open Scope Z_scope.

(** Alternatives with distinct u8 type indices and correct layouts. *)
Definition wf_vdesc (ts : vdesc) : Prop :=
  Forall (fun x => is_byte (fst x) /\ wf_struct (snd x)) ts /\ NoDup (map fst ts).

(** The value of an item: its alternative and its record. *)
Definition value : Type := nat * list Z.

(** Values that fit their fields. *)
Definition record_ok (s : sdesc) (r : list Z) : Prop :=
  Forall2 (fun f v => in_range (f_prim f) (f_bits f) v) (s_fields s) r.
Definition value_ok (ts : vdesc) (x : value) : Prop :=
  (fst x < length ts)%nat /\ record_ok (v_struct ts (fst x)) (snd x).

(** The bytes of an item: type index, then the record. *)
Definition item_encodes (ts : vdesc) (bytes : list Z) (x : value) : Prop :=
  value_ok ts x /\
  exists m, bytes = v_tag ts (fst x) :: m /\ encodes (v_struct ts (fst x)) m (snd x).
(** The bytes of a bucket: its items one after the other. *)
Definition bucket_of (ts : vdesc) (bytes : list Z) (l : list value) : Prop :=
  exists ms, bytes = concat ms /\ Forall2 (item_encodes ts) ms l.

(** An item handle showing a value. *)
Definition item_shows (b : build) (e : endian) (ts : vdesc) (i : item) (x : value) : Prop :=
  fst i = fst x /\ shows b e (v_struct ts (fst x)) (snd i) (snd x).
Definition item_shows_opt (b : build) (e : endian) (ts : vdesc) (i : option item) (x : option value) : Prop :=
  match i, x with
  | Some i, Some x => item_shows b e ts i x
  | None, None => True
  | _, _ => False
  end.
(** The bucket yields exactly the values, then None for ever. *)
Definition bucket_yields (b : build) (e : endian) (ts : vdesc) (d : slice) (l : list value) : Prop :=
  forall k, exists outs d', item_run ts k d = Ret (outs, d') /\
    Forall2 (item_shows_opt b e ts) outs (firstn k (map Some l ++ repeat None k)).

Definition bucket_yields_opt (b : build) (e : endian) (ts : vdesc) (d : option slice) (l : option (list value)) : Prop :=
  match d, l with
  | Some d, Some l => bucket_yields b e ts d l
  | None, None => True
  | _, _ => False
  end.

(** The index entries of a view, and the pairs of neighbours. *)
Definition offsets (size bits : Z) (v : mav) : list Z :=
  map (hd 0) (records (index_struct size bits) (sl_bytes (ma_index v))).
Fixpoint pairs {A} (l : list A) : list (A * A) :=
  match l with
  | x :: ((y :: _) as r) => (x, y) :: pairs r
  | _ => []
  end.
(** The part of the data between two offsets, or a panic. *)
Definition between (d : slice) (p : Z * Z) : outcome slice := slice_range d (fst p) (snd p).
Fixpoint open_all (d : slice) (l : list (option (Z * Z))) : outcome (list (option slice)) :=
  match l with
  | [] => Ret []
  | None :: r => x <- open_all d r ;; Ret (None :: x)
  | Some p :: r => y <- between d p ;; x <- open_all d r ;; Ret (Some y :: x)
  end.

Definition mav_ok (v : mav) : Prop := slice_ok (ma_index v) /\ slice_ok (ma_data v).

(** A view showing the buckets: the index has one more entry and each bucket
    lies in the data. *)
Definition mav_shows (ts : vdesc) (size bits : Z) (v : mav) (l : list (list value)) : Prop :=
  mav_ok v /\ offsets size bits v <> [] /\
  Forall2 (fun p x => 0 <= fst p <= snd p /\ snd p <= sl_len (ma_data v) /\
             bucket_of ts (sublist (fst p) (snd p - fst p) (sl_bytes (ma_data v))) x)
    (pairs (offsets size bits v)) l.

(** * Multivectors *)
(** The value an item has after the setter calls on it. *)
Definition item_value (ts : vdesc) (x : nat * list (nat * Z)) : value :=
  (fst x, apply_sets (snd x) (zero_record (v_struct ts (fst x)))).
Definition buckets (ts : vdesc) (l : list (list (nat * list (nat * Z)))) : list (list value) :=
  map (map (item_value ts)) l.

(** What was added after each grow: if it succeeded, and if all succeed. *)
Fixpoint mv_kept (ops : list mv_op) (flags : list bool) : list (list (nat * list (nat * Z))) :=
  match ops, flags with
  | MGrow items :: r, true :: fl => items :: mv_kept r fl
  | _ :: r, _ :: fl => mv_kept r fl
  | _, _ => []
  end.
Fixpoint mv_all (ops : list mv_op) : list (list (nat * list (nat * Z))) :=
  match ops with
  | [] => []
  | MGrow items :: r => items :: mv_all r
  | MOther _ :: r => mv_all r
  end.
Fixpoint mv_others (ops : list mv_op) : list (world -> world) :=
  match ops with
  | [] => []
  | MGrow _ :: r => mv_others r
  | MOther f :: r => f :: mv_others r
  end.

(** Number of grow calls and total size of the items. *)
Fixpoint mv_grows (ops : list mv_op) : Z :=
  match ops with
  | [] => 0
  | MGrow _ :: r => 1 + mv_grows r
  | MOther _ :: r => mv_grows r
  end.
Fixpoint items_size (ts : vdesc) (items : list (nat * list (nat * Z))) : Z :=
  match items with
  | [] => 0
  | x :: r => 1 + s_size (v_struct ts (fst x)) + items_size ts r
  end.
Fixpoint mv_size (ts : vdesc) (ops : list mv_op) : Z :=
  match ops with
  | [] => 0
  | MGrow items :: r => items_size ts items + mv_size ts r
  | MOther _ :: r => mv_size ts r
  end.

(** Existing alternatives and in-range values; other steps do not use the
    resources of the multivector. *)
Definition items_ok (ts : vdesc) (items : list (nat * list (nat * Z))) : Prop :=
  Forall (fun x => (fst x < length ts)%nat /\ sets_ok (v_struct ts (fst x)) (snd x)) items.
Definition mv_op_ok (st : storage) (name : string) (ts : vdesc) (o : mv_op) : Prop :=
  match o with
  | MGrow items => items_ok ts items
  | MOther f => elsewhere st [name; schema_name name; index_name name; schema_name (index_name name)] f
  end.

(** Sizes that fit the index type and the address space. *)
Definition mv_fits (size bits : Z) (ts : vdesc) (ops : list mv_op) : Prop :=
  mv_size ts ops < 2 ^ bits /\ mv_size ts ops + 16 <= isize_max /\ (mv_grows ops + 1) * size + 16 <= isize_max.

(** Hypotheses on the schema (the schema of the index is a bit longer) and on the
    state of the storage: neither part is in use, no directory is in the way. *)
Definition mv_schema_ok (st : storage) (schema : list Z) : Prop := schema_ok st schema /\ len schema + 7 <= isize_max.
Definition mv_fresh (st : storage) (name : string) (w : world) : Prop :=
  fresh_name st name w /\ fresh_name st (index_name name) w.
Definition mv_unblocked (st : storage) (name : string) (w : world) : Prop :=
  unblocked st name w /\ unblocked st (index_name name) w.

(** A whole session: create, use, close. *)
Definition mv_session (b : build) (e : endian) (lim size bits : Z) (ts : vdesc) (st : storage) (name : string)
    (schema : list Z) (ops : list mv_op) : M (result (list bool * result mav rs_error) io_kind) :=
  let? v := create_multi_vector b e st name schema in
  let! r := mv_run b e lim size bits ts ops v in
  let! c := mv_close b e lim size bits (snd r) in
  mret (Ok (fst r, match c with Ok (i, d) => Ok (mkMav i d) | Er x => Er x end)).

(** Names without a dot. *)
Fixpoint no_dot (s : string) : bool :=
  match s with EmptyString => true | String c r => negb (Ascii.eqb c "."%char) && no_dot r end.
