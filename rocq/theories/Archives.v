(** Model of define_archive! (src/archive.rs): Archive::open, the getters, the
    archive builder. *)
From Verif Require Import Base Codec Structs Views Storage Writers MultiViews.
Local Open Scope list_scope.
Local Open Scope Z_scope.

(** * Archive definitions, archive.rs:452-475 *)
(** ($struct_resource, _, $struct_type, $struct_schema, $is_optional_struct) and
    ($vector_resource, _, _, $element_type, $element_schema, $is_optional_vector) *)
Record typed_res := mkTyped { tr_name : string; tr_struct : sdesc; tr_schema : list Z; tr_opt : bool }.
(** ($multivector_resource, _, $variadic_type, $variadic_type_schema,
    $multivector_resource_index, $index_type, $is_optional_multivector);
    [$index_type] is given by its size in bytes and width in bits *)
Record multi_res := mkMulti {
  mr_name : string; mr_types : vdesc; mr_schema : list Z; mr_index : string;
  mr_size : Z; mr_bits : Z; mr_opt : bool }.
(** ($raw_data_resource, _, $raw_data_schema, $is_optional_raw_data) *)
Record raw_res := mkRaw { rr_name : string; rr_schema : list Z; rr_opt : bool }.
(** $name, $archive_schema, the resources in the order of the macro, and
    ($subarchive_resource, $subarchive_type, _, _, $is_optional_subarchive) *)
Inductive adesc := mkArchive
  (name : string) (schema : list Z) (structs vectors : list typed_res) (multis : list multi_res)
  (raws : list raw_res) (subs : list (string * adesc * bool)).

Definition ad_name (a : adesc) := let 'mkArchive n _ _ _ _ _ _ := a in n.
Definition ad_schema (a : adesc) := let 'mkArchive _ s _ _ _ _ _ := a in s.
Definition ad_structs (a : adesc) := let 'mkArchive _ _ x _ _ _ _ := a in x.
Definition ad_vectors (a : adesc) := let 'mkArchive _ _ _ x _ _ _ := a in x.
Definition ad_multis (a : adesc) := let 'mkArchive _ _ _ _ x _ _ := a in x.
Definition ad_raws (a : adesc) := let 'mkArchive _ _ _ _ _ x _ := a in x.
Definition ad_subs (a : adesc) := let 'mkArchive _ _ _ _ _ _ x := a in x.

(** * Opened archives, archive.rs:475-484 *)
(** A MemoryDescriptor (storage.rs:224-256) is the slice it was made from.  The
    type opt!(T, flag) (archive.rs:407-419) is [option T]; a required part is
    always [Some].  The storage, which keeps the memory alive, is not recorded. *)
Inductive archive := mkOpened
  (structs vectors : list (option slice)) (multis : list (option slice * option slice))
  (raws : list (option slice)) (subs : list (option archive)).
Definition ar_structs (x : archive) := let 'mkOpened s _ _ _ _ := x in s.
Definition ar_vectors (x : archive) := let 'mkOpened _ v _ _ _ := x in v.
Definition ar_multis (x : archive) := let 'mkOpened _ _ m _ _ := x in m.
Definition ar_raws (x : archive) := let 'mkOpened _ _ _ r _ := x in r.
Definition ar_subs (x : archive) := let 'mkOpened _ _ _ _ s := x in s.

(** check_resource!, archive.rs:439-446: [?] or [.ok()] *)
Definition check_part {A} (opt : bool) (m : M (result A rs_error)) : M (result (option A) rs_error) :=
  let! r := m in
  match r with
  | Ok x => mret (Ok (Some x))
  | Er x => mret (if opt then Ok None else Er x)
  end.

(** One after the other, stopping at the first error. *)
Fixpoint each {A B} (f : A -> M (result B rs_error)) (l : list A) : M (result (list B) rs_error) :=
  match l with
  | [] => mret (Ok [])
  | x :: r =>
      let? y := f x in
      let? ys := each f r in
      mret (Ok (y :: ys))
  end.

Section Env.
Variables (b : build) (e : endian).

(** The parts of open, archive.rs:600-633 *)
Definition open_typed (st : storage) (r : typed_res) : M (result (option slice) rs_error) :=
  check_part (tr_opt r) (read b e st (tr_name r) (tr_schema r)).
Definition open_multi (st : storage) (r : multi_res)
    : M (result (option slice * option slice) rs_error) :=
  let? i := check_part (mr_opt r) (read b e st (mr_index r) (index_schema (mr_schema r))) in
  let? d := check_part (mr_opt r) (read b e st (mr_name r) (mr_schema r)) in
  mret (Ok (i, d)).
Definition open_raw (st : storage) (r : raw_res) : M (result (option slice) rs_error) :=
  check_part (rr_opt r) (read b e st (rr_name r) (rr_schema r)).

(** Archive::open, archive.rs:589-651 *)
Fixpoint open_archive (a : adesc) (st : storage) {struct a} : M (result archive rs_error) :=
  let 'mkArchive name schema structs vectors multis raws subs := a in
  let? _ := read b e st (signature_name name) schema in
  let? ss := each (open_typed st) structs in
  let? vs := each (open_typed st) vectors in
  let? ms := each (open_multi st) multis in
  let? rs := each (open_raw st) raws in
  let? us := (fix go (l : list (string * adesc * bool)) : M (result (list (option archive)) rs_error) :=
                match l with
                | [] => mret (Ok [])
                | (n, a', opt) :: r =>
                    let? y := check_part opt (let! st' := subdir st n in open_archive a' st') in
                    let? ys := go r in
                    mret (Ok (y :: ys))
                end) subs in
  mret (Ok (mkOpened ss vs ms rs us)).

(** * Getters, archive.rs:498-557 *)
(** The struct getter makes a handle (a pointer) from the bytes; there is no
    check of their number (archive.rs:225-228). *)
Definition get_struct (x : archive) (k : nat) : option (list Z) :=
  option_map sl_mem (nth k (ar_structs x) None).
Definition get_vector (x : archive) (k : nat) : option view := nth k (ar_vectors x) None.
(** An optional multivector is shown only if both parts are there. *)
Definition get_multi (x : archive) (k : nat) : option mav :=
  match nth k (ar_multis x) (None, None) with
  | (Some i, Some d) => Some (mkMav i d)
  | _ => None
  end.
Definition get_raw (x : archive) (k : nat) : option slice := nth k (ar_raws x) None.
Definition get_sub (x : archive) (k : nat) : option archive := nth k (ar_subs x) None.

(** * Builder, archive.rs:654-729; its state is the storage *)
(** new, archive.rs:723-728 *)
Definition builder_new (a : adesc) (st : storage) : M (result storage rs_error) :=
  let? _ := create_archive b e st (ad_name a) (ad_schema a) in
  mret (Ok st).
(** The struct setter, archive.rs:660-669; [m] is the memory behind the handle. *)
Definition set_struct (st : storage) (r : typed_res) (m : list Z) : M (result unit io_kind) :=
  if s_size (tr_struct r) <=? len m
  then write b e st (tr_name r) (tr_schema r) (firstn (Z.to_nat (s_size (tr_struct r))) m)
  else lift UB.
(** The vector setter and start, archive.rs:671-687 *)
Definition set_vector (st : storage) (r : typed_res) (v : view) : M (result unit io_kind) :=
  write b e st (tr_name r) (tr_schema r) (sl_bytes (av_as_bytes v)).
Definition start_vector (st : storage) (r : typed_res) : M (result ext_vec io_kind) :=
  create_external_vector b e st (tr_name r) (tr_schema r).
(** Multivectors, archive.rs:689-699.  create_multi_vector makes the name of the
    index itself (storage.rs:172). *)
Definition start_multi (st : storage) (r : multi_res) : M (result multi_vec io_kind) :=
  create_multi_vector b e st (mr_name r) (mr_schema r).
(** Raw data, archive.rs:701-707 *)
Definition set_raw (st : storage) (r : raw_res) (d : list Z) : M (result unit io_kind) :=
  write b e st (rr_name r) (rr_schema r) d.
(** Sub-archives, archive.rs:709-716 *)
Definition sub_builder (st : storage) (s : string * adesc * bool) : M (result storage rs_error) :=
  let! st' := subdir st (fst (fst s)) in
  builder_new (snd (fst s)) st'.
End Env.
