(** Model of define_struct!, define_index! (src/archive.rs) and of
    StructBuf (src/structbuf.rs). *)
From Verif Require Import Base Codec.

(** One field line of define_struct!, src/archive.rs:206:
    ($field, $field_setter, $type: $primitive_type, $offset, $bit_size). *)
Record field := mkField { f_prim : prim; f_off : Z; f_bits : Z }.

(** A struct: $size_in_bytes and its fields, src/archive.rs:205-206. *)
Record sdesc := mkStruct { s_size : Z; s_fields : list field }.

(** A handle ($name or $name_mut, src/archive.rs:209-212, 265-268) is a raw
    pointer; it is modelled by the memory reachable from it, which is what
    [T::create] (src/archive.rs:225-228, 233-236) takes from the slice.  No
    length is checked there. *)

(** Getter, src/archive.rs:241-244 and 272-275 (transmute is the identity on
    the integer code). *)
Definition get_field (b : build) (e : endian) (f : field) (m : list Z) : outcome Z :=
  read_bytes b e (f_prim f) m (f_off f) (f_bits f).

(** Setter, src/archive.rs:278-283: from_raw_parts_mut(self.data, SIZE) needs
    SIZE bytes of allocation; the writes go through that slice. *)
Definition set_field (b : build) (e : endian) (s : sdesc) (f : field) (v : Z)
    (m : list Z) : outcome (list Z) :=
  if s_size s <=? len m then
    buffer <- write_bytes b e (f_prim f) v (firstn (Z.to_nat (s_size s)) m)
                (f_off f) (f_bits f) ;;
    Ret (buffer ++ skipn (Z.to_nat (s_size s)) m)
  else UB.

(** Selecting a field by its position (the generated method names). *)
Definition default_field := mkField U8 0 1.
Definition field_nth (s : sdesc) (i : nat) : field := nth i (s_fields s) default_field.

(** A sequence of setter calls on one handle: (field position, value). *)
Fixpoint run_sets (b : build) (e : endian) (s : sdesc) (ops : list (nat * Z))
    (m : list Z) : outcome (list Z) :=
  match ops with
  | [] => Ret m
  | (i, v) :: r => m' <- set_field b e s (field_nth s i) v m ;; run_sets b e s r m'
  end.

(** All getters in order (used by Debug, src/archive.rs:247-254). *)
Fixpoint get_fields (b : build) (e : endian) (fs : list field) (m : list Z)
    : outcome (list Z) :=
  match fs with
  | [] => Ret []
  | f :: r => v <- get_field b e f m ;; vs <- get_fields b e r m ;; Ret (v :: vs)
  end.
Definition get_all (b : build) (e : endian) (s : sdesc) (m : list Z) : outcome (list Z) :=
  get_fields b e (s_fields s) m.

(** PartialEq::eq, src/archive.rs:256-261: short-circuiting conjunction. *)
Fixpoint eq_fields (b : build) (e : endian) (fs : list field) (m1 m2 : list Z)
    : outcome bool :=
  match fs with
  | [] => Ret true
  | f :: r =>
      x <- get_field b e f m1 ;;
      y <- get_field b e f m2 ;;
      if x =? y then eq_fields b e r m1 m2 else Ret false
  end.
Definition struct_eq (b : build) (e : endian) (s : sdesc) (m1 m2 : list Z) : outcome bool :=
  eq_fields b e (s_fields s) m1 m2.

(** fill_from, src/archive.rs:286-288. *)
Fixpoint fill_fields (b : build) (e : endian) (s : sdesc) (fs : list field)
    (m other : list Z) : outcome (list Z) :=
  match fs with
  | [] => Ret m
  | f :: r =>
      v <- get_field b e f other ;;
      m' <- set_field b e s f v m ;;
      fill_fields b e s r m' other
  end.
Definition fill_from (b : build) (e : endian) (s : sdesc) (m other : list Z)
    : outcome (list Z) :=
  fill_fields b e s (s_fields s) m other.

(** define_index!, src/archive.rs:308-332: a struct with the single field
    (value, set_value, u64, 0, $size_in_bits). *)
Definition index_struct (size bits : Z) : sdesc := mkStruct size [mkField U64 0 bits].
(** IndexStruct::index / set_index, src/archive.rs:320-330. *)
Definition get_index (b : build) (e : endian) (bits : Z) (m : list Z) : outcome Z :=
  get_field b e (mkField U64 0 bits) m.
Definition set_index (b : build) (e : endian) (size bits v : Z) (m : list Z)
    : outcome (list Z) :=
  set_field b e (index_struct size bits) (mkField U64 0 bits) v m.

(** StructBuf, src/structbuf.rs:47-84.  The state is the vector [data]. *)
Definition sb_new (s : sdesc) : list Z := zeros (s_size s + PADDING_SIZE).
(** get / get_mut hand out a pointer to the start of [data]. *)
Definition sb_get (data : list Z) : list Z := data.
Definition sb_as_bytes (s : sdesc) (data : list Z) : outcome slice :=
  slice_range (whole data) 0 (s_size s).

(** An enum field ([$type: $primitive_type], src/archive.rs:205-206): the
    getter transmutes the integer read to the enum type, src/archive.rs:241-244.
    Producing an enum value whose discriminant is not declared is undefined
    behaviour; [codes] are the declared discriminants. *)
Definition get_enum (b : build) (e : endian) (codes : list Z) (f : field) (m : list Z)
    : outcome Z :=
  v <- get_field b e f m ;;
  if existsb (Z.eqb v) codes then Ret v else UB.
(** The setter casts the enum value to its discriminant, src/archive.rs:278-283
    and src/bytewriter.rs:31. *)
Definition set_enum := set_field.
