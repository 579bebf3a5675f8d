(** Model of define_struct! (src/archive.rs:205-306) for structs some of whose
    fields are enums, and of the derived equality of the items of a variadic
    struct (src/archive.rs:341-344). *)
From Verif Require Import Base Codec Structs.

(** One field line ($field, $field_setter, $type: $primitive_type, ...),
    src/archive.rs:206.  [None]: $type is the primitive type.
    [Some (sg, codes)]: $type is an enum with the declared discriminants
    [codes]; [sg] is the constant IS_SIGNED which the program states in its own
    [impl Int for $type] (src/helper.rs:4-7; an example is
    src/archive.rs:767-769).  Nothing ties [sg] to the primitive type. *)
Definition efield : Type := field * option (bool * list Z).
Record edesc := mkEnums { e_size : Z; e_fields : list efield }.

(** The same layout with every enum replaced by its primitive type. *)
Definition plain (s : edesc) : sdesc := mkStruct (e_size s) (map fst (e_fields s)).

(** Getter, src/archive.rs:241-244 and 272-275. *)
Definition get_efield (b : build) (e : endian) (f : efield) (m : list Z) : outcome Z :=
  match snd f with
  | None => get_field b e (fst f) m
  | Some (_, codes) => get_enum b e codes (fst f) m
  end.

(** Setter, src/archive.rs:278-283: [write_bytes!($type; ...)] consults
    [<$type as Int>::IS_SIGNED] (src/bytewriter.rs:32), and nothing else about
    the type; so the type used for writing an enum is any primitive type with
    that signedness.  [value as u64] of an enum extends the sign of its
    discriminant, like a cast of the discriminant itself. *)
Definition write_type (f : efield) : prim :=
  match snd f with
  | None => f_prim (fst f)
  | Some (sg, _) => if sg then I64 else U64
  end.
Definition set_efield (b : build) (e : endian) (s : edesc) (f : efield) (v : Z)
    (m : list Z) : outcome (list Z) :=
  set_field b e (plain s) (mkField (write_type f) (f_off (fst f)) (f_bits (fst f))) v m.

(** All getters in order (Debug, src/archive.rs:247-254). *)
Fixpoint get_efields (b : build) (e : endian) (fs : list efield) (m : list Z)
    : outcome (list Z) :=
  match fs with
  | [] => Ret []
  | f :: r => v <- get_efield b e f m ;; vs <- get_efields b e r m ;; Ret (v :: vs)
  end.

(** PartialEq::eq, src/archive.rs:256-261.  The enum's own equality is the
    derived one, which compares discriminants. *)
Fixpoint eq_efields (b : build) (e : endian) (fs : list efield) (m1 m2 : list Z)
    : outcome bool :=
  match fs with
  | [] => Ret true
  | f :: r =>
      x <- get_efield b e f m1 ;;
      y <- get_efield b e f m2 ;;
      if x =? y then eq_efields b e r m1 m2 else Ret false
  end.

(** fill_from, src/archive.rs:286-288. *)
Fixpoint fill_efields (b : build) (e : endian) (s : edesc) (fs : list efield)
    (m other : list Z) : outcome (list Z) :=
  match fs with
  | [] => Ret m
  | f :: r =>
      v <- get_efield b e f other ;;
      m' <- set_efield b e s f v m ;;
      fill_efields b e s r m' other
  end.

Definition get_enums b e s m := get_efields b e (e_fields s) m.
Definition eq_enums b e s m1 m2 := eq_efields b e (e_fields s) m1 m2.
Definition fill_enums b e s m other := fill_efields b e s (e_fields s) m other.

(** The derived PartialEq of define_variadic_struct!, src/archive.rs:341-344:
    items of different alternatives differ, items of one alternative are
    compared as structs.  An item is an alternative and the memory reachable
    from its handle. *)
Definition eq_item (b : build) (e : endian) (ts : list edesc) (x y : nat * list Z)
    : outcome bool :=
  if Nat.eqb (fst x) (fst y)
  then eq_enums b e (nth (fst x) ts (mkEnums 0 [])) (snd x) (snd y)
  else Ret false.
