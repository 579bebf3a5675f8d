(** Vocabulary for Debug texts. *)
From Verif Require Import Base Codec CodecSpec Structs StructsSpec Views ViewsSpec Storage Writers WritersSpec MultiViews MultiSpec Archives Text.
From Coq Require Import Ascii.
Local Open Scope string_scope.
Local Open Scope list_scope.
Local Open Scope Z_scope.

(** Identifiers: letters, digits and underscores. *)
Definition ident_char (c : ascii) : bool :=
  let n := nat_of_ascii c in
  ((48 <=? n) && (n <=? 57) || (65 <=? n) && (n <=? 90) || (97 <=? n) && (n <=? 122) || (n =? 95))%nat.
Definition ident (s : string) : Prop := s <> "" /\ Forall (fun c => ident_char c = true) (list_ascii_of_string s).

(** The type of a field fits its primitive type; enumerators have names and codes
    of their own. *)
Definition shape_ok (f : field) (sh : shape) : Prop :=
  match sh with
  | AsNumber => True
  | AsBool => f_prim f = PBool
  | AsEnum l => NoDup (map fst l) /\ NoDup (map snd l) /\ Forall (fun x => ident (snd x)) l
  end.
Definition names_ok (s : sdesc) (n : names) : Prop :=
  ident (n_struct n) /\ Forall2 (fun f x => shape_ok f (snd x)) (s_fields s) (n_fields n).
Definition vnames_ok (ts : vdesc) (ns : list names) : Prop :=
  Forall2 (fun t n => names_ok (snd t) n) ts ns /\ NoDup (map n_struct ns).

(** A value has a text: all but undeclared enumerators. *)
Definition declared (sh : shape) (v : Z) : Prop := match sh with AsEnum l => In v (map fst l) | _ => True end.
Definition sayable (n : names) (r : list Z) : Prop := Forall2 (fun x v => declared (snd x) v) (n_fields n) r.
(** There are no enums. *)
Definition plain (n : names) : Prop := Forall (fun x => forall l, snd x <> AsEnum l) (n_fields n).

(** The text of a record: its name, and the name and value of each field. *)
Fixpoint label_texts (ns : list (string * shape)) (r : list Z) : list string :=
  match ns, r with
  | (n, sh) :: ns, v :: r => (n +++ ": " +++ value_text sh v) :: label_texts ns r
  | _, _ => []
  end.
Definition record_text (n : names) (r : list Z) : string := n_struct n +++ " { " +++ intersperse (label_texts (n_fields n) r) +++ " }".

(** Items of multivectors. *)
Definition name_nth (ns : list names) (i : nat) : names := nth i ns (mkNames "" []).
Definition item_sayable (ns : list names) (x : nat * list Z) : Prop := sayable (name_nth ns (fst x)) (snd x).

(** The names fit the archive. *)
Definition typed_names_ok (r : typed_res) (n : names) : Prop := wf_struct (tr_struct r) /\ names_ok (tr_struct r) n.
Definition multi_names_ok (r : multi_res) (ns : list names) : Prop :=
  wf_struct (index_struct (mr_size r) (mr_bits r)) /\ mr_size r <= isize_max /\ wf_vdesc (mr_types r) /\ vnames_ok (mr_types r) ns.
Fixpoint anames_ok (a : adesc) (ns : anames) {struct a} : Prop :=
  let 'mkArchive _ _ structs vectors multis _ subs := a in
  let 'mkANames n1 n2 n3 n4 := ns in
  Forall2 typed_names_ok structs n1 /\ Forall2 typed_names_ok vectors n2 /\ Forall2 multi_names_ok multis n3 /\
  (fix go (l : list (string * adesc * bool)) (ns : list anames) : Prop :=
     match l, ns with
     | [], [] => True
     | (_, a', _) :: l, n :: ns => anames_ok a' n /\ go l ns
     | _, _ => False
     end) subs n4.
Inductive all_plain : anames -> Prop := AllPlain n1 n2 n3 n4 :
  Forall plain n1 -> Forall plain n2 -> Forall (Forall plain) n3 -> Forall all_plain n4 -> all_plain (mkANames n1 n2 n3 n4).

(** Everything that is shown has a text: structs are long enough, multivectors
    are intact, the first ten elements of vectors and multivectors have no
    undeclared enumerators. *)
Definition struct_printable (r : typed_res) (n : names) (m : list Z) : Prop :=
  bytes_ok m /\ s_size (tr_struct r) <= len m /\ sayable n (decode (tr_struct r) m).
Definition vector_printable (r : typed_res) (n : names) (v : slice) : Prop :=
  slice_ok v /\ Forall (sayable n) (firstn 10 (records (tr_struct r) (sl_bytes v))).
Definition multi_printable (r : multi_res) (ns : list names) (v : mav) : Prop :=
  exists l, mav_shows (mr_types r) (mr_size r) (mr_bits r) v l /\ Forall (Forall (item_sayable ns)) (firstn 10 l).
Fixpoint printable (a : adesc) (ns : anames) (x : archive) {struct a} : Prop :=
  let 'mkArchive _ _ structs vectors multis _ subs := a in
  let 'mkANames n1 n2 n3 n4 := ns in
  (forall k r n m, nth_error structs k = Some r -> nth_error n1 k = Some n -> get_struct x k = Some m -> struct_printable r n m) /\
  (forall k r n v, nth_error vectors k = Some r -> nth_error n2 k = Some n -> get_vector x k = Some v -> vector_printable r n v) /\
  (forall k r n v, nth_error multis k = Some r -> nth_error n3 k = Some n -> get_multi x k = Some v -> multi_printable r n v) /\
  (fix go (k : nat) (l : list (string * adesc * bool)) (ns : list anames) : Prop :=
     match l, ns with
     | (_, a', _) :: l, n :: ns => (forall x', get_sub x k = Some x' -> printable a' n x') /\ go (S k) l ns
     | _, _ => True
     end) O subs n4.

(** No struct resource is shorter than its struct (cf. C46). *)
Fixpoint structs_fit (a : adesc) (x : archive) {struct a} : Prop :=
  let 'mkArchive _ _ structs _ _ _ subs := a in
  (forall k r sl, nth_error structs k = Some r -> nth k (ar_structs x) None = Some sl -> s_size (tr_struct r) <= sl_len sl) /\
  (fix go (k : nat) (l : list (string * adesc * bool)) : Prop :=
     match l with
     | [] => True
     | (_, a', _) :: l => (forall x', get_sub x k = Some x' -> structs_fit a' x') /\ go (S k) l
     end) O subs.
(** A text or a panic. *)
Definition text_or_panic (o : outcome string) : Prop := o = Panic \/ exists t, o = Ret t.
