(** Vocabulary for the properties of external vectors and multivectors. *)
From Verif Require Import Base Codec CodecSpec Structs StructsSpec Views ViewsSpec.
From Verif Require Import Storage PathFacts StorageSpec Writers.
Local Open Scope list_scope.
Local Open Scope Z_scope.

(** The bytes of a record: every field holds the binary digits of its value,
    all other bits are zero. *)
Definition encodes (s : sdesc) (m : list Z) (r : list Z) : Prop :=
  bytes_ok m /\ len m = s_size s /\ length r = length (s_fields s) /\
  (forall j i, (j < length (s_fields s))%nat -> 0 <= i < f_bits (field_nth s j) ->
     bit_at m (f_off (field_nth s j) + i) = Z.testbit (nth j r 0) i) /\
  (forall k, 0 <= k ->
     (forall j, (j < length (s_fields s))%nat ->
        k < f_off (field_nth s j) \/ f_off (field_nth s j) + f_bits (field_nth s j) <= k) ->
     bit_at m k = false).

(** The bytes of a list of records, one after the other. *)
Definition array_of (s : sdesc) (bytes : list Z) (l : list (list Z)) : Prop :=
  exists ms, bytes = concat ms /\ Forall2 (encodes s) ms l.

(** A step of the rest of the program that leaves one resource alone: no
    writes to it, and no reads of it through the same storage object. *)
Definition intact (st : storage) (n : string) (w w' : world) : Prop :=
  match st with
  | MemStorage id _ =>
      w_streams w' id (res_key st n) = w_streams w id (res_key st n) /\
      w_resources w' id (res_key st n) = w_resources w id (res_key st n)
  | FileStorage id _ =>
      w_files w' (res_key st n) = w_files w (res_key st n) /\
      w_maps w' id (res_path st n) = w_maps w id (res_path st n)
  end.
Definition elsewhere (st : storage) (names : list string) (f : world -> world) : Prop :=
  forall w, maps_ok w -> (forall n, In n names -> intact st n w (f w)) /\ maps_ok (f w).

(** * External vectors *)
(** The elements of a history: what was set on each element whose grow
    succeeded. *)
Fixpoint kept (ops : list ev_op) (flags : list bool) : list (list (nat * Z)) :=
  match ops, flags with
  | EGrow sets :: r, true :: fl => sets :: kept r fl
  | _ :: r, _ :: fl => kept r fl
  | _, _ => []
  end.
Definition elements (s : sdesc) (l : list (list (nat * Z))) : list (list Z) :=
  map (fun sets => apply_sets sets (zero_record s)) l.

(** Number of grow calls. *)
Fixpoint grows (ops : list ev_op) : Z :=
  match ops with
  | [] => 0
  | EGrow _ :: r => 1 + grows r
  | EOther _ :: r => grows r
  end.

(** The elements if every grow succeeds. *)
Fixpoint all_sets (ops : list ev_op) : list (list (nat * Z)) :=
  match ops with
  | [] => []
  | EGrow sets :: r => sets :: all_sets r
  | EOther _ :: r => all_sets r
  end.

(** In-range values; other steps do not use the resource. *)
Definition ev_op_ok (st : storage) (name : string) (s : sdesc) (o : ev_op) : Prop :=
  match o with
  | EGrow sets => sets_ok s sets
  | EOther f => elsewhere st [name; schema_name name] f
  end.

(** No I/O failures: memory storage, or none scheduled and none caused. *)
Definition quiet (st : storage) (fs : list (world -> world)) (w : world) : Prop :=
  is_file st = false \/
  (w_faults w = [] /\ forall f, In f fs -> forall w, w_faults w = [] -> w_faults (f w) = []).
Fixpoint others (ops : list ev_op) : list (world -> world) :=
  match ops with
  | [] => []
  | EGrow _ :: r => others r
  | EOther f :: r => f :: others r
  end.

(** A whole session: create, use, close. *)
Definition ev_session (b : build) (e : endian) (lim : Z) (s : sdesc) (st : storage) (name : string)
    (schema : list Z) (ops : list ev_op) : M (result (list bool * result view rs_error) io_kind) :=
  let? v := create_external_vector b e st name schema in
  let! r := ev_run b e lim s ops v in
  let! c := ev_close b e (snd r) in
  mret (Ok (fst r, c)).
