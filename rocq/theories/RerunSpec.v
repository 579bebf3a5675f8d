(** Vocabulary of C107: running a program that writes several resources again, after
    runs that failed or were interrupted. *)
From Verif Require Import Base Codec CodecSpec Structs StructsSpec Views ViewsSpec Storage PathFacts StorageSpec Writers WritersSpec MultiViews MultiSpec RedoSpec.
Local Open Scope list_scope.
Local Open Scope Z_scope.

(** What a program writes: resources, external vectors and multivectors. *)
Inductive resource :=
| Plain (name : string) (schema data : list Z)
| Vector (name : string) (schema : list Z) (s : sdesc) (sets : list (list (nat * Z)))
| Multi (name : string) (schema : list Z) (size bits : Z) (ts : vdesc) (items : list (list (nat * list (nat * Z)))).
Definition name_of (r : resource) : string := match r with Plain n _ _ | Vector n _ _ _ | Multi n _ _ _ _ _ => n end.
Definition files_of (r : resource) : list string :=
  match r with
  | Plain n _ _ | Vector n _ _ _ => [n; schema_name n]
  | Multi n _ _ _ _ _ => [n; schema_name n; index_name n; schema_name (index_name n)]
  end.
Definition all_files (l : list resource) : list string := List.concat (map files_of l).

(** Writing one: whether everything worked.  The program stops when something did not. *)
Definition put (b : build) (e : endian) (lim : Z) (st : storage) (r : resource) : M bool :=
  match r with
  | Plain n schema data =>
      let! x := write b e st n schema data in mret (match x with Ok _ => true | Er _ => false end)
  | Vector n schema s sets =>
      let! x := ev_session b e lim s st n schema (map EGrow sets) in
      mret (match x with Ok (flags, Ok _) => forallb (fun f => f) flags | _ => false end)
  | Multi n schema size bits ts items =>
      let! x := mv_session b e lim size bits ts st n schema (map MGrow items) in
      mret (match x with Ok (flags, Ok _) => forallb (fun f => f) flags | _ => false end)
  end.
Fixpoint put_all (b : build) (e : endian) (lim : Z) (st : storage) (l : list resource) : M bool :=
  match l with
  | [] => mret true
  | r :: l => let! x := put b e lim st r in if x then put_all b e lim st l else mret false
  end.

(** Any number of runs of such programs, which write some of these files (perhaps
    other kinds of resources with other contents), in which any system calls fail and
    which may be killed anywhere. *)
Inductive tried_all (base : string) (names : list string) (w : world) : world -> Prop :=
| all_not w1 : same_disk w w1 -> tried_all base names w w1
| all_again w1 fs b e lim id l o w2 w3 : tried_all base names w w1 -> incl (all_files l) names ->
    put_all b e lim (FileStorage id base) l (set_faults fs w1) = (o, w2) ->
    same_disk w2 w3 -> tried_all base names w w3.

(** What can be written: as for C22, C31 and C37. *)
Definition resource_ok (st : storage) (r : resource) : Prop :=
  match r with
  | Plain _ _ _ => True
  | Vector _ schema s sets => wf_struct s /\ schema_ok st schema /\ Forall (sets_ok s) sets /\
      Z.of_nat (List.length sets) * s_size s + 16 <= isize_max
  | Multi _ schema size bits ts items => wf_struct (index_struct size bits) /\ wf_vdesc ts /\ mv_schema_ok st schema /\
      Forall (items_ok ts) items /\ mv_fits size bits ts (map MGrow items)
  end.

(** The files have the contents of the resource. *)
Definition holds (base n : string) (schema data : list Z) (w : world) : Prop :=
  w_files w (file_of base n) = Some (resource_bytes data) /\ w_files w (file_of base (schema_name n)) = Some schema.
Definition in_place (base : string) (w : world) (r : resource) : Prop :=
  match r with
  | Plain n schema data => holds base n schema data w
  | Vector n schema s sets => exists d, holds base n schema d w /\ records s d = elements s sets /\ len d = Z.of_nat (List.length sets) * s_size s
  | Multi n schema size bits ts items => exists v, mav_shows ts size bits v (buckets ts items) /\
      holds base n schema (sl_bytes (ma_data v)) w /\ holds base (index_name n) (index_schema schema) (sl_bytes (ma_index v)) w
  end.

(** Reading one in another process: the data and, for multivectors, the index. *)
Definition get (b : build) (e : endian) (st : storage) (r : resource) : M (option (list slice)) :=
  match r with
  | Plain n schema _ | Vector n schema _ _ =>
      let! x := read b e st n schema in mret (match x with Ok d => Some [d] | Er _ => None end)
  | Multi n schema _ _ _ _ =>
      let! i := read b e st (index_name n) (index_schema schema) in
      let! x := read b e st n schema in
      mret (match i, x with Ok i, Ok d => Some [i; d] | _, _ => None end)
  end.
Fixpoint get_all (b : build) (e : endian) (st : storage) (l : list resource) : M (option (list (list slice))) :=
  match l with
  | [] => mret (Some [])
  | r :: l =>
      let! x := get b e st r in
      match x with
      | None => mret None
      | Some x => let! y := get_all b e st l in mret (match y with Some y => Some (x :: y) | None => None end)
      end
  end.
(** What is read has the contents of the resource. *)
Definition shown (r : resource) (x : list slice) : Prop :=
  Forall slice_ok x /\
  match r, x with
  | Plain _ _ data, [d] => sl_bytes d = data
  | Vector _ _ s sets, [d] => records s (sl_bytes d) = elements s sets /\ sl_len d = Z.of_nat (List.length sets) * s_size s
  | Multi _ _ size bits ts items, [i; d] => mav_shows ts size bits (mkMav i d) (buckets ts items)
  | _, _ => False
  end.
(** Schemas that can be read as text. *)
Definition readable (st : storage) (r : resource) : Prop :=
  match r with
  | Plain _ schema _ | Vector _ schema _ _ => schema_ok st schema
  | Multi _ schema _ _ _ _ => mv_schema_ok st schema
  end.
(** What is read is what the files contain, and the schemas are the expected ones. *)
Definition parts (r : resource) : list (string * list Z) :=
  match r with
  | Plain n schema _ | Vector n schema _ _ => [(n, schema)]
  | Multi n schema _ _ _ _ => [(index_name n, index_schema schema); (n, schema)]
  end.
Definition stored (base : string) (w : world) (r : resource) (x : list slice) : Prop :=
  Forall2 (fun p d => exists pad, len pad = 8 /\ w_files w (file_of base (fst p)) = Some (framed (sl_bytes d) pad) /\
    w_files w (file_of base (schema_name (fst p))) = Some (snd p) /\ utf8_ok (snd p) = true /\ slice_ok d) (parts r) x.
