(** Vocabulary for several processes that write at once (C78): which files a call
    writes and what belongs into them, written without the programs of
    Conc.v. *)
From Verif Require Import Base Codec Structs StructsSpec Views Storage PathFacts StorageSpec Writers MultiSpec Conc.
Local Open Scope list_scope.
Local Open Scope Z_scope.

(** The bytes of records, one after the other: each is a number in which every
    field holds the low bits of its value. *)
Definition record_number (s : sdesc) (r : list Z) : Z :=
  fold_right Z.lor 0 (map (fun x => Z.shiftl (snd x mod 2 ^ f_bits (fst x)) (f_off (fst x))) (combine (s_fields s) r)).
Definition record_bytes (s : sdesc) (r : list Z) : list Z := le_bytes (Z.to_nat (s_size s)) (record_number s r).
Definition elements_bytes (s : sdesc) (els : list (list (nat * Z))) : list Z :=
  List.concat (map (fun sets => record_bytes s (apply_sets sets (zero_record s))) els).
(** The bytes of the items of a multivector, and its index: where each list of
    items starts and where the last one ends. *)
Definition item_bytes (ts : vdesc) (x : nat * list (nat * Z)) : list Z :=
  v_tag ts (fst x) :: record_bytes (v_struct ts (fst x)) (apply_sets (snd x) (zero_record (v_struct ts (fst x)))).
Definition items_bytes (ts : vdesc) (items : list (nat * list (nat * Z))) : list Z := List.concat (map (item_bytes ts) items).
Fixpoint starts (a : Z) (ls : list (list Z)) : list Z :=
  match ls with [] => [a] | l :: ls => a :: starts (a + len l) ls end.
Definition index_bytes (size bits : Z) (ts : vdesc) (els : list (list (nat * list (nat * Z)))) : list Z :=
  List.concat (map (fun x => record_bytes (index_struct size bits) [x]) (starts 0 (map (items_bytes ts) els))).

Definition job_base (j : job) : string :=
  match j with
  | JWrite _ _ base _ _ _ | JCreate _ _ base _ _ | JStream _ _ base _ _ _
  | JVector _ _ _ _ base _ _ _ | JMulti _ _ _ _ _ _ base _ _ _ => base
  end.
(** The resources that the call writes: name, schema and data. *)
Record part := mkPart { pt_name : string; pt_schema : list Z; pt_data : list Z }.
Definition job_parts (j : job) : list part :=
  match j with
  | JWrite _ _ _ name schema data => [mkPart name schema data]
  | JCreate _ _ _ aname aschema => [mkPart (signature_name aname) aschema []]
  | JStream _ _ _ name schema cs => [mkPart name schema (List.concat cs)]
  | JVector _ _ _ s _ name schema els => [mkPart name schema (elements_bytes s els)]
  | JMulti _ _ _ size bits ts _ name schema els =>
      [mkPart (index_name name) (index_schema schema) (index_bytes size bits ts els);
       mkPart name schema (List.concat (map (items_bytes ts) els))]
  end.
(** The two files of a resource. *)
Definition part_key (base : string) (p : part) : key := res_key (FileStorage 0 base) (pt_name p).
Definition part_schema_key (base : string) (p : part) : key := res_key (FileStorage 0 base) (schema_name (pt_name p)).
Definition part_files (base : string) (p : part) : list (key * list Z) :=
  [(part_key base p, resource_bytes (pt_data p)); (part_schema_key base p, pt_schema p)].
(** The files of the call. *)
Definition job_files (j : job) : list (key * list Z) := flat_map (part_files (job_base j)) (job_parts j).
(** What is in a file if the process runs alone: what was put there last. *)
Definition final (js : list job) (k : key) : option (list Z) :=
  fold_left (fun acc x => if key_eqb k (fst x) then Some (snd x) else acc) (flat_map job_files js) None.

(** Correct layouts, values in range, and sizes that fit (into the index of a
    multivector, too; 16 bytes for the size and the padding). *)
Definition job_typed (j : job) : Prop :=
  match j with
  | JVector _ _ _ s _ _ _ els =>
      wf_struct s /\ Forall (sets_ok s) els /\ len (elements_bytes s els) + 16 <= isize_max
  | JMulti _ _ _ size bits ts _ _ _ els =>
      wf_struct (index_struct size bits) /\ wf_vdesc ts /\ Forall (items_ok ts) els /\
      len (List.concat (map (items_bytes ts) els)) < 2 ^ bits /\
      len (List.concat (map (items_bytes ts) els)) + 16 <= isize_max /\ len (index_bytes size bits ts els) + 16 <= isize_max
  | _ => True
  end.
Definition job_fits (j : job) : Prop := job_typed j /\ forall p, In p (job_parts j) -> len (pt_data p) <= isize_max.
(** Nothing on the disk is in the way of a call, and the sizes fit. *)
Definition job_ok (w : world) (j : job) : Prop :=
  job_fits j /\ forall p, In p (job_parts j) -> valid_name (pt_name p) /\ unblocked (FileStorage 0 (job_base j)) (pt_name p) w.
(** No call writes a file where another one needs a directory. *)
Definition jobs_apart (js : list job) : Prop :=
  forall j j' k c, In j js -> In j' js -> In (k, c) (job_files j) -> is_prefix_of k (key_of (job_base j')) = false.
Definition processes_ok (w : world) (pss : list (list job)) : Prop :=
  (forall j, In j (List.concat pss) -> job_ok w j) /\ jobs_apart (List.concat pss).

(** How a process ends: all calls are done, or the creation of an archive found
    the signature; [d] are the calls that were done. *)
Definition ended (w : world) (js d : list job) (o : outcome (result unit rs_error)) : Prop :=
  (d = js /\ o = Ret (Ok tt)) \/
  exists rest b e base aname aschema, js = d ++ JCreate b e base aname aschema :: rest /\
    o = Ret (Er (EIo KAlreadyExists (signature_name aname))) /\
    w_files w (res_key (FileStorage 0 base) (signature_name aname)) <> None.
