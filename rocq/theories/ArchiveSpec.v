(** Vocabulary for archives. *)
From Verif Require Import Base Codec CodecSpec Structs StructsSpec Views ViewsSpec.
From Verif Require Import Storage PathFacts StorageSpec Writers WritersSpec MultiViews MultiSpec Archives.
Local Open Scope list_scope.
Local Open Scope Z_scope.

(** * Where an archive is read from *)
(** A given storage, a directory through a new file storage, or a new memory
    storage. *)
Inductive place := PStorage (st : storage) (w : world) | PDisk (base : string) (w : world) | PEmpty.

(** What is found under a name.  An empty file cannot be mapped. *)
Definition found (p : place) (n : string) (x : option (list Z)) : Prop :=
  match p with
  | PStorage st w => finds st w n x
  | PDisk base w =>
      x = match w_files w (key_of (path_join base n)) with Some [] => None | y => y end
  | PEmpty => x = None
  end.
(** Sub-archives are read from sub-directories; those of memory storage are
    always new. *)
Definition sub_place (p : place) (n : string) : place :=
  match p with
  | PStorage (FileStorage _ base) w | PDisk base w => PDisk (path_join base n) w
  | PStorage (MemStorage _ _) _ | PEmpty => PEmpty
  end.

(** The resource is there with data [d]: right size, right schema. *)
Definition holds (p : place) (n : string) (schema d : list Z) : Prop :=
  exists c pad, found p n (Some c) /\ c = framed d pad /\ len pad = 8 /\
    found p (schema_name n) (Some schema) /\ utf8_ok schema = true.

(** Part of an opened archive: [Some] data that is there, or [None] for an optional
    resource that is not there.  If [strict] is false, system calls may have
    failed, which also gives [None]. *)
Definition part (strict : bool) (p : place) (opt : bool) (n : string) (schema : list Z) (y : option slice) : Prop :=
  match y with
  | Some sl => holds p n schema (sl_bytes sl) /\ slice_ok sl /\ len (sl_mem sl) = sl_len sl + 8
  | None => opt = true /\ (strict = true -> forall d, ~ holds p n schema d)
  end.
Definition typed_part strict p (r : typed_res) := part strict p (tr_opt r) (tr_name r) (tr_schema r).
Definition raw_part strict p (r : raw_res) := part strict p (rr_opt r) (rr_name r) (rr_schema r).
Definition multi_part strict p (r : multi_res) (y : option slice * option slice) : Prop :=
  part strict p (mr_opt r) (mr_index r) (index_schema (mr_schema r)) (fst y) /\
  part strict p (mr_opt r) (mr_name r) (mr_schema r) (snd y).

(** The opened archive [x] shows what is at [p]. *)
Fixpoint opened (strict : bool) (a : adesc) (p : place) (x : archive) {struct a} : Prop :=
  let 'mkArchive name schema structs vectors multis raws subs := a in
  (exists d, holds p (signature_name name) schema d) /\
  Forall2 (typed_part strict p) structs (ar_structs x) /\
  Forall2 (typed_part strict p) vectors (ar_vectors x) /\
  Forall2 (multi_part strict p) multis (ar_multis x) /\
  Forall2 (raw_part strict p) raws (ar_raws x) /\
  (fix go (l : list (string * adesc * bool)) (ys : list (option archive)) : Prop :=
     match l, ys with
     | [], [] => True
     | (n, a', opt) :: l, y :: ys =>
         match y with
         | Some x' => opened strict a' (sub_place p n) x'
         | None => opt = true /\ (strict = true -> forall x', ~ opened strict a' (sub_place p n) x')
         end /\ go l ys
     | _, _ => False
     end) subs (ar_subs x).

(** All resource names that open reads at the top level. *)
Definition part_names (a : adesc) : list string :=
  signature_name (ad_name a) :: map tr_name (ad_structs a) ++ map tr_name (ad_vectors a) ++
  flat_map (fun r => [mr_index r; mr_name r]) (ad_multis a) ++ map rr_name (ad_raws a).

(** Nothing is mapped that was cut off since, and sizes are possible. *)
Definition readable (p : place) (n : string) : Prop :=
  (exists x, found p n x) /\ (exists y, found p (schema_name n) y) /\
  forall c, found p n (Some c) -> stored_ok c.
(** The size header does not overflow (cf. C25). *)
Definition tame (p : place) (n : string) : Prop :=
  forall c, found p n (Some c) -> header c + 16 < 2 ^ 64.
Fixpoint everywhere (Q : place -> string -> Prop) (a : adesc) (p : place) {struct a} : Prop :=
  Forall (Q p) (part_names a) /\
  (fix go (l : list (string * adesc * bool)) : Prop :=
     match l with
     | [] => True
     | (n, a', _) :: l => everywhere Q a' (sub_place p n) /\ go l
     end) (ad_subs a).

(** What open needs: the signature, the required resources, and the same for
    the required sub-archives. *)
Definition sound (p : place) (n : string) (schema : list Z) : Prop := exists d, holds p n schema d.
Fixpoint checks (a : adesc) (p : place) {struct a} : Prop :=
  let 'mkArchive name schema structs vectors multis raws subs := a in
  sound p (signature_name name) schema /\
  (forall r, In r (structs ++ vectors) -> tr_opt r = false -> sound p (tr_name r) (tr_schema r)) /\
  (forall r, In r multis -> mr_opt r = false ->
     sound p (mr_index r) (index_schema (mr_schema r)) /\ sound p (mr_name r) (mr_schema r)) /\
  (forall r, In r raws -> rr_opt r = false -> sound p (rr_name r) (rr_schema r)) /\
  (fix go (l : list (string * adesc * bool)) : Prop :=
     match l with
     | [] => True
     | (n, a', opt) :: l => (opt = false -> checks a' (sub_place p n)) /\ go l
     end) subs.

(** What a user of an opened archive can see: no bytes outside of slices. *)
Definition cut (sl : slice) : slice := mkSlice (sl_bytes sl) (sl_len sl).
Fixpoint visible (x : archive) : archive :=
  let 'mkOpened ss vs ms rs us := x in
  mkOpened (map (option_map cut) ss) (map (option_map cut) vs)
    (map (fun m => (option_map cut (fst m), option_map cut (snd m))) ms)
    (map (option_map cut) rs) (map (option_map visible) us).

(** A new process opens the directory [base] and the archive in it. *)
Definition fresh_open (b : build) (e : endian) (a : adesc) (base : string) (w : world)
    : outcome (result archive rs_error) :=
  fst ((let! st := file_new base in open_archive b e a st) (restart w)).
