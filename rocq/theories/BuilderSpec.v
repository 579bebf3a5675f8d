(** Vocabulary for archive builders: a user of a builder, what a user may do, and
    what should be seen afterwards. *)
From Verif Require Import Base Codec CodecSpec Structs StructsSpec Views ViewsSpec.
From Verif Require Import Storage PathFacts StorageSpec Writers WritersSpec MultiViews MultiSpec Archives ArchiveSpec.
Local Open Scope list_scope.
Local Open Scope Z_scope.

(** * A user of a builder *)
(** Calls on a builder and on the writers and sub-builders obtained from it.
    Resources are given by their position in the definition. *)
Inductive bop :=
| BStruct (k : nat) (m : list Z)
| BVector (k : nat) (v : view)
| BVecStart (k : nat) | BVecGrow (k : nat) (sets : list (nat * Z)) | BVecClose (k : nat)
| BMulStart (k : nat) | BMulGrow (k : nat) (items : list (nat * list (nat * Z))) | BMulClose (k : nat)
| BRaw (k : nat) (d : list Z)
| BSubNew (k : nat) | BSub (k : nat) (o : bop).

(** The builder, its open writers, its sub-builders. *)
Inductive bstate := mkB
  (st : storage) (vecs : nat -> option ext_vec) (muls : nat -> option multi_vec) (subs : nat -> option bstate).
Definition bs_st (s : bstate) := let 'mkB x _ _ _ := s in x.
Definition bs_vecs (s : bstate) := let 'mkB _ x _ _ := s in x.
Definition bs_muls (s : bstate) := let 'mkB _ _ x _ := s in x.
Definition bs_subs (s : bstate) := let 'mkB _ _ _ x := s in x.
Definition new_bstate (st : storage) : bstate := mkB st (fun _ => None) (fun _ => None) (fun _ => None).
Definition put_vec k v (s : bstate) := mkB (bs_st s) (nupd k v (bs_vecs s)) (bs_muls s) (bs_subs s).
Definition put_mul k v (s : bstate) := mkB (bs_st s) (bs_vecs s) (nupd k v (bs_muls s)) (bs_subs s).
Definition put_sub k v (s : bstate) := mkB (bs_st s) (bs_vecs s) (bs_muls s) (nupd k v (bs_subs s)).

Definition is_ok {A E} (r : result A E) : bool := match r with Ok _ => true | Er _ => false end.
Definition with_some {A B} (x : option A) (d : M B) (f : A -> M B) : M B :=
  match x with Some y => f y | None => d end.

Section Run.
Variables (b : build) (e : endian) (lim : Z).

(** One call: did it succeed? *)
Fixpoint bstep (a : adesc) (o : bop) (s : bstate) {struct o} : M (bool * bstate) :=
  let st := bs_st s in
  let no := mret (false, s) in
  match o with
  | BStruct k m => with_some (nth_error (ad_structs a) k) no (fun r =>
      let! x := set_struct b e st r m in mret (is_ok x, s))
  | BVector k v => with_some (nth_error (ad_vectors a) k) no (fun r =>
      let! x := set_vector b e st r v in mret (is_ok x, s))
  | BVecStart k => with_some (nth_error (ad_vectors a) k) no (fun r =>
      let! x := start_vector b e st r in
      mret (match x with Ok v => (true, put_vec k (Some v) s) | Er _ => (false, s) end))
  | BVecGrow k sets => with_some (nth_error (ad_vectors a) k) no (fun r =>
      with_some (bs_vecs s k) no (fun v =>
      let! x := ev_step b e lim (tr_struct r) (EGrow sets) v in
      mret (fst x, put_vec k (Some (snd x)) s)))
  | BVecClose k => with_some (bs_vecs s k) no (fun v =>
      let! x := ev_close b e v in mret (is_ok x, put_vec k None s))
  | BMulStart k => with_some (nth_error (ad_multis a) k) no (fun r =>
      let! x := start_multi b e st r in
      mret (match x with Ok v => (true, put_mul k (Some v) s) | Er _ => (false, s) end))
  | BMulGrow k items => with_some (nth_error (ad_multis a) k) no (fun r =>
      with_some (bs_muls s k) no (fun v =>
      let! x := mv_step b e lim (mr_size r) (mr_bits r) (mr_types r) (MGrow items) v in
      mret (fst x, put_mul k (Some (snd x)) s)))
  | BMulClose k => with_some (nth_error (ad_multis a) k) no (fun r =>
      with_some (bs_muls s k) no (fun v =>
      let! x := mv_close b e lim (mr_size r) (mr_bits r) v in mret (is_ok x, put_mul k None s)))
  | BRaw k d => with_some (nth_error (ad_raws a) k) no (fun r =>
      let! x := set_raw b e st r d in mret (is_ok x, s))
  | BSubNew k => with_some (nth_error (ad_subs a) k) no (fun r =>
      let! x := sub_builder b e st r in
      mret (match x with Ok st' => (true, put_sub k (Some (new_bstate st')) s) | Er _ => (false, s) end))
  | BSub k o => with_some (nth_error (ad_subs a) k) no (fun r =>
      with_some (bs_subs s k) no (fun s' =>
      let! x := bstep (snd (fst r)) o s' in
      mret (fst x, put_sub k (Some (snd x)) s)))
  end.

(** All calls, also after failures. *)
Fixpoint brun (a : adesc) (ops : list bop) (s : bstate) : M (list bool * bstate) :=
  match ops with
  | [] => mret ([], s)
  | o :: r =>
      let! x := bstep a o s in
      let! y := brun a r (snd x) in
      mret (fst x :: fst y, snd y)
  end.
End Run.

(** * What a user may do *)
(** What has been set: bytes, elements (setter calls on each), buckets. *)
Inductive vslot := VUnset | VSet (d : list Z) | VOpen (l : list (list (nat * Z))) | VClosed (l : list (list (nat * Z))).
Inductive mslot :=
| MUnset | MOpen (l : list (list (nat * list (nat * Z)))) | MClosed (l : list (list (nat * list (nat * Z)))).
Inductive plan := mkPlan
  (structs : nat -> option (list Z)) (vecs : nat -> vslot) (muls : nat -> mslot)
  (raws : nat -> option (list Z)) (subs : nat -> option plan).
Definition pl_structs (A : plan) := let 'mkPlan x _ _ _ _ := A in x.
Definition pl_vecs (A : plan) := let 'mkPlan _ x _ _ _ := A in x.
Definition pl_muls (A : plan) := let 'mkPlan _ _ x _ _ := A in x.
Definition pl_raws (A : plan) := let 'mkPlan _ _ _ x _ := A in x.
Definition pl_subs (A : plan) := let 'mkPlan _ _ _ _ x := A in x.
Definition no_plan : plan := mkPlan (fun _ => None) (fun _ => VUnset) (fun _ => MUnset) (fun _ => None) (fun _ => None).
Definition pl_struct k v (A : plan) := mkPlan (nupd k v (pl_structs A)) (pl_vecs A) (pl_muls A) (pl_raws A) (pl_subs A).
Definition pl_vec k v (A : plan) := mkPlan (pl_structs A) (nupd k v (pl_vecs A)) (pl_muls A) (pl_raws A) (pl_subs A).
Definition pl_mul k v (A : plan) := mkPlan (pl_structs A) (pl_vecs A) (nupd k v (pl_muls A)) (pl_raws A) (pl_subs A).
Definition pl_raw k v (A : plan) := mkPlan (pl_structs A) (pl_vecs A) (pl_muls A) (nupd k v (pl_raws A)) (pl_subs A).
Definition pl_sub k v (A : plan) := mkPlan (pl_structs A) (pl_vecs A) (pl_muls A) (pl_raws A) (nupd k v (pl_subs A)).

Fixpoint buckets_size (ts : vdesc) (l : list (list (nat * list (nat * Z)))) : Z :=
  match l with [] => 0 | x :: r => items_size ts x + buckets_size ts r end.

(** Each resource at most once, in-range values, sizes that fit.  [file]: the
    storage is a file storage; memory storage cannot have sub-archives. *)
Inductive may (file : bool) : adesc -> plan -> bop -> plan -> Prop :=
| may_struct a A k r m : nth_error (ad_structs a) k = Some r -> pl_structs A k = None ->
    bytes_ok m -> s_size (tr_struct r) <= len m -> s_size (tr_struct r) + 16 <= isize_max ->
    may file a A (BStruct k m) (pl_struct k (Some (firstn (Z.to_nat (s_size (tr_struct r))) m)) A)
| may_vector a A k r v : nth_error (ad_vectors a) k = Some r -> pl_vecs A k = VUnset ->
    slice_ok v -> sl_len v + 16 <= isize_max ->
    may file a A (BVector k v) (pl_vec k (VSet (sl_bytes v)) A)
| may_vec_start a A k r : nth_error (ad_vectors a) k = Some r -> pl_vecs A k = VUnset ->
    may file a A (BVecStart k) (pl_vec k (VOpen []) A)
| may_vec_grow a A k r l sets : nth_error (ad_vectors a) k = Some r -> pl_vecs A k = VOpen l ->
    sets_ok (tr_struct r) sets -> (Z.of_nat (length l) + 1) * s_size (tr_struct r) + 16 <= isize_max ->
    may file a A (BVecGrow k sets) (pl_vec k (VOpen (l ++ [sets])) A)
| may_vec_close a A k r l : nth_error (ad_vectors a) k = Some r -> pl_vecs A k = VOpen l ->
    may file a A (BVecClose k) (pl_vec k (VClosed l) A)
| may_mul_start a A k r : nth_error (ad_multis a) k = Some r -> pl_muls A k = MUnset ->
    may file a A (BMulStart k) (pl_mul k (MOpen []) A)
| may_mul_grow a A k r l items : nth_error (ad_multis a) k = Some r -> pl_muls A k = MOpen l ->
    items_ok (mr_types r) items -> buckets_size (mr_types r) (l ++ [items]) < 2 ^ mr_bits r ->
    buckets_size (mr_types r) (l ++ [items]) + 16 <= isize_max ->
    (Z.of_nat (length l) + 2) * mr_size r + 16 <= isize_max ->
    may file a A (BMulGrow k items) (pl_mul k (MOpen (l ++ [items])) A)
| may_mul_close a A k r l : nth_error (ad_multis a) k = Some r -> pl_muls A k = MOpen l ->
    may file a A (BMulClose k) (pl_mul k (MClosed l) A)
| may_raw a A k r d : nth_error (ad_raws a) k = Some r -> pl_raws A k = None -> data_ok d ->
    may file a A (BRaw k d) (pl_raw k (Some d) A)
| may_sub_new a A k s : file = true -> nth_error (ad_subs a) k = Some s -> pl_subs A k = None ->
    may file a A (BSubNew k) (pl_sub k (Some no_plan) A)
| may_sub a A k s o A' A'' : nth_error (ad_subs a) k = Some s -> pl_subs A k = Some A' ->
    may file (snd (fst s)) A' o A'' ->
    may file a A (BSub k o) (pl_sub k (Some A'') A).

Inductive history (file : bool) (a : adesc) : plan -> list bop -> plan -> Prop :=
| history_nil A : history file a A [] A
| history_cons A o A' ops A'' : may file a A o A' -> history file a A' ops A'' -> history file a A (o :: ops) A''.

(** Everything started is closed. *)
Inductive finished : plan -> Prop := Finished A :
  (forall k l, pl_vecs A k <> VOpen l) -> (forall k l, pl_muls A k <> MOpen l) ->
  (forall k A', pl_subs A k = Some A' -> finished A') -> finished A.

(** * What should be seen *)
(** Everything required has been set. *)
Fixpoint sufficient (a : adesc) (A : plan) {struct a} : Prop :=
  let 'mkArchive _ _ structs vectors multis raws subs := a in
  (forall k r, nth_error structs k = Some r -> tr_opt r = false -> pl_structs A k <> None) /\
  (forall k r, nth_error vectors k = Some r -> tr_opt r = false -> pl_vecs A k <> VUnset) /\
  (forall k r, nth_error multis k = Some r -> mr_opt r = false -> pl_muls A k <> MUnset) /\
  (forall k r, nth_error raws k = Some r -> rr_opt r = false -> pl_raws A k <> None) /\
  (fix go (k : nat) (l : list (string * adesc * bool)) : Prop :=
     match l with
     | [] => True
     | (_, a', opt) :: l =>
         (opt = false -> match pl_subs A k with Some A' => sufficient a' A' | None => False end) /\ go (S k) l
     end) O subs.

(** The data of each resource set, nothing for the others; a sub-archive that
    is not sufficient is not shown. *)
Definition shows_bytes (o : option (list Z)) (y : option slice) : Prop := option_map sl_bytes y = o.
Definition shows_vec (r : typed_res) (o : vslot) (y : option slice) : Prop :=
  match o, y with
  | VUnset, None => True
  | VSet d, Some sl => sl_bytes sl = d
  | VClosed l, Some sl =>
      array_of (tr_struct r) (sl_bytes sl) (elements (tr_struct r) l) /\
      records (tr_struct r) (sl_bytes sl) = elements (tr_struct r) l
  | _, _ => False
  end.
Definition shows_mul (r : multi_res) (o : mslot) (y : option slice * option slice) : Prop :=
  match o, y with
  | MUnset, (None, None) => True
  | MClosed l, (Some i, Some d) => mav_shows (mr_types r) (mr_size r) (mr_bits r) (mkMav i d) (buckets (mr_types r) l)
  | _, _ => False
  end.
Fixpoint shows_plan (a : adesc) (A : plan) (x : archive) {struct a} : Prop :=
  let 'mkArchive _ _ structs vectors multis raws subs := a in
  (forall k r, nth_error structs k = Some r -> shows_bytes (pl_structs A k) (nth k (ar_structs x) None)) /\
  (forall k r, nth_error vectors k = Some r -> shows_vec r (pl_vecs A k) (nth k (ar_vectors x) None)) /\
  (forall k r, nth_error multis k = Some r -> shows_mul r (pl_muls A k) (nth k (ar_multis x) (None, None))) /\
  (forall k r, nth_error raws k = Some r -> shows_bytes (pl_raws A k) (nth k (ar_raws x) None)) /\
  (fix go (k : nat) (l : list (string * adesc * bool)) : Prop :=
     match l with
     | [] => True
     | (_, a', _) :: l =>
         match nth k (ar_subs x) None with
         | Some x' => exists A', pl_subs A k = Some A' /\ sufficient a' A' /\ shows_plan a' A' x'
         | None => forall A', pl_subs A k = Some A' -> ~ sufficient a' A'
         end /\ go (S k) l
     end) O subs.

(** * Archive definitions as they are generated *)
Definition typed_ok (st_file : bool) (r : typed_res) : Prop :=
  identifier (tr_name r) /\ schema_ok (if st_file then FileStorage 0 "" else MemStorage 0 "") (tr_schema r).
Definition multi_ok (st_file : bool) (r : multi_res) : Prop :=
  identifier (mr_name r) /\ mr_index r = index_name (mr_name r) /\
  mv_schema_ok (if st_file then FileStorage 0 "" else MemStorage 0 "") (mr_schema r) /\
  wf_struct (index_struct (mr_size r) (mr_bits r)) /\ wf_vdesc (mr_types r) /\ mr_size r + 16 <= isize_max.
Definition raw_ok (st_file : bool) (r : raw_res) : Prop :=
  identifier (rr_name r) /\ schema_ok (if st_file then FileStorage 0 "" else MemStorage 0 "") (rr_schema r).
Fixpoint wf_archive (file : bool) (a : adesc) {struct a} : Prop :=
  let 'mkArchive name schema structs vectors multis raws subs := a in
  identifier name /\ schema_ok (if file then FileStorage 0 "" else MemStorage 0 "") schema /\
  NoDup (part_names a) /\
  Forall (typed_ok file) structs /\
  Forall (fun r => typed_ok file r /\ wf_struct (tr_struct r)) vectors /\
  Forall (multi_ok file) multis /\ Forall (raw_ok file) raws /\
  NoDup (map (fun s => fst (fst s)) subs) /\
  (fix go (l : list (string * adesc * bool)) : Prop :=
     match l with
     | [] => True
     | (n, a', _) :: l => (identifier n /\ wf_archive file a') /\ go l
     end) subs.

(** A key below a directory. *)
Definition under (base : string) (k : key) : Prop :=
  exists n r, k = (fst (key_of base), snd (key_of base) ++ n :: r).
(** A storage nobody has used: a new memory storage, or a new file storage for
    a directory without files. *)
Definition unused_storage (st : storage) (w : world) : Prop :=
  (st_id st < w_next w)%nat /\
  match st with
  | MemStorage id _ => forall k, w_streams w id k = None /\ w_resources w id k = None
  | FileStorage id base =>
      (forall p, w_maps w id p = None) /\ forall k, under base k -> w_files w k = None
  end.

(** * When nothing is in the way *)
(** Sub-archives are not named like another resource, as two methods of a type
    cannot have one name. *)
Fixpoint dirs_apart (a : adesc) {struct a} : Prop :=
  let 'mkArchive _ _ _ _ _ _ subs := a in
  (fix go (l : list (string * adesc * bool)) : Prop :=
     match l with
     | [] => True
     | (n, a', _) :: l => (~ In n (part_names a) /\ dirs_apart a') /\ go l
     end) subs.
(** No I/O failures, and the directory is empty, or missing but possible. *)
Definition empty_place (st : storage) (w : world) : Prop :=
  match st with
  | MemStorage _ _ => True
  | FileStorage _ base =>
      w_faults w = [] /\
      (forall n, w_files w (fst (key_of base), firstn n (snd (key_of base))) = None) /\
      forall k, under base k -> w_files w k = None /\ w_dirs w k = false
  end.

(** * What may be seen after a failure *)
(** [o] was set before the last call, [o'] should be set after it; the last call
    did not work.  Everything else is as before. *)
Definition left_bytes (o o' : option (list Z)) (y : option slice) : Prop :=
  match y with Some sl => o' = Some (sl_bytes sl) | None => o = None end.
(** A vector that is not closed may be seen empty. *)
Definition left_vec (r : typed_res) (o o' : vslot) (y : option slice) : Prop :=
  match y with
  | Some sl =>
      match o' with
      | VOpen _ => sl_bytes sl = []
      | VClosed l => shows_vec r o' y \/ (o = VOpen l /\ sl_bytes sl = [])
      | _ => shows_vec r o' y
      end
  | None => o = VUnset \/ exists l, o = VOpen l
  end.
(** A multivector that is not closed may be seen with an empty index or with
    empty data. *)
Definition left_mul (r : multi_res) (o o' : mslot) (y : option slice * option slice) : Prop :=
  shows_mul r o' y \/
  ((forall l, o <> MClosed l) /\
   match y with
   | (None, None) => True
   | (Some i, Some d) => o' <> MUnset /\ (sl_bytes i = [] \/ sl_bytes d = [])
   | _ => o' <> MUnset
   end).
Fixpoint left_plan (a : adesc) (A A' : plan) (x : archive) {struct a} : Prop :=
  let 'mkArchive _ _ structs vectors multis raws subs := a in
  (forall k r, nth_error structs k = Some r -> left_bytes (pl_structs A k) (pl_structs A' k) (nth k (ar_structs x) None)) /\
  (forall k r, nth_error vectors k = Some r -> left_vec r (pl_vecs A k) (pl_vecs A' k) (nth k (ar_vectors x) None)) /\
  (forall k r, nth_error multis k = Some r -> left_mul r (pl_muls A k) (pl_muls A' k) (nth k (ar_multis x) (None, None))) /\
  (forall k r, nth_error raws k = Some r -> left_bytes (pl_raws A k) (pl_raws A' k) (nth k (ar_raws x) None)) /\
  (fix go (k : nat) (l : list (string * adesc * bool)) : Prop :=
     match l with
     | [] => True
     | (_, a', _) :: l =>
         match nth k (ar_subs x) None with
         | Some x' => exists B', pl_subs A' k = Some B' /\ sufficient a' B' /\
             left_plan a' (match pl_subs A k with Some B => B | None => no_plan end) B' x'
         | None => forall B, pl_subs A k = Some B -> finished B -> ~ sufficient a' B
         end /\ go (S k) l
     end) O subs.
