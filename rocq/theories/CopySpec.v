(** A program that copies an archive: it reads everything an opened archive
    shows and gives it to a builder, as tests/coappearances_test.rs:159-270 does
    for one archive. *)
From Verif Require Import Base Codec CodecSpec Structs StructsSpec Views ViewsSpec.
From Verif Require Import Storage PathFacts StorageSpec Writers WritersSpec MultiViews MultiSpec Archives ArchiveSpec BuilderSpec.
Local Open Scope list_scope.
Local Open Scope Z_scope.

(** Structs and vectors are handed on as they are ([false]), or their fields are
    copied one by one ([true]). *)
Section Copy.
Variables (b : build) (e : endian) (fields : bool).

(** The setter calls [fill_from] makes, by the values read (C84_fill_sets). *)
Definition fill_sets (vals : list Z) : list (nat * Z) := combine (seq 0 (length vals)) vals.

(** Lines 180-182: a StructBuf is filled from the struct. *)
Definition copy_struct (x : archive) (k : nat) (r : typed_res) : outcome (list bop) :=
  match get_struct x k with
  | None => Ret []
  | Some m =>
      if fields then
        m' <- fill_from b e (tr_struct r) (sb_new (tr_struct r)) m ;; Ret [BStruct k (sb_get m')]
      else Ret [BStruct k m]
  end.

(** Lines 189-196: start, one grow and fill_from for each element, close. *)
Definition copy_vector (x : archive) (k : nat) (r : typed_res) : outcome (list bop) :=
  match get_vector x k with
  | None => Ret []
  | Some v =>
      if fields then
        els <- av_take b (tr_struct r) (Z.to_nat (av_len (tr_struct r) v)) v ;;
        recs <- map_outcome (get_all b e (tr_struct r)) els ;;
        Ret (BVecStart k :: map (fun vals => BVecGrow k (fill_sets vals)) recs ++ [BVecClose k])
      else Ret [BVector k v]
  end.

(** Lines 217-245: the same for buckets and the items in them. *)
Definition fill_item (y : nat * list Z) : nat * list (nat * Z) := (fst y, fill_sets (snd y)).
Definition copy_multi (x : archive) (k : nat) (r : multi_res) : outcome (list bop) :=
  match get_multi x k with
  | None => Ret []
  | Some v =>
      n <- mav_len b (mr_size r) (mr_bits r) v ;;
      ls <- mav_take b e (mr_size r) (mr_bits r) (mr_types r) (Z.to_nat n) v ;;
      vals <- map_outcome (map_outcome (get_item b e (mr_types r))) ls ;;
      Ret (BMulStart k :: map (fun l => BMulGrow k (map fill_item l)) vals ++ [BMulClose k])
  end.

(** Line 268. *)
Definition copy_raw (x : archive) (k : nat) (r : raw_res) : outcome (list bop) :=
  match get_raw x k with
  | None => Ret []
  | Some d => Ret [BRaw k (sl_bytes d)]
  end.

Fixpoint copy_each {R} (one : nat -> R -> outcome (list bop)) (k : nat) (l : list R) : outcome (list bop) :=
  match l with
  | [] => Ret []
  | r :: l => o <- one k r ;; os <- copy_each one (S k) l ;; Ret (o ++ os)
  end.

(** The calls on the builder of the copy. *)
Fixpoint copy_ops (a : adesc) (x : archive) {struct a} : outcome (list bop) :=
  let 'mkArchive _ _ structs vectors multis raws subs := a in
  o1 <- copy_each (copy_struct x) 0 structs ;;
  o2 <- copy_each (copy_vector x) 0 vectors ;;
  o3 <- copy_each (copy_multi x) 0 multis ;;
  o4 <- copy_each (copy_raw x) 0 raws ;;
  o5 <- (fix go (k : nat) (l : list (string * adesc * bool)) : outcome (list bop) :=
           match l with
           | [] => Ret []
           | (_, a', _) :: l =>
               o <- match get_sub x k with
                    | None => Ret []
                    | Some y => o <- copy_ops a' y ;; Ret (BSubNew k :: map (BSub k) o)
                    end ;;
               os <- go (S k) l ;;
               Ret (o ++ os)
           end) 0%nat subs ;;
  Ret (o1 ++ o2 ++ o3 ++ o4 ++ o5).

(** Sub-archives are set completely or not at all: a reader does not see others,
    so they cannot be copied. *)
Inductive whole : adesc -> plan -> Prop := Whole a A :
  (forall k s A', nth_error (ad_subs a) k = Some s -> pl_subs A k = Some A' ->
     sufficient (snd (fst s)) A' /\ whole (snd (fst s)) A') -> whole a A.

(** If fields are copied one by one: all bits of structs and vectors that are
    given as bytes belong to fields, or are zero. *)
Inductive copyable : adesc -> plan -> Prop := Copyable a A :
  (forall k r d, fields = true -> nth_error (ad_structs a) k = Some r -> pl_structs A k = Some d ->
     wf_struct (tr_struct r) /\ encodes (tr_struct r) d (decode (tr_struct r) d)) ->
  (forall k r d, fields = true -> nth_error (ad_vectors a) k = Some r -> pl_vecs A k = BuilderSpec.VSet d ->
     array_of (tr_struct r) d (records (tr_struct r) d)) ->
  (forall k s A', nth_error (ad_subs a) k = Some s -> pl_subs A k = Some A' -> copyable (snd (fst s)) A') ->
  copyable a A.
End Copy.
