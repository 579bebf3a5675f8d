(** Vocabulary for builders that go on after failures: what may be known about
    each resource, and what should be seen afterwards. *)
From Verif Require Import Base Codec CodecSpec Structs StructsSpec Views ViewsSpec.
From Verif Require Import Storage PathFacts StorageSpec Writers WritersSpec MultiViews MultiSpec Archives ArchiveSpec BuilderSpec.
Local Open Scope list_scope.
Local Open Scope Z_scope.

(** * What is known *)
(** A resource set with a single call.  [Known]: the last call succeeded, or there
    was none.  [Unsure]: the last call failed; the data is lost, or one of these. *)
Inductive fate := Known (o : option (list Z)) | Unsure (l : list (list Z)).
(** A vector may also have a writer. [VDead]: closing it failed. *)
Inductive vfate :=
| VByte (f : fate) | VWriting (l : list (list (nat * Z))) | VDone (l : list (list (nat * Z))) | VDead (l : list (list (nat * Z))).
Inductive mfate :=
| MNever | MFailed
| MWriting (l : list (list (nat * list (nat * Z)))) | MDone (l : list (list (nat * list (nat * Z))))
| MDead (l : list (list (nat * list (nat * Z)))).
Inductive sfate (X : Type) := SNever | SFailed | SLive (x : X).
Arguments SNever {X}. Arguments SFailed {X}. Arguments SLive {X} x.
Inductive course := mkCourse
  (structs : nat -> fate) (vecs : nat -> vfate) (muls : nat -> mfate) (raws : nat -> fate) (subs : nat -> sfate course).
Definition co_structs (A : course) := let 'mkCourse x _ _ _ _ := A in x.
Definition co_vecs (A : course) := let 'mkCourse _ x _ _ _ := A in x.
Definition co_muls (A : course) := let 'mkCourse _ _ x _ _ := A in x.
Definition co_raws (A : course) := let 'mkCourse _ _ _ x _ := A in x.
Definition co_subs (A : course) := let 'mkCourse _ _ _ _ x := A in x.
Definition no_course : course :=
  mkCourse (fun _ => Known None) (fun _ => VByte (Known None)) (fun _ => MNever) (fun _ => Known None) (fun _ => SNever).
Definition co_struct k v (A : course) := mkCourse (nupd k v (co_structs A)) (co_vecs A) (co_muls A) (co_raws A) (co_subs A).
Definition co_vec k v (A : course) := mkCourse (co_structs A) (nupd k v (co_vecs A)) (co_muls A) (co_raws A) (co_subs A).
Definition co_mul k v (A : course) := mkCourse (co_structs A) (co_vecs A) (nupd k v (co_muls A)) (co_raws A) (co_subs A).
Definition co_raw k v (A : course) := mkCourse (co_structs A) (co_vecs A) (co_muls A) (nupd k v (co_raws A)) (co_subs A).
Definition co_sub k v (A : course) := mkCourse (co_structs A) (co_vecs A) (co_muls A) (co_raws A) (nupd k v (co_subs A)).

Definition possible (f : fate) : list (list Z) :=
  match f with Known None => [] | Known (Some d) => [d] | Unsure l => l end.
Definition tried (ok : bool) (d : list Z) (f : fate) : fate :=
  if ok then Known (Some d) else Unsure (d :: possible f).

(** * What a user may do *)
(** A call and whether it succeeded.  Resources may be set again and again, also after
    failures.  Not again: a vector or multivector that was closed (cf. C54), one
    that is being written, a sub-archive that was created. *)
Inductive tries : adesc -> course -> bop -> bool -> course -> Prop :=
| try_struct a A k r m ok : nth_error (ad_structs a) k = Some r ->
    bytes_ok m -> s_size (tr_struct r) <= len m -> s_size (tr_struct r) + 16 <= isize_max ->
    tries a A (BStruct k m) ok
      (co_struct k (tried ok (firstn (Z.to_nat (s_size (tr_struct r))) m) (co_structs A k)) A)
| try_vector a A k r f v ok : nth_error (ad_vectors a) k = Some r -> co_vecs A k = VByte f ->
    slice_ok v -> sl_len v + 16 <= isize_max ->
    tries a A (BVector k v) ok (co_vec k (VByte (tried ok (sl_bytes v) f)) A)
| try_vec_start a A k r f ok : nth_error (ad_vectors a) k = Some r -> co_vecs A k = VByte f ->
    tries a A (BVecStart k) ok (co_vec k (if ok then VWriting [] else VByte (Unsure (possible f))) A)
| try_vec_grow a A k r l sets ok : nth_error (ad_vectors a) k = Some r -> co_vecs A k = VWriting l ->
    sets_ok (tr_struct r) sets -> (Z.of_nat (length l) + 1) * s_size (tr_struct r) + 16 <= isize_max ->
    tries a A (BVecGrow k sets) ok (co_vec k (VWriting (if ok then l ++ [sets] else l)) A)
| try_vec_close a A k r l ok : nth_error (ad_vectors a) k = Some r -> co_vecs A k = VWriting l ->
    tries a A (BVecClose k) ok (co_vec k (if ok then VDone l else VDead l) A)
| try_mul_start a A k r ok : nth_error (ad_multis a) k = Some r -> co_muls A k = MNever \/ co_muls A k = MFailed ->
    tries a A (BMulStart k) ok (co_mul k (if ok then MWriting [] else MFailed) A)
| try_mul_grow a A k r l items ok : nth_error (ad_multis a) k = Some r -> co_muls A k = MWriting l ->
    items_ok (mr_types r) items -> buckets_size (mr_types r) (l ++ [items]) < 2 ^ mr_bits r ->
    buckets_size (mr_types r) (l ++ [items]) + 16 <= isize_max ->
    (Z.of_nat (length l) + 2) * mr_size r + 16 <= isize_max ->
    tries a A (BMulGrow k items) ok (co_mul k (MWriting (if ok then l ++ [items] else l)) A)
| try_mul_close a A k r l ok : nth_error (ad_multis a) k = Some r -> co_muls A k = MWriting l ->
    tries a A (BMulClose k) ok (co_mul k (if ok then MDone l else MDead l) A)
| try_raw a A k r d ok : nth_error (ad_raws a) k = Some r -> data_ok d ->
    tries a A (BRaw k d) ok (co_raw k (tried ok d (co_raws A k)) A)
| try_sub_new a A k s ok : nth_error (ad_subs a) k = Some s -> co_subs A k = SNever \/ co_subs A k = SFailed ->
    tries a A (BSubNew k) ok (co_sub k (if ok then SLive no_course else SFailed) A)
| try_sub a A k s o ok A' A'' : nth_error (ad_subs a) k = Some s -> co_subs A k = SLive A' ->
    tries (snd (fst s)) A' o ok A'' ->
    tries a A (BSub k o) ok (co_sub k (SLive A'') A).

(** Calls and their results. *)
Inductive attempts (a : adesc) : course -> list bop -> list bool -> course -> Prop :=
| attempts_nil A : attempts a A [] [] A
| attempts_cons A o ok A' ops flags A'' : tries a A o ok A' -> attempts a A' ops flags A'' ->
    attempts a A (o :: ops) (ok :: flags) A''.

(** * What should be seen *)
(** Everything required is there for sure. *)
Fixpoint complete (a : adesc) (A : course) {struct a} : Prop :=
  let 'mkArchive _ _ structs vectors multis raws subs := a in
  (forall k r, nth_error structs k = Some r -> tr_opt r = false -> exists d, co_structs A k = Known (Some d)) /\
  (forall k r, nth_error vectors k = Some r -> tr_opt r = false ->
     (exists d, co_vecs A k = VByte (Known (Some d))) \/ exists l, co_vecs A k = VDone l) /\
  (forall k r, nth_error multis k = Some r -> mr_opt r = false -> exists l, co_muls A k = MDone l) /\
  (forall k r, nth_error raws k = Some r -> rr_opt r = false -> exists d, co_raws A k = Known (Some d)) /\
  (fix go (k : nat) (l : list (string * adesc * bool)) : Prop :=
     match l with
     | [] => True
     | (_, a', opt) :: l =>
         (opt = false -> match co_subs A k with SLive A' => complete a' A' | _ => False end) /\ go (S k) l
     end) O subs.
(** Everything required has at least been tried. *)
Fixpoint attempted (a : adesc) (A : course) {struct a} : Prop :=
  let 'mkArchive _ _ structs vectors multis raws subs := a in
  (forall k r, nth_error structs k = Some r -> tr_opt r = false -> co_structs A k <> Known None) /\
  (forall k r, nth_error vectors k = Some r -> tr_opt r = false -> co_vecs A k <> VByte (Known None)) /\
  (forall k r, nth_error multis k = Some r -> mr_opt r = false -> co_muls A k <> MNever) /\
  (forall k r, nth_error raws k = Some r -> rr_opt r = false -> co_raws A k <> Known None) /\
  (fix go (k : nat) (l : list (string * adesc * bool)) : Prop :=
     match l with
     | [] => True
     | (_, a', opt) :: l =>
         (opt = false ->
          match co_subs A k with SLive A' => attempted a' A' | SFailed => attempted a' no_course | SNever => False end) /\
         go (S k) l
     end) O subs.

Definition fate_shows (f : fate) (y : option slice) : Prop :=
  match f with
  | Known o => option_map sl_bytes y = o
  | Unsure l => forall sl, y = Some sl -> In (sl_bytes sl) l
  end.
Definition nothing_in (y : option slice) : Prop := forall sl, y = Some sl -> sl_bytes sl = [].
Definition vfate_shows (r : typed_res) (f : vfate) (y : option slice) : Prop :=
  match f with
  | VByte f => fate_shows f y
  | VWriting _ => nothing_in y
  | VDone l => shows_vec r (VClosed l) y
  | VDead l => nothing_in y \/ shows_vec r (VClosed l) y
  end.
Definition mfate_shows (r : multi_res) (f : mfate) (y : option slice * option slice) : Prop :=
  match f with
  | MNever => y = (None, None)
  | MFailed | MWriting _ => nothing_in (fst y) /\ nothing_in (snd y)
  | MDone l => shows_mul r (MClosed l) y
  | MDead l => nothing_in (fst y) \/ nothing_in (snd y) \/ shows_mul r (MClosed l) y
  end.
Fixpoint course_shows (a : adesc) (A : course) (x : archive) {struct a} : Prop :=
  let 'mkArchive _ _ structs vectors multis raws subs := a in
  (forall k r, nth_error structs k = Some r -> fate_shows (co_structs A k) (nth k (ar_structs x) None)) /\
  (forall k r, nth_error vectors k = Some r -> vfate_shows r (co_vecs A k) (nth k (ar_vectors x) None)) /\
  (forall k r, nth_error multis k = Some r -> mfate_shows r (co_muls A k) (nth k (ar_multis x) (None, None))) /\
  (forall k r, nth_error raws k = Some r -> fate_shows (co_raws A k) (nth k (ar_raws x) None)) /\
  (fix go (k : nat) (l : list (string * adesc * bool)) : Prop :=
     match l with
     | [] => True
     | (_, a', _) :: l =>
         match co_subs A k, nth k (ar_subs x) None with
         | SNever, y => y = None
         | SFailed, Some x' => attempted a' no_course /\ course_shows a' no_course x'
         | SFailed, None => True
         | SLive B, Some x' => attempted a' B /\ course_shows a' B x'
         | SLive B, None => ~ complete a' B
         end /\ go (S k) l
     end) O subs.
