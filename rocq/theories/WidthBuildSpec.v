(** Vocabulary for builders on narrow targets (C97, C98). *)
From Verif Require Import Base Codec CodecSpec Structs StructsSpec Views ViewsSpec.
From Verif Require Import Storage PathFacts StorageSpec Writers WritersSpec MultiViews MultiSpec Archives ArchiveSpec BuilderSpec.
Local Open Scope list_scope.
Local Open Scope Z_scope.

(** No resource of a plan has more than [max] bytes, with the size and the
    padding around it. *)
Definition bytes_fit (max : Z) (o : option (list Z)) : Prop := forall d, o = Some d -> len d + 16 <= max.
Definition vec_fits (max : Z) (r : typed_res) (o : vslot) : Prop :=
  match o with
  | VUnset => True
  | VSet d => len d + 16 <= max
  | VOpen l | VClosed l => Z.of_nat (length l) * s_size (tr_struct r) + 16 <= max
  end.
Definition mul_fits (max : Z) (r : multi_res) (o : mslot) : Prop :=
  match o with
  | MUnset => True
  | MOpen l | MClosed l =>
      buckets_size (mr_types r) l + 16 <= max /\ (Z.of_nat (length l) + 1) * mr_size r + 16 <= max
  end.
Fixpoint plan_fits (max : Z) (a : adesc) (A : plan) {struct a} : Prop :=
  let 'mkArchive _ _ structs vectors multis raws subs := a in
  16 <= max /\
  (forall k r, nth_error structs k = Some r -> bytes_fit max (pl_structs A k)) /\
  (forall k r, nth_error vectors k = Some r -> vec_fits max r (pl_vecs A k)) /\
  (forall k r, nth_error multis k = Some r -> mul_fits max r (pl_muls A k)) /\
  (forall k r, nth_error raws k = Some r -> bytes_fit max (pl_raws A k)) /\
  (fix go (k : nat) (l : list (string * adesc * bool)) : Prop :=
     match l with
     | [] => True
     | (_, a', _) :: l =>
         match pl_subs A k with Some A' => plan_fits max a' A' | None => True end /\ go (S k) l
     end) O subs.

(** The same for what is written with external vectors and multivectors only. *)
Definition writer_fits (max : Z) (r : typed_res) (o : vslot) : Prop :=
  match o with
  | VUnset | VSet _ => True
  | VOpen l | VClosed l => Z.of_nat (length l) * s_size (tr_struct r) + 16 <= max
  end.
Fixpoint writers_fit (max : Z) (a : adesc) (A : plan) {struct a} : Prop :=
  let 'mkArchive _ _ _ vectors multis _ subs := a in
  (forall k r, nth_error vectors k = Some r -> writer_fits max r (pl_vecs A k)) /\
  (forall k r, nth_error multis k = Some r -> mul_fits max r (pl_muls A k)) /\
  (fix go (k : nat) (l : list (string * adesc * bool)) : Prop :=
     match l with
     | [] => True
     | (_, a', _) :: l =>
         match pl_subs A k with Some A' => writers_fit max a' A' | None => True end /\ go (S k) l
     end) O subs.

(** One element, index entry or item, with its type, has at most [max] bytes. *)
Fixpoint elements_fit (max : Z) (a : adesc) {struct a} : Prop :=
  let 'mkArchive _ _ _ vectors multis _ subs := a in
  Forall (fun r => s_size (tr_struct r) <= max) vectors /\
  Forall (fun r => mr_size r <= max /\ Forall (fun x => s_size (snd x) < max) (mr_types r)) multis /\
  (fix go (l : list (string * adesc * bool)) : Prop :=
     match l with
     | [] => True
     | (_, a', _) :: l => elements_fit max a' /\ go l
     end) subs.
